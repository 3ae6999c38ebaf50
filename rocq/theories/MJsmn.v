(** Model of the JSON tokenizer jsmn v1.1.0 (lib/jsmn.cmake line 5 in /repo
    fixes the version), in its default mode: neither JSMN_STRICT nor
    JSMN_PARENT_LINKS is defined in /repo. The source is a dependency that is
    not part of /repo; line numbers below are of jsmn.h v1.1.0 as published. *)
From Verif Require Import Base.
Open Scope N_scope.

Inductive toktype := TUndef | TObject | TArray | TString | TPrim.

(** [jsmntok_t]. *)
Record token := mk_tok { tk_type : toktype; tk_start : Z; tk_end : Z; tk_size : Z }.

(** Error codes JSMN_ERROR_NOMEM, _INVAL, _PART. *)
Inductive jerr := JNoMem | JInval | JPart.

(** The token slots filled so far ([toknext] is the length of the list) and
    [toksuper] ([None] for -1). *)
Record jstate := mk_js { js_toks : list token; js_super : option nat }.

Fixpoint upd_nth (l : list token) (i : nat) (f : token -> token) : list token :=
  match l, i with
  | [], _ => []
  | t :: r, O => f t :: r
  | t :: r, S j => t :: upd_nth r j f
  end.

Definition is_hex (c : N) : bool :=
  ((48 <=? c) && (c <=? 57)) || ((65 <=? c) && (c <=? 70)) || ((97 <=? c) && (c <=? 102)).

(** State of the scan inside a string: plain, after a backslash, or inside a
    \u escape with [k] hex digits read. *)
Inductive sscan := SPlain | SEsc | SHex (k : nat).

Definition esc_ok (c : N) : bool :=
  (c =? 34) || (c =? 47) || (c =? 92) || (c =? 98) || (c =? 102) || (c =? 114)
  || (c =? 110) || (c =? 116).

(** jsmn_parse_string after the opening quote: the number of characters up to
    the closing quote. The end of the input and a NUL character end the scan
    with JSMN_ERROR_PART. A NUL directly after a backslash is not a valid
    escape; a backslash as the last character is skipped. *)
Fixpoint parse_string (l : bytes) (st : sscan) (n : N) : N + jerr :=
  match l with
  | [] => inr JPart
  | c :: r =>
    match st with
    | SPlain =>
      if c =? 0 then inr JPart
      else if c =? 34 then inl n
      else if (c =? 92) && negb (match r with [] => true | _ => false end)
           then parse_string r SEsc (n + 1)
      else parse_string r SPlain (n + 1)
    | SEsc =>
      if esc_ok c then parse_string r SPlain (n + 1)
      else if c =? 117 then parse_string r (SHex 0) (n + 1)
      else inr JInval
    | SHex k =>
      if c =? 0 then inr JPart
      else if is_hex c
           then parse_string r (if (k =? 3)%nat then SPlain else SHex (S k)) (n + 1)
      else inr JInval
    end
  end.

(** Characters that end a primitive: colon, tab, CR, LF, space, comma, closing
    square and curly bracket. *)
Definition prim_end (c : N) : bool :=
  (c =? 58) || (c =? 9) || (c =? 13) || (c =? 10) || (c =? 32) || (c =? 44)
  || (c =? 93) || (c =? 125).

(** jsmn_parse_primitive from its first character: number of characters. *)
Fixpoint parse_primitive (l : bytes) (n : N) : N + jerr :=
  match l with
  | [] => inl n
  | c :: r =>
    if (c =? 0) || prim_end c then inl n
    else if (c <? 32) || (127 <=? c) then inr JInval
    else parse_primitive r (n + 1)
  end.

(** jsmn_alloc_token and the fields set right after it. *)
Definition alloc_token (num : nat) (st : jstate) (t : token) : option jstate :=
  if (List.length (js_toks st) <? num)%nat
  then Some (mk_js (js_toks st ++ [t]) (js_super st)) else None.

Definition incr_size (t : token) : token :=
  mk_tok (tk_type t) (tk_start t) (tk_end t) (tk_size t + 1).

Definition incr_super (st : jstate) : jstate :=
  match js_super st with
  | None => st
  | Some i => mk_js (upd_nth (js_toks st) i incr_size) (js_super st)
  end.

Definition is_open (t : token) : bool :=
  negb (tk_start t =? -1)%Z && (tk_end t =? -1)%Z.

(** Searching the slots from the last to the first. *)
Fixpoint find_last (f : token -> bool) (l : list token) (i : nat) : option nat :=
  match l with
  | [] => None
  | t :: r =>
    match find_last f r (S i) with
    | Some j => Some j
    | None => if f t then Some i else None
    end
  end.

Definition type_eqb (a b : toktype) : bool :=
  match a, b with
  | TUndef, TUndef | TObject, TObject | TArray, TArray | TString, TString
  | TPrim, TPrim => true
  | _, _ => false
  end.

Definition is_container (t : token) : bool :=
  type_eqb (tk_type t) TObject || type_eqb (tk_type t) TArray.

(** Opening bracket: a new open token, counted by the current super token;
    it becomes the super token. *)
Definition open_step (num : nat) (st : jstate) (ty : toktype) (pos : N) : jstate + jerr :=
  match alloc_token num st (mk_tok ty (Z.of_N pos) (-1) 0) with
  | None => inr JNoMem
  | Some st' =>
    let st' := incr_super st' in
    inl (mk_js (js_toks st') (Some (List.length (js_toks st') - 1)%nat))
  end.

(** Closing bracket: closes the last open token, which must have the same
    type; the next open one below becomes the super token. *)
Definition close_step (st : jstate) (ty : toktype) (pos : N) : jstate + jerr :=
  match find_last is_open (js_toks st) 0 with
  | None => inr JInval
  | Some i =>
    match nth_error (js_toks st) i with
    | None => inr JInval
    | Some t =>
      if negb (type_eqb (tk_type t) ty) then inr JInval
      else
        let toks := upd_nth (js_toks st) i
              (fun t => mk_tok (tk_type t) (tk_start t) (Z.of_N pos + 1) (tk_size t)) in
        inl (mk_js toks (find_last is_open (firstn i toks) 0))
    end
  end.

Definition colon_step (st : jstate) : jstate :=
  mk_js (js_toks st)
        (match js_toks st with [] => None | l => Some (List.length l - 1)%nat end).

Definition comma_step (st : jstate) : jstate :=
  match js_super st with
  | None => st
  | Some i =>
    match nth_error (js_toks st) i with
    | None => st
    | Some t =>
      if is_container t then st
      else
        match find_last (fun t => is_container t && is_open t) (js_toks st) 0 with
        | None => st
        | Some j => mk_js (js_toks st) (Some j)
        end
    end
  end.

(** A filled token (string or primitive). *)
Definition leaf_step (num : nat) (st : jstate) (ty : toktype) (s e : N) : jstate + jerr :=
  match alloc_token num st (mk_tok ty (Z.of_N s) (Z.of_N e) 0) with
  | None => inr JNoMem
  | Some st' => inl (incr_super st')
  end.

(** After the loop: an open token is an error. *)
Definition finish (st : jstate) : list token + jerr :=
  match find_last is_open (js_toks st) 0 with
  | Some _ => inr JPart
  | None => inl (js_toks st)
  end.

(** jsmn_parse: the main loop. [skip] characters of [l] have been consumed by
    a string or primitive already. On success the filled slots are returned;
    their number is the returned count. *)
Fixpoint jsmn_loop (num : nat) (l : bytes) (pos : N) (skip : nat) (st : jstate)
  : list token + jerr :=
  match l with
  | [] => finish st
  | c :: r =>
    match skip with
    | S k => jsmn_loop num r (pos + 1) k st
    | O =>
      let go st := jsmn_loop num r (pos + 1) 0 st in
      let via x := match x with inl st => go st | inr e => inr e end in
      if c =? 0 then finish st
      else if c =? 123 then via (open_step num st TObject pos)
      else if c =? 91 then via (open_step num st TArray pos)
      else if c =? 125 then via (close_step st TObject pos)
      else if c =? 93 then via (close_step st TArray pos)
      else if c =? 34 then
        match parse_string r SPlain 0 with
        | inr e => inr e
        | inl n =>
          match leaf_step num st TString (pos + 1) (pos + 1 + n) with
          | inr e => inr e
          | inl st => jsmn_loop num r (pos + 1) (N.to_nat n + 1) st
          end
        end
      else if (c =? 9) || (c =? 13) || (c =? 10) || (c =? 32) then go st
      else if c =? 58 then go (colon_step st)
      else if c =? 44 then go (comma_step st)
      else
        match parse_primitive l 0 with
        | inr e => inr e
        | inl n =>
          match leaf_step num st TPrim pos (pos + n) with
          | inr e => inr e
          | inl st => jsmn_loop num r (pos + 1) (N.to_nat n - 1) st
          end
        end
    end
  end.

(** jsmn_init followed by jsmn_parse(js, len, tokens, num). Offsets are C
    [int]: the text is shorter than 2^31. *)
Definition jsmn_parse (js : bytes) (num : nat) : list token + jerr :=
  jsmn_loop num js 0 0 (mk_js [] None).
