(** Specification of base64 after RFC 4648, independent of the model: groups
    are read as numbers, the alphabet is given by ranges. *)
From Verif Require Import Base.
Open Scope N_scope.

(** RFC 4648 table 1. *)
Definition b64_char (v : N) : N :=
  if v <? 26 then 65 + v
  else if v <? 52 then 97 + (v - 26)
  else if v <? 62 then 48 + (v - 52)
  else if v =? 62 then 43
  else 47.

(** Value of an alphabet character. *)
Definition b64_val (c : N) : option N :=
  if (65 <=? c) && (c <=? 90) then Some (c - 65)
  else if (97 <=? c) && (c <=? 122) then Some (c - 97 + 26)
  else if (48 <=? c) && (c <=? 57) then Some (c - 48 + 52)
  else if c =? 43 then Some 62
  else if c =? 47 then Some 63
  else None.

(** The characters the decoder looks at: the alphabet and '='. *)
Definition b64_relevant (c : N) : bool :=
  match b64_val c with Some _ => true | None => c =? 61 end.

(** RFC 4648 section 4 with padding. *)
Fixpoint rfc_encode (l : bytes) : bytes :=
  match l with
  | [] => []
  | [a] =>
    let v := a * 16 in
    [b64_char (v / 64); b64_char (v mod 64); 61; 61]
  | [a; b] =>
    let v := (a * 256 + b) * 4 in
    [b64_char (v / 4096); b64_char (v / 64 mod 64); b64_char (v mod 64); 61]
  | a :: b :: c :: rest =>
    let v := a * 65536 + b * 256 + c in
    b64_char (v / 262144) :: b64_char (v / 4096 mod 64)
      :: b64_char (v / 64 mod 64) :: b64_char (v mod 64) :: rfc_encode rest
  end.

(** Length of the padded encoding of [n] bytes. *)
Definition rfc_len (n : N) : N := 4 * ((n + 2) / 3).

(** Decoding of relevant characters, four at a time. Missing characters of the
    last group count as '='. The first group containing '=' ends the data; it
    carries two bytes with one '=', one byte with two, and is an error with
    three or more. [None] is failure. *)
Definition val0 (c : N) : N := match b64_val c with Some v => v | None => 0 end.

Definition pads (g : bytes) : nat := List.length (filter (fun c => c =? 61) g).

Definition group_bytes (c0 c1 c2 c3 : N) : bytes :=
  let v := val0 c0 * 262144 + val0 c1 * 4096 + val0 c2 * 64 + val0 c3 in
  [v / 65536; v / 256 mod 256; v mod 256].

Definition close_group (g : bytes) (out : bytes) : option bytes :=
  match pads g with
  | 1%nat => Some (firstn 2 out)
  | 2%nat => Some (firstn 1 out)
  | _ => None
  end.

Fixpoint rfc_decode_groups (l : bytes) : option bytes :=
  match l with
  | [] => Some []
  | c0 :: c1 :: c2 :: c3 :: rest =>
    let g := [c0; c1; c2; c3] in
    if (pads g =? 0)%nat then
      match rfc_decode_groups rest with
      | Some out => Some (group_bytes c0 c1 c2 c3 ++ out)
      | None => None
      end
    else close_group g (group_bytes c0 c1 c2 c3)
  | [c0] => None
  | [c0; c1] => close_group [c0; c1; 61; 61] (group_bytes c0 c1 61 61)
  | [c0; c1; c2] => close_group [c0; c1; c2; 61] (group_bytes c0 c1 c2 61)
  end.

Definition rfc_decode (src : bytes) : option bytes :=
  match filter b64_relevant src with
  | [] => None
  | l => rfc_decode_groups l
  end.

(** The first group of four relevant characters (the last, incomplete group
    completed with '=') that contains a '='. *)
Fixpoint first_padded (l : bytes) : option bytes :=
  match l with
  | [] => None
  | c0 :: c1 :: c2 :: c3 :: rest =>
    if (pads [c0; c1; c2; c3] =? 0)%nat then first_padded rest else Some [c0; c1; c2; c3]
  | g => Some (g ++ repeat 61 (4 - List.length g))
  end.
