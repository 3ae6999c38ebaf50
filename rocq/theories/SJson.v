(** Specification of the JSON form of vouchers. *)
From Verif Require Import Base SBase64 MSerialize SSerialize MVoucher SVoucher.
Open Scope N_scope.

(** ** Attribute values and their texts *)

Inductive pval :=
| PTime (t : tm) | PEnum (z : Z) | PStr (s : bytes) | PArr (d : bytes) | PBool (b : bool).

(** [x] is a valid text for attribute [a], with meaning [p]. Date-times are
    read by the library's own parser (C08, C09), from the first 63 bytes. *)
Definition value_ok (a : attr) (x : bytes) (p : pval) : Prop :=
  match kind a with
  | KTime => exists t, serialize_str2time (Some (firstn 63 x)) = Some t /\ p = PTime t
  | KEnum => (x = s2b "verified" /\ p = PEnum 1) \/ (x = s2b "logged" /\ p = PEnum 2) \/
             (x = s2b "proximity" /\ p = PEnum 3)
  | KStr => blen x < 128 /\ p = PStr x
  | KArr => exists d, rfc_decode x = Some d /\ p = PArr d
  | KBool => (means_true x /\ p = PBool true) \/ (means_false x /\ p = PBool false)
  | KNone => False
  end.

(** The getter of the right kind answers [p]. *)
Definition has_value (v : voucher) (a : attr) (p : pval) : Prop :=
  match p with
  | PTime t => get_attr_time (Some v) a = Some t
  | PEnum z => get_attr_enum (Some v) a = Some z
  | PStr s => get_attr_str (Some v) a = Some (Some s)
  | PArr d => get_attr_array (Some v) a = Some (ba_of d)
  | PBool b => get_attr_bool (Some v) a = Some b
  end.

Definition attr_eq_dec (a b : attr) : {a = b} + {a <> b}.
Proof. decide equality. apply Z.eq_dec. Defined.

(** The last value given for [a]. *)
Fixpoint last_of (a : attr) (kvs : list (attr * pval)) : option pval :=
  match kvs with
  | [] => None
  | (b, p) :: r =>
    match last_of a r with
    | Some q => Some q
    | None => if attr_eq_dec a b then Some p else None
    end
  end.

(** The voucher holds exactly these values: the last one of each attribute
    given, nothing for the others. *)
Definition holds_exactly (v : voucher) (kvs : list (attr * pval)) : Prop :=
  forall a, match last_of a kvs with
            | Some p => has_value v a p
            | None => attr_blank v a
            end.

Definition occurs (x json : bytes) : Prop := exists a b, json = a ++ x ++ b.

(** An attribute, a text and its meaning, such that the text is NUL-free and
    valid for the attribute, and occurs in [J] behind the attribute's name. *)
Definition entry_ok (J : bytes) (e : attr * bytes * pval) : Prop :=
  let '(a, x, p) := e in
  In a all_attrs /\ value_ok a x p /\ cstr_ok x /\ exists A M B, J = A ++ attr_name a ++ M ++ x ++ B.
Definition entry_kv (e : attr * bytes * pval) : attr * pval := let '(a, x, p) := e in (a, p).

(** ** Texts of one JSON voucher object *)

Definition ws_char (c : N) : Prop := c = 9 \/ c = 10 \/ c = 13 \/ c = 32.

(** A quoted text without escapes, or a bare word such as [true]. *)
Inductive jval := JQuoted (s : bytes) | JBare (s : bytes).
Definition jtext (x : jval) : bytes := match x with JQuoted s => s | JBare s => s end.
Definition jrender (x : jval) : bytes :=
  match x with JQuoted s => s2b """" ++ s ++ s2b """" | JBare s => s end.

Definition plain_char (c : N) : Prop := 0 < c < 256 /\ c <> 34 /\ c <> 92.
Definition bare_char (c : N) : Prop :=
  (48 <= c <= 57) \/ (65 <= c <= 90) \/ (97 <= c <= 122) \/ c = 43 \/ c = 45 \/ c = 46 \/ c = 47 \/ c = 61.
Definition jval_ok (x : jval) : Prop :=
  match x with
  | JQuoted s => Forall plain_char s
  | JBare s => s <> [] /\ Forall bare_char s
  end.

(** A member with white space around each part. *)
Record member := mk_mem { m_w1 : bytes; m_key : bytes; m_w2 : bytes; m_w3 : bytes; m_val : jval; m_w4 : bytes }.
Definition member_ok (m : member) : Prop :=
  Forall ws_char (m_w1 m) /\ Forall ws_char (m_w2 m) /\ Forall ws_char (m_w3 m) /\
  Forall ws_char (m_w4 m) /\ Forall plain_char (m_key m) /\ jval_ok (m_val m).
Definition member_text (m : member) : bytes :=
  m_w1 m ++ s2b """" ++ m_key m ++ s2b """" ++ m_w2 m ++ s2b ":" ++ m_w3 m ++ jrender (m_val m) ++ m_w4 m.

(** A document with one object under the key [key]; [w] is white space. *)
Record layout := mk_lay { w_a : bytes; w_b : bytes; w_c : bytes; w_d : bytes; w_e : bytes; w_f : bytes; w_g : bytes }.
Definition layout_ok (w : layout) : Prop :=
  Forall ws_char (w_a w) /\ Forall ws_char (w_b w) /\ Forall ws_char (w_c w) /\ Forall ws_char (w_d w) /\
  Forall ws_char (w_e w) /\ Forall ws_char (w_f w) /\ Forall ws_char (w_g w).
Definition document (w : layout) (key : bytes) (ms : list member) : bytes :=
  w_a w ++ s2b "{" ++ w_b w ++ s2b """" ++ key ++ s2b """" ++ w_c w ++ s2b ":" ++ w_d w
  ++ s2b "{" ++ join (s2b ",") (map member_text ms) ++ w_e w ++ s2b "}" ++ w_f w ++ s2b "}" ++ w_g w.

Definition prefix_of_root (key : bytes) : Prop := exists r, root_name = key ++ r.

(** The members name known attributes with valid texts, with these meanings. *)
Definition meaning (ms : list member) (kvs : list (attr * pval)) : Prop :=
  Forall2 (fun m kv => m_key m = attr_name (fst kv) /\ In (fst kv) all_attrs /\
                       value_ok (fst kv) (jtext (m_val m)) (snd kv)) ms kvs.

(** ** Observable equality of vouchers *)

Definition same_datetime (a b : tm) : Prop :=
  tm_year a = tm_year b /\ tm_mon a = tm_mon b /\ tm_mday a = tm_mday b /\
  tm_hour a = tm_hour b /\ tm_min a = tm_min b /\ tm_sec a = tm_sec b.

(** All attributes agree; date-times up to the derived fields (weekday, day of
    the year, daylight saving flag). *)
Definition same_voucher (v w : voucher) : Prop :=
  (forall a s t, get_attr_time (Some v) a = Some s -> get_attr_time (Some w) a = Some t -> same_datetime s t) /\
  (forall a, kind a <> KTime -> observe v a = observe w a) /\
  (forall a, is_attr_nonempty v a = is_attr_nonempty w a).

(** Vouchers that can be written as JSON: dates absent or with a four digit
    year and fields in range; serial number of plain characters; arrays absent
    or non-empty. *)
Definition date_ready (t : tm) : Prop :=
  t = tm_zero \/
  ((1000 <= tm_year t + 1900 <= 9999) /\ (0 <= tm_mon t <= 11) /\ (1 <= tm_mday t <= 31) /\
   (0 <= tm_hour t <= 23) /\ (0 <= tm_min t <= 59) /\ (0 <= tm_sec t <= 61))%Z.
Definition array_ready (b : barray) : Prop :=
  b = ba_null \/ exists d, b = ba_of d /\ d <> [] /\ bytes_ok d /\ blen d < SIZE_MAX / 4.
Definition json_ready (v : voucher) : Prop :=
  (forall a t, get_attr_time (Some v) a = Some t -> date_ready t) /\
  (forall a b, get_attr_array (Some v) a = Some b -> array_ready b) /\
  (0 <= v_assertion v <= 3)%Z /\
  (forall s, v_serial v = Some s -> Forall plain_char s /\ blen s < 128).
