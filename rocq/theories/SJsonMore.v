(** Specification: beginnings of JSON voucher texts. *)
From Verif Require Import Base SBase64 MSerialize SSerialize MVoucher SVoucher SJson.
Open Scope N_scope.

(** A document up to its last member, inside the voucher object. *)
Definition opening (w : layout) (key : bytes) (ms : list member) : bytes :=
  w_a w ++ s2b "{" ++ w_b w ++ s2b """" ++ key ++ s2b """" ++ w_c w ++ s2b ":" ++ w_d w
  ++ s2b "{" ++ join (s2b ",") (map member_text ms).

(** The same with the closing brace of the voucher object. *)
Definition voucher_part (w : layout) (key : bytes) (ms : list member) : bytes :=
  opening w key ms ++ w_e w ++ s2b "}".

(** The beginning of a further member, up to its value. *)
Definition comma_if (ms : list member) : bytes := match ms with [] => [] | _ => s2b "," end.
Definition member_start (w1 key w2 w3 : bytes) : bytes := w1 ++ s2b """" ++ key ++ s2b """" ++ w2 ++ s2b ":" ++ w3.

(** The first member is a serial number of acceptable length. *)
Definition starts_with_serial (ms : list member) : Prop :=
  exists m r, ms = m :: r /\ m_key m = s2b "serial-number" /\ blen (jtext (m_val m)) < 128.
