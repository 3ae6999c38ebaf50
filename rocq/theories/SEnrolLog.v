(** What the registrar's enrolment log is expected to say. *)
From Verif Require Import Base MOs MSerialize MHandlers MEnrolLog SArray SSerialize SHandlers.
Open Scope N_scope.

(** An enrolment: when, the number and the holder's serial number of the client's
    certificate, and those of the certificate it obtained. *)
Record enrolled := mk_enrolled { en_time : Z; en_client : Z; en_client_holder : option bytes; en_cert : Z; en_cert_holder : option bytes }.

(** The names of a certificate can be read, and [holder] is its subject's serial number if it has one. *)
Definition readable_names (v : cert_view) : Prop := forall n, In n NNAMES -> cv_issuer_entry v n <> None /\ cv_subject_entry v n <> None.
Definition holder_of (v : cert_view) (holder : option bytes) : Prop :=
  match holder with
  | Some s => exists t, cv_subject_entry v (s2b "serialNumber") = Some (Some t) /\ s = c_string t
  | None => cv_subject_entry v (s2b "serialNumber") = Some None
  end.

(** The enrolment at [now] of the client with the certificate [i] that obtained [l]. *)
Definition describes (now : Z) (i l : cert_seen) (e : enrolled) : Prop :=
  readable_names (cs_view i) /\ readable_names (cs_view l) /\
  en_time e = now /\ en_client e = cs_serial i /\ holder_of (cs_view i) (en_client_holder e) /\ en_cert e = cs_serial l /\ holder_of (cs_view l) (en_cert_holder e).

(** The text of an entry: the time, and for both certificates the number in hexadecimal and the holder in quotes. *)
Definition is_hex (c : N) : Prop := 48 <= c <= 57 \/ 97 <= c <= 102.
Definition hex_value (ds : bytes) : Z :=
  fold_left (fun a c => (a * 16 + (Z.of_N c - if (c <=? 57)%N then 48 else 87))%Z) ds 0%Z.
Definition fits (z : Z) : Prop := (0 <= z < 18446744073709551616)%Z.
Definition number_text (z : Z) (ds : bytes) : Prop := Forall is_hex ds /\ (fits z /\ hex_value ds = z \/ ~ fits z /\ hex_value ds = 0%Z).
Definition holder_text (t : option bytes) : bytes := match t with Some s => s | None => s2b "NULL" end.
Definition entry_text (e : enrolled) (line : bytes) : Prop :=
  exists t i l, Forall is_dec t /\ dec_value t = (en_time e mod 18446744073709551616)%Z /\ number_text (en_client e) i /\ number_text (en_cert e) l /\
    line = t ++ [32; 48; 120] ++ i ++ [32; 34] ++ holder_text (en_client_holder e) ++ [34; 32; 48; 120] ++ l ++ [32; 34] ++ holder_text (en_cert_holder e) ++ [34; 10].

(** The logs that enrolments leave, in their order, from an empty file. *)
Inductive logs : list enrolled -> bytes -> Prop :=
| logs_none : logs [] []
| logs_more : forall es log now i l e log', logs es log -> describes now i l e -> save_to_log now true log (Some i) l = Ok log' -> logs (es ++ [e]) log'.

(** The entries that can be told apart from others: the time and the numbers fit,
    and the holders are free of quotes and are not called NULL. *)
Definition plain_holder (t : option bytes) : Prop := match t with Some s => ~ In 34 s /\ s <> s2b "NULL" | None => True end.
Definition plain_entry (e : enrolled) : Prop :=
  fits (en_time e) /\ fits (en_client e) /\ fits (en_cert e) /\ plain_holder (en_client_holder e) /\ plain_holder (en_cert_holder e).
