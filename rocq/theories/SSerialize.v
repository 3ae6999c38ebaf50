(** Specifications for the scalar and key/value text forms. *)
From Verif Require Import Base.
Open Scope N_scope.

(** Joining with a separator. *)
Fixpoint join (sep : bytes) (l : list bytes) : bytes :=
  match l with
  | [] => []
  | [x] => x
  | x :: r => x ++ sep ++ join sep r
  end.

Definition kv_json (kvs : list (bytes * bytes)) : bytes :=
  s2b "{" ++ join (s2b ",") (map (fun kv => fst kv ++ s2b ":" ++ snd kv) kvs) ++ s2b "}".

(** [s] equals the lower-case word [w] up to ASCII letter case. *)
Definition ci_eq (s w : bytes) : Prop := Forall2 (fun c l => c = l \/ c + 32 = l) s w.

Definition means_true (s : bytes) : Prop := s = s2b "1" \/ ci_eq s (s2b "true").
Definition means_false (s : bytes) : Prop := s = s2b "0" \/ ci_eq s (s2b "false").

(** The k-th decimal digit (k = 0 is the last one) as a character. *)
Definition digit_at (k : N) (v : N) : N := 48 + v / 10 ^ k mod 10.
Definition two (v : N) : bytes := [digit_at 1 v; digit_at 0 v].
Definition four (v : N) : bytes := [digit_at 3 v; digit_at 2 v; digit_at 1 v; digit_at 0 v].

(** YYYY-MM-DDTHH:MM:SSZ. *)
Definition iso_text (y mo d h mi s : N) : bytes :=
  four y ++ s2b "-" ++ two mo ++ s2b "-" ++ two d ++ s2b "T" ++ two h ++ s2b ":"
  ++ two mi ++ s2b ":" ++ two s ++ s2b "Z".

(** A real calendar date in the proleptic Gregorian calendar; the seconds field
    allows a leap second. *)
Definition leap (y : N) : bool := (y mod 4 =? 0) && (negb (y mod 100 =? 0) || (y mod 400 =? 0)).
Definition month_days (y mo : N) : N :=
  match mo with
  | 4 | 6 | 9 | 11 => 30
  | 2 => if leap y then 29 else 28
  | _ => 31
  end.
Definition real_datetime (y mo d h mi s : N) : Prop :=
  1 <= mo <= 12 /\ 1 <= d <= month_days y mo /\ h <= 23 /\ mi <= 59 /\ s <= 60.

(** What the parser accepts for one numeric field: optional white space, then
    between 1 and [w] digits with a value in range. *)
Definition dec_value (ds : bytes) : Z :=
  fold_left (fun a c => (a * 10 + (Z.of_N c - 48))%Z) ds 0%Z.
Definition is_blank (c : N) : Prop := 9 <= c <= 13 \/ c = 32.
Definition is_dec (c : N) : Prop := 48 <= c <= 57.
Definition field_text (lo hi : Z) (w : nat) (v : Z) (s : bytes) : Prop :=
  exists sp ds, s = sp ++ ds /\ Forall is_blank sp /\ Forall is_dec ds /\
    (1 <= List.length ds <= w)%nat /\ v = dec_value ds /\ (lo <= v <= hi)%Z.
