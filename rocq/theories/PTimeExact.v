(** The texts that serialize_str2time accepts, exactly. *)
From Coq Require Import ZifyBool ZifyNat ZifyN.
From Verif Require Import Base PBase MSerialize SSerialize PSerialize.
Open Scope N_scope.

Lemma skip_blanks : forall sp s, Forall is_blank sp -> skip_space (sp ++ s) = skip_space s.
Proof. induction sp as [|c sp IH]; intros s F; [reflexivity|]. inversion F as [|? ? B F']; subst. cbn [app skip_space]. replace (isspace c) with true by (unfold is_blank in B; unfold isspace; lia). apply IH. exact F'. Qed.
Lemma dec_mono : forall ds a, Forall is_dec ds -> (0 <= a)%Z -> (a <= fold_left (fun a c => (a * 10 + (Z.of_N c - 48))%Z) ds a)%Z.
Proof. induction ds as [|c ds IH]; intros a F A; cbn [fold_left]; [lia|]. inversion F as [|? ? B F']; subst. unfold is_dec in B. pose proof (IH (a * 10 + (Z.of_N c - 48))%Z F' ltac:(lia)). lia. Qed.
Lemma digits_all : forall ds n hi a c r, Forall is_dec ds -> (0 <= a)%Z -> (List.length ds <= n)%nat -> (fold_left (fun a c => (a * 10 + (Z.of_N c - 48))%Z) ds a <= hi)%Z -> isdigit c = false ->
  get_digits n hi a (ds ++ c :: r) = (fold_left (fun a c => (a * 10 + (Z.of_N c - 48))%Z) ds a, c :: r).
Proof.
  induction ds as [|x ds IH]; intros n hi a c r F A L H D.
  - cbn [app fold_left]. destruct n; cbn [get_digits]; [reflexivity|]. rewrite D. reflexivity.
  - cbn [List.length] in L. destruct n as [|n]; [lia|]. inversion F as [|? ? B F']; subst. unfold is_dec in B. cbn [app fold_left get_digits] in *. pose proof (dec_mono ds (a * 10 + (Z.of_N x - 48))%Z F' ltac:(lia)).
    replace (isdigit x && (a * 10 <=? hi)%Z) with true by (unfold isdigit; lia). apply IH; try assumption; lia.
Qed.
Lemma number_read : forall lo hi w v f c r, field_text lo hi w v f -> isdigit c = false -> get_number lo hi w (f ++ c :: r) = Some (v, c :: r).
Proof.
  intros lo hi w v f c r (sp & ds & -> & Bs & Fd & L & E & Rg) D. unfold get_number. rewrite <- app_assoc, skip_blanks by exact Bs.
  destruct ds as [|x ds]; [cbn in L; lia|]. inversion Fd as [|? ? B F']; subst. unfold is_dec in B. cbn [app skip_space]. replace (isspace x) with false by (unfold isspace; lia). replace (isdigit x) with true by (unfold isdigit; lia).
  unfold dec_value in *. cbn [fold_left List.length] in *. replace (0 * 10 + (Z.of_N x - 48))%Z with (Z.of_N x - 48)%Z in * by lia.
  rewrite digits_all; [|exact F'|lia|lia|lia|exact D]. replace (_ || _)%bool with false by lia. reflexivity.
Qed.
Lemma str2time_reads : forall fy fmo fd fh fmi fs rest y mo d h mi s,
  field_text 0 9999 4 y fy -> field_text 1 12 2 mo fmo -> field_text 1 31 2 d fd -> field_text 0 23 2 h fh -> field_text 0 59 2 mi fmi -> field_text 0 61 2 s fs ->
  exists t, serialize_str2time (Some (fy ++ s2b "-" ++ fmo ++ s2b "-" ++ fd ++ s2b "T" ++ fh ++ s2b ":" ++ fmi ++ s2b ":" ++ fs ++ s2b "Z" ++ rest)) = Some t /\
    tm_year t = (y - 1900)%Z /\ tm_mon t = (mo - 1)%Z /\ tm_mday t = d /\ tm_hour t = h /\ tm_min t = mi /\ tm_sec t = s.
Proof.
  intros fy fmo fd fh fmi fs rest y mo d h mi s F1 F2 F3 F4 F5 F6. unfold serialize_str2time, strptime_iso.
  change (s2b "-") with [45]. change (s2b "T") with [84]. change (s2b ":") with [58]. change (s2b "Z") with [90]. cbn [app].
  repeat (erewrite number_read by (try eassumption; reflexivity); cbn [obnd get_lit]; change (_ =? _) with true at 1; cbn [obnd]).
  eexists. split; [reflexivity|]. cbn. repeat split.
Qed.
Lemma str2time_exact : forall s y mo d h mi se,
  ((exists t, serialize_str2time (Some s) = Some t /\ (tm_year t + 1900)%Z = y /\ (tm_mon t + 1)%Z = mo /\ tm_mday t = d /\ tm_hour t = h /\ tm_min t = mi /\ tm_sec t = se) <->
   exists fy fmo fd fh fmi fs rest,
    s = fy ++ s2b "-" ++ fmo ++ s2b "-" ++ fd ++ s2b "T" ++ fh ++ s2b ":" ++ fmi ++ s2b ":" ++ fs ++ s2b "Z" ++ rest /\
    field_text 0 9999 4 y fy /\ field_text 1 12 2 mo fmo /\ field_text 1 31 2 d fd /\ field_text 0 23 2 h fh /\ field_text 0 59 2 mi fmi /\ field_text 0 61 2 se fs).
Proof.
  intros s y mo d h mi se. split.
  - intros (t & E & <- & <- & <- & <- & <- & <-). exact (str2time_shape _ _ E).
  - intros (fy & fmo & fd & fh & fmi & fs & rest & -> & F1 & F2 & F3 & F4 & F5 & F6). destruct (str2time_reads fy fmo fd fh fmi fs rest _ _ _ _ _ _ F1 F2 F3 F4 F5 F6) as (t & E & Q1 & Q2 & Q3 & Q4 & Q5 & Q6).
    exists t. split; [exact E|]. repeat split; lia.
Qed.
