(** Request lines: targets that are misread, and cases. *)
From Coq Require Import ZifyBool ZifyNat ZifyN Sorted.
From Verif Require Import Base PBase MSerialize MHttp SHttp PHttp PHttp2 MTls MWire SWire PWire PWire2 PWire3 PWire4 PWire5 PWire6 PWire7 PWire8 STarget PTarget PTarget2.
Open Scope N_scope.

Definition route_line (target : bytes) : bytes := s2b "POST " ++ target ++ s2b " HTTP/1.1".
Definition route_case (target : bytes) : stream := mk_stream (lined_request (route_line target) [(s2b "Content-Length", s2b "4")] (s2b "MIIB")) (fun _ => 1) 0 false.
Lemma route_words target : Forall (fun c => c <> 0) target -> word target -> request_line_of (route_line target) (s2b "POST") target (s2b "HTTP/1.1").
Proof.
  intros F W. split; [|split; [|split; [right; right; left; reflexivity|left; reflexivity]]].
  - unfold route_line. rewrite !Forall_app. repeat split; try exact F; repeat constructor; discriminate.
  - exists [], [32], [32], []. split; [reflexivity|]. split; [constructor|]. split; [split; [repeat constructor|left; reflexivity]|]. split; [split; [repeat constructor|left; reflexivity]|].
    split; [constructor|]. split; [|split; [exact W|]].
    + split; [repeat constructor; discriminate|]. split; [exists 80, (s2b "OST"); split; [reflexivity|unfold blank_char; lia]|exists (s2b "POS"), 84; split; [reflexivity|unfold blank_char; lia]].
    + split; [repeat constructor; discriminate|]. split; [exists 72, (s2b "TTP/1.1"); split; [reflexivity|unfold blank_char; lia]|exists (s2b "HTTP/1."), 49; split; [reflexivity|unfold blank_char; lia]].
Qed.
Definition wordb (w : bytes) : bool := forallb (fun c => negb (c =? 32) && negb (c =? 9) && negb (c =? 0)) w && negb (beqb w []).
Lemma wordb_ok w : wordb w = true -> Forall (fun c => c <> 0) w /\ word w.
Proof.
  unfold wordb. intro H. apply andb_prop in H as [A B]. rewrite forallb_forall in A. apply Bool.negb_true_iff, beqb_neq in B.
  assert (F : Forall (fun c => c <> 32 /\ c <> 9 /\ c <> 0) w) by (apply Forall_forall; intros x I; specialize (A x I); lia). split; [eapply Forall_impl; [|exact F]; cbn beta; intuition|].
  split; [eapply Forall_impl; [|exact F]; cbn beta; intuition|]. split.
  - destruct w as [|c r]; [contradiction|]. exists c, r. split; [reflexivity|]. inversion F as [|x y Q1 Q2]. unfold blank_char. lia.
  - destruct (exists_last B) as (r & c & E). exists r, c. split; [exact E|]. rewrite E in F. apply Forall_app in F as [_ F]. inversion F as [|x y Q1 Q2]. unfold blank_char. lia.
Qed.

(** C127: a target with the name of the server in it. *)
Lemma absolute_refuted : exists t w w2 req req2 a a2 s s2, t = s2b "https://masa" ++ PATH_BRSKI_REQUESTVOUCHER /\ request_line_of (route_line t) (s2b "POST") t (s2b "HTTP/1.1") /\
  process_turn some_conn quiet_server false (route_case PATH_BRSKI_REQUESTVOUCHER) = Turn w (Some req) a s /\ is_prefix (s2b "HTTP/1.1 200 OK") w /\
  process_turn some_conn quiet_server false (route_case t) = Turn w2 (Some req2) a2 s2 /\ is_prefix (s2b "HTTP/1.1 404 Not Found") w2.
Proof.
  eexists (s2b "https://masa" ++ PATH_BRSKI_REQUESTVOUCHER), _, _, _, _, _, _, _, _. split; [reflexivity|]. split; [apply route_words; apply wordb_ok; vm_compute; reflexivity|].
  split; [vm_compute; reflexivity|]. split; [eexists; cbn [s2b]; reflexivity|]. split; [vm_compute; reflexivity|]. eexists; reflexivity.
Qed.
(** C127: a target without a path. *)
Lemma no_path_refuted : exists t w req a s, t = s2b "?" ++ PATH_BRSKI_REQUESTVOUCHER /\ path_of t [] /\
  process_turn some_conn quiet_server false (route_case t) = Turn w (Some req) a s /\ rq_path req = PATH_BRSKI_REQUESTVOUCHER /\ is_prefix (s2b "HTTP/1.1 200 OK") w.
Proof.
  eexists (s2b "?" ++ PATH_BRSKI_REQUESTVOUCHER), _, _, _, _. split; [reflexivity|]. split; [exists (s2b "?" ++ PATH_BRSKI_REQUESTVOUCHER); split; [reflexivity|split; [constructor|right; eexists _, _; split; [reflexivity|right; reflexivity]]]|].
  split; [vm_compute; reflexivity|]. split; [vm_compute; reflexivity|]. eexists; reflexivity.
Qed.
(** C127: a percent sign that does not stand before two digits. *)
Lemma decodes_prefix q s r : Forall (fun c => c <> 37) q -> decodes (q ++ r) s -> exists s', decodes r s'.
Proof.
  revert s. induction q as [|c q IH]; intros s F D; [exists s; exact D|]. apply Forall_cons_iff in F as [A F]. inversion D; subst; [eapply IH; eassumption|contradiction].
Qed.
Lemma escape_refuted : exists t w req a s, t = s2b "/.well-known/brski%u002Frequestvoucher" /\ path_of t t /\ ~ (exists path, decodes t path) /\
  process_turn some_conn quiet_server false (route_case t) = Turn w (Some req) a s /\ rq_path req = PATH_BRSKI_REQUESTVOUCHER /\ is_prefix (s2b "HTTP/1.1 200 OK") w.
Proof.
  eexists (s2b "/.well-known/brski%u002Frequestvoucher"), _, _, _, _. split; [reflexivity|]. split; [|split].
  - exists []. rewrite app_nil_r. split; [reflexivity|]. split; [repeat constructor; discriminate|left; reflexivity].
  - intros (path & D). destruct (decodes_prefix (s2b "/.well-known/brski") path (s2b "%u002Frequestvoucher")) as (s & D2); [repeat constructor; discriminate|exact D|].
    inversion D2 as [|c r s0 Q|a b x y r s0 A B D3]; [apply Q; reflexivity|]. subst. assert (A1 : hex_of 117 x) by exact A. unfold hex_of in A1. clear - A1. lia.
  - split; [vm_compute; reflexivity|]. split; [vm_compute; reflexivity|]. eexists; reflexivity.
Qed.
