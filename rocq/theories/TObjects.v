(** Theorems about the ownership of OpenSSL objects: C85, C86, C87, C88, C89. *)
From Verif Require Import Base MBase64 MSerialize MOs MVoucher MCrypto MRequest MObjects MObjectFiles SObjects PRequest6 PObjects6 PObjects7 PObjects8 PObjects9 PObjects10.
Open Scope nat_scope.

(** C85 is false: a message that is accepted and signed makes crypto_verify_cms use a
    certificate that it has released. *)
Theorem C85_refuted : exists o (inn : inner o) cms certs store s d k, coherent inn /\ signers_found o /\ steady s /\ ba_read cms = Ok d /\ crypto_verify_cms o cms certs store true <> Ok None /\ verify_cms o inn cms certs store true s = UB k.
Proof. exact verify_refuted. Qed.
Print Assumptions C85_refuted.

(** C85, exactly when: the message is accepted and has signers. Otherwise the result is
    that of the model without objects (C33 and others) and nothing else is left. *)
Theorem C85_exact_partial : forall o (inn : inner o) cms certs store s d, ba_read cms = Ok d -> coherent inn -> steady s ->
  (exists k, verify_cms o inn cms certs store true s = UB k) /\ reaches o d certs store \/
  ~ reaches o d certs store /\ exists r s', verify_cms o inn cms certs store true s = Ok (r, s') /\ apart s s' /\ crypto_verify_cms o cms certs store true = Ok (strip r) /\ (r <> None \/ takes o -> leaves s s' (ids_of r)).
Proof. exact verify_wanted. Qed.
Print Assumptions C85_exact_partial.

Example C85_case : coherent toy_inner /\ steady fine /\ reaches toy [3; 65; 66]%N None (Some [([3; 0]%N, 0%Z)]) /\ ~ reaches toy [7; 65; 66]%N None (Some [([3; 0]%N, 0%Z)]).
Proof.
  split; [exact toy_coherent|]. split; [exact fine_steady|]. split.
  - exists (3%N, [65; 66]%N), None, (Some [inl [3; 0]%N]), [65; 66]%N, [3%N], []. repeat split.
  - intros (c & st & tr & text & x & xs & E1 & E2 & E3 & E4 & _). injection E1 as <-. injection E2 as <-. vm_compute in E3. injection E3 as <-. vm_compute in E4. discriminate E4.
Qed.

(** C85, the MASA: every voucher it issues comes after such a use. *)
Theorem C85_masa_refuted : forall o inn cms expires cb cert key rc rs pc ps extra voucher s, coherent inn -> signers_found o -> steady s ->
  sign_masa_pledge_voucher o (Some cms) expires cb cert key rc rs pc ps extra = Ok (Some voucher) -> exists k, verify_cms o inn cms rc rs true s = UB k.
Proof. exact masa_touches. Qed.
Print Assumptions C85_masa_refuted.

Example C85_masa_case : coherent toy_inner /\ signers_found toy /\ exists voucher, sign_masa_pledge_voucher toy (Some (ba_of outer_cms)) (Some tm_case) (Some (fun _ _ => (0%Z, ba_of [7; 7]%N))) (id_cert 3) (id_key 3)
  None (Some [([2; 0]%N, 0%Z)]) None (Some [([1; 0]%N, 0%Z)]) None = Ok (Some voucher).
Proof. split; [exact toy_coherent|]. split; [exact toy_signers|]. eexists. vm_compute. reflexivity. Qed.

(** C86 is false: a store that refuses a certificate. *)
Theorem C86_refuted : exists o (inn : inner o) cms certs store s d s' x, coherent inn /\ steady s /\ ba_read cms = Ok d /\ verify_cms o inn cms certs store false s = Ok (None, s') /\ ob_next s <= x /\ ob_at s' x = Alive KCert 1 [].
Proof. exact store_refuted. Qed.
Print Assumptions C86_refuted.

(** C86 is false: sk_X509_push fails, which nobody notices, and the chain is accepted. *)
Theorem C86_push_refuted : exists o (inn : inner o) cert certs store s d s' x, ba_read cert = Ok d /\ verify_cert o inn cert certs store s = Ok (0%Z, s') /\ ob_next s <= x /\ ob_at s' x = Alive KCert 1 [].
Proof. exact push_refuted. Qed.
Print Assumptions C86_push_refuted.

(** C86 for messages: nothing is undefined whichever calls fail, and what was there
    stays; when none fails, the result is that of the model without objects and the
    content is all that is left, except after a refusal by the store. *)
Theorem C86_verify_partial : forall o (inn : inner o) cms certs store s d, ba_read cms = Ok d ->
  exists r s', verify_cms o inn cms certs store false s = Ok (r, s') /\ apart s s' /\ (steady s -> crypto_verify_cms o cms certs store false = Ok (strip r) /\ (r <> None \/ takes o -> leaves s s' (ids_of r))).
Proof. exact verify_unwanted. Qed.
Print Assumptions C86_verify_partial.

Example C86_verify_case : exists s', verify_cms toy toy_inner (ba_of [3; 65; 66]%N) (Some [([4; 3]%N, 0%Z)]) (Some [([3; 0]%N, 0%Z); ([9]%N, 1%Z)]) false fine = Ok (Some (Some ([65; 66]%N, 14), None), s') /\ leaves fine s' [14] /\ takes toy.
Proof.
  destruct (C86_verify_partial toy toy_inner (ba_of [3; 65; 66]%N) (Some [([4; 3]%N, 0%Z)]) (Some [([3; 0]%N, 0%Z); ([9]%N, 1%Z)]) fine [3; 65; 66]%N eq_refl) as (r & s' & E & _ & S).
  assert (R : r = Some (Some ([65; 66]%N, 14), None)) by (vm_compute in E; injection E as <- _; reflexivity). subst r. exists s'. split; [exact E|]. split; [|intros acc v; reflexivity]. destruct (S fine_steady) as [_ L]. apply L. left. discriminate.
Qed.

(** C86 for signing. *)
Theorem C86_sign_partial : forall o k data cert key certs s cb kb, ba_read cert = Ok cb -> ba_read key = Ok kb ->
  exists r s', sign_cms o k data cert key certs s = Ok (r, s') /\ apart s s' /\ (steady s -> crypto_sign o k data cert key certs = Ok (option_map fst r) /\ leaves s s' (match r with Some (_, b) => ol b | None => [] end)).
Proof. exact sign_objects. Qed.
Print Assumptions C86_sign_partial.

Example C86_sign_case : exists s' b, sign_cms toy KAuto [65]%N (ba_of [3; 0]%N) (ba_of [3]%N) (Some [([4; 3]%N, 0%Z)]) fine = Ok (Some ([3; 65]%N, Some b), s') /\ ob_at s' b = Alive KBuf 1 [].
Proof. eexists; eexists. split; [vm_compute; reflexivity|]. vm_compute. reflexivity. Qed.

(** C86 for chains. *)
Theorem C86_chain_partial : forall o (inn : inner o) cert certs store s d, ba_read cert = Ok d ->
  exists z s', verify_cert o inn cert certs store s = Ok (z, s') /\ apart s s' /\ (steady s -> crypto_verify_cert o cert certs store = Ok z /\ (takes o -> leaves s s' [])).
Proof. exact chain_objects. Qed.
Print Assumptions C86_chain_partial.

Example C86_chain_case : exists s', verify_cert toy toy_inner (ba_of [5; 3]%N) (Some [([4; 3]%N, 0%Z)]) (Some [([3; 0]%N, 0%Z)]) fine = Ok (0%Z, s') /\ List.length (ob_list s') = 10.
Proof. eexists. split; [vm_compute; reflexivity|]. vm_compute. reflexivity. Qed.

(** C87 is false: a negative result of EVP_PKEY_keygen passes the check. *)
Theorem C87_refuted : exists s k, generate_rsakey s = UB k.
Proof. exact rsakey_refuted. Qed.
Print Assumptions C87_refuted.

(** C87 is false: the certificate and the key stay when the key cannot be set. *)
Theorem C87_cert_refuted : exists m s s' x p, generate_cert m true s = Ok (None, s') /\ x <> p /\ ob_next s <= x /\ ob_next s <= p /\ ob_at s' x = Alive KCert 1 [] /\ ob_at s' p = Alive KKey 1 [].
Proof. exact cert_refuted. Qed.
Print Assumptions C87_cert_refuted.

(** C87 for RSA keys, exactly. *)
Theorem C87_rsakey_partial : forall s,
  ((exists k, generate_rsakey s = UB k) <-> (0 < ret s 0)%Z /\ (0 < ret s 1)%Z /\ ret s 2 <> 0%Z /\ ret s 3 <> 0%Z /\ (ret s 4 < 0)%Z) /\
  (forall r s', generate_rsakey s = Ok (r, s') -> leaves_key s s' r).
Proof. exact rsakey_exact. Qed.
Print Assumptions C87_rsakey_partial.

(** C87 for EC keys, exactly. *)
Theorem C87_eckey_partial : forall s,
  ((exists k, generate_eckey s = UB k) <-> (0 < ret s 0)%Z /\ ret s 1 <> 0%Z /\ ret s 2 <> 0%Z /\ (0 < ret s 3)%Z /\ (0 < ret s 4)%Z /\ ret s 5 <> 0%Z /\ (ret s 6 < 0)%Z) /\
  (forall r s', generate_eckey s = Ok (r, s') -> leaves s s' (ol r)).
Proof. exact eckey_exact. Qed.
Print Assumptions C87_eckey_partial.

Example C87_keys_case : (exists s', generate_rsakey fine = Ok (Some 0, s')) /\ (exists s', generate_eckey fine = Ok (Some 7, s')) /\ generate_eckey (failing 6 (-1)%Z) = UB NullDeref /\ exists s', generate_eckey (failing 3 (-1)%Z) = Ok (None, s').
Proof. split; [eexists; vm_compute; reflexivity|]. split; [eexists; vm_compute; reflexivity|]. split; [vm_compute; reflexivity|]. eexists. vm_compute. reflexivity. Qed.

(** C87 for certificates: nothing is undefined; the buffer is all that is left, or the
    certificate and the key stay after a failure; when no call fails, there is a result
    exactly for a key that can be parsed and not both end dates. *)
Theorem C87_cert_partial : forall m key s, exists r s', generate_cert m key s = Ok (r, s') /\ apart s s' /\
  (leaves s s' (ol r) \/ r = None /\ ~ steady s /\ exists x p, x <> p /\ ob_next s <= x /\ ob_next s <= p /\ ob_at s' x = Alive KCert 1 [] /\ ob_at s' p = Alive KKey 1 []) /\
  (steady s -> (r <> None <-> key = true /\ one_end m = true)).
Proof. exact cert_objects. Qed.
Print Assumptions C87_cert_partial.

Example C87_cert_case : (exists s', generate_cert (mk_shape true false (Some 2) (Some 3) true) true fine = Ok (Some 25, s')) /\ one_end (mk_shape true false (Some 2) (Some 3) true) = true.
Proof. split; [eexists; vm_compute; reflexivity|reflexivity]. Qed.

(** C87 for crypto_sign_cert: the caller's buffer is replaced exactly on success; there
    is always one. *)
Theorem C87_sign_cert : forall key ca cert l f, let s := mk_objs (l ++ [Alive KBuf 1 []]) f in
  exists r s', sign_cert key ca cert (List.length l) s = Ok (r, s') /\ leaves (mk_objs l f) s' [match r with Some b => b | None => List.length l end] /\
    (r <> Some (List.length l)) /\ (steady s -> (r <> None <-> key = true /\ ca = true /\ cert = true)).
Proof. exact sign_cert_objects. Qed.
Print Assumptions C87_sign_cert.

Example C87_sign_cert_case : exists s', sign_cert true true true 1 (mk_objs [Alive KCert 2 [0]; Alive KBuf 1 []] (fun _ => 1%Z)) = Ok (Some 9, s') /\ ob_at s' 1 = Gone /\ ob_at s' 9 = Alive KBuf 1 [].
Proof. eexists. split; [vm_compute; reflexivity|]. split; vm_compute; reflexivity. Qed.

(** C88 is false of signing: the signed message lacks a certificate that could not be
    pushed. *)
Theorem C88_refuted : exists o k data cert key certs s out out' b s', sign_cms o k data cert key certs s = Ok (Some (out, b), s') /\ crypto_sign o k data cert key certs = Ok (Some out') /\ out <> out'.
Proof. exact sign_refuted. Qed.
Print Assumptions C88_refuted.

(** C88 for messages: whichever calls fail, what is accepted is accepted by OpenSSL with
    the whole store and some of the untrusted certificates. *)
Theorem C88_accepted : forall o inn cms certs store want s d data l s', ba_read cms = Ok d -> verify_cms o inn cms certs store want s = Ok (Some (data, l), s') ->
  exists c part full tr text, d2i_cms o d = Some c /\ opt_stack o certs = Some full /\ opt_sub part full /\ opt_store o store = Some tr /\
    cms_verify o c part tr (match tr with None => true | Some _ => false end) = Some text /\ option_map fst data = (match text with [] => None | _ => Some text end).
Proof. exact accepted_closed. Qed.
Print Assumptions C88_accepted.

(** C88: so nothing is accepted that is refused when no call fails. *)
Theorem C88_monotone : forall o inn cms certs store want s d data l s', monotone o -> ba_read cms = Ok d -> verify_cms o inn cms certs store want s = Ok (Some (data, l), s') ->
  crypto_verify_cms o cms certs store false = Ok (Some (option_map fst data, None)).
Proof. exact accepted_monotone. Qed.
Print Assumptions C88_monotone.

(** C88 for chains. *)
Theorem C88_chain : forall o inn cert certs store s d s', monotone o -> ba_read cert = Ok d -> verify_cert o inn cert certs store s = Ok (0%Z, s') -> crypto_verify_cert o cert certs store = Ok 0%Z.
Proof. exact chain_monotone. Qed.
Print Assumptions C88_chain.

(** C88 for signing: what is signed is the data, with some of the certificates. *)
Theorem C88_signed_partial : forall o k data cert key certs s cb kb out b s', ba_read cert = Ok cb -> ba_read key = Ok kb -> sign_cms o k data cert key certs s = Ok (Some (out, b), s') ->
  exists x kv part full c, d2i_x509 o cb = Some x /\ d2i_by o k kb = Some kv /\ opt_stack o certs = Some full /\ opt_sub part full /\ cms_sign o x kv part data = Some c /\ i2d_cms o c = Some out.
Proof. exact signed_closed. Qed.
Print Assumptions C88_signed_partial.

Example C88_case : monotone toy_count /\ exists s', verify_cert toy_count (mk_inner toy_count (fun _ => 1) (fun _ _ => []) (fun _ _ => false) (fun _ _ _ => [FromTarget])) (ba_of [5; 4]%N) (Some [([6; 9]%N, 0%Z); ([4; 3]%N, 0%Z)]) (Some [([3; 0]%N, 0%Z)]) (failing 3 0%Z) = Ok (0%Z, s').
Proof. split; [exact count_monotone|]. eexists. vm_compute. reflexivity. Qed.
Example C88_signed_case : exists s' b, sign_cms toy_count KAuto [65]%N (ba_of [3; 0]%N) (ba_of [3]%N) (Some [([4; 3]%N, 0%Z); ([5; 3]%N, 0%Z)]) (failing 6 0%Z) = Ok (Some ([3; 1; 65]%N, b), s').
Proof. eexists; eexists. vm_compute. reflexivity. Qed.

(** C89 for reading a certificate or key from a file. *)
Theorem C89_reads : forall k pem s, exists r s', file_to_buf k pem s = Ok (r, s') /\ leaves_key s s' r /\ (steady s -> (r <> None <-> pem = true)).
Proof. exact file_to_buf_exact. Qed.
Print Assumptions C89_reads.

(** C89 for writing a certificate or key to a file. *)
Theorem C89_writes : forall k der s, exists z s', buf_to_file k der s = Ok (z, s') /\ leaves s s' [] /\ (z = 0%Z \/ z = (-1)%Z) /\ (z = 0%Z -> der = true) /\ (steady s -> der = true -> z = 0%Z).
Proof. exact buf_to_file_exact. Qed.
Print Assumptions C89_writes.

(** C89 for writing a message to a file. *)
Theorem C89_writes_cms : forall o (inn : inner o) v s, exists z s', cmsbuf_to_file inn v s = Ok (z, s') /\ leaves s s' [] /\ (z = 0%Z \/ z = (-1)%Z) /\ (z = 0%Z -> v <> None) /\ (steady s -> v <> None -> z = 0%Z).
Proof. exact cms_to_file_exact. Qed.
Print Assumptions C89_writes_cms.

(** C89 for the bytes of a certificate and the name of its issuer. *)
Theorem C89_cert2buf : forall cert k r l s, ob_at s cert = Alive k r l -> exists res s', cert2buf cert s = Ok (res, s') /\ leaves_key s s' res /\ (steady s -> res <> None).
Proof. exact cert2buf_exact. Qed.
Print Assumptions C89_cert2buf.

Theorem C89_issuer : forall cert text k r l s, ob_at s cert = Alive k r l -> exists res s', getcert_issuer cert text s = Ok (res, s') /\
  match res with Some x => (text <> [] -> leaves_key s s' (Some x)) /\ (text = [] -> leaves_empty s s' x) | None => leaves s s' [] end /\ (steady s -> res <> None).
Proof. exact issuer_exact. Qed.
Print Assumptions C89_issuer.

Example C89_case : (exists s', file_to_buf KCert true fine = Ok (Some 2, s')) /\ (exists s', buf_to_file KKey true (failing 2 0%Z) = Ok ((-1)%Z, s')) /\
  (exists s', cmsbuf_to_file toy_inner (Some (3%N, [65]%N)) fine = Ok (0%Z, s')) /\ (exists s', cert2buf 0 (mk_objs [Alive KCert 1 []] (fun _ => 1%Z)) = Ok (Some 1, s')) /\
  exists s', getcert_issuer 0 [65]%N (mk_objs [Alive KCert 1 []] (fun _ => 1%Z)) = Ok (Some 3, s').
Proof. repeat split; eexists; vm_compute; reflexivity. Qed.
