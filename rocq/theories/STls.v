(** Specification of who talks to whom over TLS. *)
From Verif Require Import Base MSerialize MHandlers MHttp MSignCert MTls SHandlers.
Open Scope N_scope.

(** A chain that leads to one of the given certificates. *)
Definition trusted_by (w : tls_world) (anchors chain : list cert_view) : Prop :=
  chain <> [] /\ tw_verifies w anchors chain = true.

(** Every request was written to a server of which P holds; some request was. *)
Definition written_only (P : list cert_view -> Prop) (t : trace) : Prop := forall s, In s (tr_sent t) -> P (sn_chain s).
Definition written_to (chain : list cert_view) (body : bytes) (t : trace) : Prop :=
  exists s, In s (tr_sent t) /\ sn_chain s = chain /\ sn_body s = body.
Definition nothing_written (t : trace) : Prop := tr_sent t = [].

(** The certificate a client is set up to show: none, or the one in its file. *)
Definition shows (w : tls_world) (cert key : bytes) (id : option cert_view) : Prop :=
  (id = None /\ (cert = [] \/ key = [])) \/ (exists c, id = Some c /\ cert <> [] /\ key <> [] /\ tw_client_pair w cert key = Some c).
Definition can_connect (w : tls_world) (cert key : bytes) : Prop := exists id, shows w cert key id.

(** A server that has started and lets a client in. *)
Definition serves (w : tls_world) (r : outcome (Z * bool * option server_ctx)) (chain : list cert_view) : Prop :=
  exists z set ctx, r = Ok (z, set, Some ctx) /\ ssl_accepts w ctx chain = true.

(** A world for the witnesses: a certificate is a DER byte string that names its issuer by
    its second byte and itself by the first; a chain is fine when the issuer of its last
    certificate is trusted; files hold the bytes of the certificate. *)
Definition plain (d : bytes) : cert_view := mk_view (fun _ => Some None) (fun _ => Some None) None (Some d).
Definition der (c : cert_view) : bytes := match cv_der c with Some d => d | None => [] end.
Definition issued_by (chain : list cert_view) (a : cert_view) : bool :=
  match der (last chain (plain [])), der a with
  | _ :: i :: _, s :: _ => i =? s
  | _, _ => false
  end.
Definition toy_tls (system : list cert_view) : tls_world :=
  mk_tls (fun c k => match c, k with _ :: _, _ :: _ => Some [plain c] | _, _ => None end)
         (fun c k => match c, k with _ :: _, _ :: _ => Some (plain c) | _, _ => None end)
         (fun f => [plain f])
         (fun pem => if beqb pem (create_cert_string (s2b "AQE=")) then Some [plain [1; 1]] else if beqb pem (create_cert_string (s2b "Bwc=")) then Some [plain [7; 7]] else None)
         system
         (fun anchors chain => existsb (issued_by chain) anchors)
         (fun c h => match der c, h with x :: _, y :: _ => x =? y | _, _ => false end).

(** What comes over the network consists of bytes. *)
Definition network_ok (net : network) : Prop := forall n chain a, net n = Reached chain a ->
  (forall c, In c chain -> view_ok c) /\ (forall id body z b, a id body = Replied z b -> bytes_ok b).
(** A server that showed [tls] first answered [body] with [z] and [b]. *)
Definition answered (net : network) (tls body : bytes) (z : Z) (b : bytes) : Prop :=
  exists n c r a id, net n = Reached (c :: r) a /\ cv_der c = Some tls /\ a id body = Replied z b.
