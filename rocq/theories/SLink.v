(** Specification of the three parties joined by TLS and HTTP. *)
From Verif Require Import Base MSerialize MVoucher MCrypto MRequest MHeap MHandlers MHttp MSignCert SHeap SArray SVoucher SRequest SHandlers SPledge SChain SHttp MTls STls MWire SWire MLink.
Open Scope N_scope.

(** A party whose files, memory and configuration are in order. *)
Record masa_ok (w : world) (c : masa_conf) (f : masa_files) (ld : N) (h : heap) : Prop := mk_masa_ok
  { mo_world : world_ok w; mo_wf : heap_wf h; mo_plenty : plenty h; mo_conf : masa_config h c f; mo_ld : ld = 0 \/ serialize_str2time (mf_expires f) <> None }.
Record registrar_fine (w : world) (c : registrar_conf) (f : registrar_files) (h : heap) : Prop := mk_registrar_fine
  { ro_world : world_ok w; ro_wf : heap_wf h; ro_plenty : plenty h; ro_conf : registrar_config h c f }.

(** A client that has the certificate [v] and its key reaches a server that lets it in: host
    and port can be written in a request, the addresses of the connection's ends are text. *)
Record line_to (tw : tls_world) (cp : compile) (ctx : server_ctx) (ways : nat -> way) (host : bytes) (port : Z) (key cert : bytes) (v : cert_view) : Prop := mk_line_to
  { lt_regex : regex_ok cp; lt_dest : destination_ok host port; lt_conn : forall n, conn_ok (wy_conn (ways n)); lt_shows : shows tw cert key (Some v); lt_accepts : ssl_accepts tw ctx [v] = true }.

(** A MASA, and the line of the registrar to it. *)
Record masa_side := mk_masa_side { ms_world : world; ms_conf : masa_conf; ms_files : masa_files; ms_ld : N; ms_heap : heap; ms_ctx : server_ctx; ms_ways : nat -> way; ms_host : bytes; ms_port : Z }.
(** A registrar: its TLS files are those it serves and calls with. *)
Record registrar_side := mk_registrar_side
  { rs_world : world; rs_conf : registrar_conf; rs_files : registrar_files; rs_heap : heap; rs_ctx : server_ctx; rs_enroll : handle; rs_key : bytes; rs_cert : bytes; rs_own : cert_view }.

Definition wired_masa (o : ossl) (tw : tls_world) (cp : compile) (R : registrar_side) (M : masa_side) : post_fn :=
  ask_masa tw (voucher_link tw (ms_ctx M) (masa_serving cp o (ms_world M) (ms_conf M) (ms_ld M) (ms_heap M)) (ms_ways M) (ms_host M) (ms_port M)) (rs_key R) (rs_cert R) (ms_host M).
Definition wired_registrar (o : ossl) (tw : tls_world) (cp : compile) (R : registrar_side) (M : masa_side) (key cert host : bytes) (port : Z) (ways : nat -> way) : post_cert_fn :=
  ask_registrar tw (voucher_link tw (rs_ctx R) (registrar_serving cp o (rs_world R) (rs_conf R) (wired_masa o tw cp R M) (rs_heap R) (rs_enroll R)) ways host port) key cert host.
(** The same with nothing in between. *)
Definition direct (o : ossl) (R : registrar_side) (M : masa_side) (client server : cert_view) : post_cert_fn :=
  registrar_service o (rs_world R) (rs_conf R) (masa_service o (ms_world M) (ms_conf M) (ms_ld M) (ms_heap M)) (rs_heap R) client server.

(** Both in order; the registrar shows [server] and is let in by the MASA. *)
Record sides_ok (tw : tls_world) (cp : compile) (R : registrar_side) (M : masa_side) (server : cert_view) : Prop := mk_sides_ok
  { so_registrar : registrar_fine (rs_world R) (rs_conf R) (rs_files R) (rs_heap R);
    so_masa : masa_ok (ms_world M) (ms_conf M) (ms_files M) (ms_ld M) (ms_heap M);
    so_shown : hd_error (sx_chain (rs_ctx R)) = Some server; so_server : view_ok server; so_der : cv_der server <> None;
    so_line : line_to tw cp (ms_ctx M) (ms_ways M) (ms_host M) (ms_port M) (rs_key R) (rs_cert R) (rs_own R) }.

(** A pledge in order. *)
Record pledge_fine (w : world) (c : pledge_conf) (f : pledge_files) (h : heap) (pinned : N) : Prop := mk_pledge_fine
  { pl_world : world_ok w; pl_wf : heap_wf h; pl_plenty : plenty h; pl_conf : pledge_config h c f; pl_text : pledge_text_ok f;
    pl_pinned : pinned <> 0; pl_empty : hp_cell h pinned = Live (Struct [P 0; I 0]) }.

(** Two runs end the same way: both crash, or both return the same code, and with code 0 the
    same certificate is in the caller's array. *)
Definition same_end (h : heap) (pinned : N) (a b : outcome (Z * heap)) : Prop :=
  ((exists k, a = UB k) /\ exists k, b = UB k) \/
  exists z h1 h2, a = Ok (z, h1) /\ b = Ok (z, h2) /\ (z = 0%Z -> exists d, pinned_result h h1 pinned d /\ pinned_result h h2 pinned d).

(** The registrar's certificate authority: how it signs, its files, and the handler of vouchers
    beside it. *)
Record enrol_side := mk_enrol_side { es_sign : sign_cert_fn; es_cert : bytes; es_key : bytes; es_voucher : handle }.
Record enrol_ok (R : registrar_side) (E : enrol_side) : Prop := mk_enrol_ok
  { eo_sign : forall k ct tbs out, es_sign E k ct tbs = Some out -> bytes_ok out; eo_cert : heap_string (rs_heap R) (rc_ca_cert (rs_conf R)) = Ok (es_cert E); eo_key : heap_string (rs_heap R) (rc_ca_key (rs_conf R)) = Ok (es_key E) }.
Definition wired_enrol (tw : tls_world) (cp : compile) (R : registrar_side) (E : enrol_side) (key cert host : bytes) (port : Z) (ways : nat -> way) : post_ca_fn :=
  ask_enroll tw (enroll_link tw (rs_ctx R) (enroll_serving cp (es_sign E) (rs_world R) (rs_conf R) (rs_heap R) (es_voucher E)) ways host port) key cert host.
(** Whom a pledge trusts that has read the certificate [d] in a voucher: [d], and the system's authorities. *)
Definition pinned_anchors (tw : tls_world) (text : bytes) : list cert_view := (match tw_pem tw text with Some l => l | None => [] end) ++ tw_system tw.
