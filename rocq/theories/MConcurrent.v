(** The MASA's voucher handler as a small-step program. src/brski/http/httplib.h
    (lines 97-102, 5999) serves requests from a pool of at least eight threads, and
    every call of masa_requestvoucher gets the same context (masa_server.cpp 67-90).
    A step is one call of a library function together with the test of its result;
    what a step shares with the other requests is the heap and
    context->ldevid_ca_cert. *)
From Verif Require Import Base MOs MBase64 MSerialize MVoucher MCrypto MRequest MHeap MArray MVoucherHeap MConfig MHandlers.
Open Scope N_scope.
Open Scope ub_scope.

Inductive prog :=
| Ret (status : Z) (response : bytes)
| Step (f : heap -> N -> outcome (heap * N * prog)).

(** The clean-up after free_binary_array(context->ldevid_ca_cert), one call per
    step. *)
Fixpoint clean_steps (l : list owned) (k : prog) : prog :=
  match l with
  | [] => k
  | x :: r => Step (fun h ld => do h <- free_owned h x; Ok (h, ld, clean_steps r k))
  end.
(** masa_api.cpp 171-182 and 156-168: context->ldevid_ca_cert is read again. *)
Definition release_steps (l : list owned) (status : Z) (response : bytes) : prog :=
  Step (fun h ld => do h <- free_owned h (OArr ld); Ok (h, ld, clean_steps l (Ret status response))).

(** masa_api.cpp 57-183 [masa_requestvoucher], step by step; the sequential
    execution is [MHandlers.masa_requestvoucher]. sign_masa_pledge_voucher with its
    callback (which reads context->ldevid_ca_cert) is one step. *)
Definition masa_steps (o : ossl) (w : world) (c : masa_conf) (body : bytes) : prog :=
  let fail cert key rv rs pv ps add cms voucher :=
    release_steps [OArr cert; OArr key; OList rv; OList rs; OList pv; OList ps; OList add; OBuf cms; OArr voucher] 400%Z [] in
  Step (fun h ld =>
  do cms_str <- c_str body;
  do ex <- opt_string h (mc_expires c);
  match serialize_str2time ex with
  | None => Ok (h, ld, fail 0 0 0 0 0 0 0 0 0)
  | Some t =>
    Ok (h, ld, Step (fun h ld =>
    do r <- h_base64str2array h cms_str;
    let '(rc, cms, h) := r in
    Ok (h, ld, Step (fun h ld =>
    do x <- h_file_to_cert w h (mc_ldevid c);
    let (ld, h) := x in
    if ld =? 0 then Ok (h, ld, fail 0 0 0 0 0 0 0 cms 0)
    else
    Ok (h, ld, Step (fun h ld =>
    do x <- h_file_to_cert w h (mc_cert c);
    let (cert, h) := x in
    if cert =? 0 then Ok (h, ld, fail 0 0 0 0 0 0 0 cms 0)
    else
    Ok (h, ld, Step (fun h ld =>
    do x <- h_file_to_keybuf w h (mc_key c);
    let (key, h) := x in
    if key =? 0 then Ok (h, ld, fail cert 0 0 0 0 0 0 cms 0)
    else
    Ok (h, ld, Step (fun h ld =>
    do x <- load_cert_files (w_cert w) h (mc_verify c);
    let '(z, rv, h) := x in
    if (z <? 0)%Z then Ok (h, ld, fail cert key rv 0 0 0 0 cms 0)
    else
    Ok (h, ld, Step (fun h ld =>
    do x <- load_cert_files (w_cert w) h (mc_store c);
    let '(z, rs, h) := x in
    if (z <? 0)%Z then Ok (h, ld, fail cert key rv rs 0 0 0 cms 0)
    else
    Ok (h, ld, Step (fun h ld =>
    do x <- load_cert_files (w_cert w) h (mc_pverify c);
    let '(z, pv, h) := x in
    if (z <? 0)%Z then Ok (h, ld, fail cert key rv rs pv 0 0 cms 0)
    else
    Ok (h, ld, Step (fun h ld =>
    do x <- load_cert_files (w_cert w) h (mc_pstore c);
    let '(z, ps, h) := x in
    if (z <? 0)%Z then Ok (h, ld, fail cert key rv rs pv ps 0 cms 0)
    else
    Ok (h, ld, Step (fun h ld =>
    do x <- load_cert_files (w_cert w) h (mc_add c);
    let '(z, add, h) := x in
    if (z <? 0)%Z then Ok (h, ld, fail cert key rv rs pv ps add cms 0)
    else
    Ok (h, ld, Step (fun h ld =>
    do pinned <- voucher_req_cb h ld;
    do bcert <- h_barray h cert;
    do bkey <- h_barray h key;
    do lrv <- h_certlist h rv;
    do lrs <- h_certlist h rs;
    do lpv <- h_certlist h pv;
    do lps <- h_certlist h ps;
    do ladd <- h_certlist h add;
    do v <- with_cms h rc cms (fun b => sign_masa_pledge_voucher o b (Some t) (Some (fun _ _ => pinned)) bcert bkey lrv lrs lpv lps ladd);
    match v with
    | None => Ok (h, ld, fail cert key rv rs pv ps add cms 0)
    | Some v =>
      do x <- h_new_array h (Some v);
      let (voucher, h) := x in
      if voucher =? 0 then Ok (h, ld, fail cert key rv rs pv ps add cms 0)
      else
      Ok (h, ld, Step (fun h ld =>
      do y <- h_array2base64 h voucher;
      let (text, h) := y in
      match text with
      | None => Ok (h, ld, fail cert key rv rs pv ps add cms voucher)
      | Some text =>
        Ok (h, ld, release_steps [OArr key; OArr cert; OList rv; OList rs; OList pv; OList ps; OList add; OBuf cms; OArr voucher] 200%Z text)
      end))
    end))))))))))))))))))))
  end).

(** The state of the server: heap, context->ldevid_ca_cert, the requests in
    progress. *)
Definition server_state : Type := heap * N * list prog.
Fixpoint replace_nth {A} (n : nat) (x : A) (l : list A) : list A :=
  match n, l with
  | O, _ :: r => x :: r
  | S n, y :: r => y :: replace_nth n x r
  | _, [] => []
  end.

(** One step of request [i]; a request that has been answered does nothing. *)
Definition step (i : nat) (s : server_state) : outcome server_state :=
  let '(h, ld, ps) := s in
  match nth_error ps i with
  | Some (Step f) => do x <- f h ld; let '(h, ld, p) := x in Ok (h, ld, replace_nth i p ps)
  | _ => Ok s
  end.
Fixpoint schedule (is : list nat) (s : server_state) : outcome server_state :=
  match is with
  | [] => Ok s
  | i :: r => do s <- step i s; schedule r s
  end.
