(** Model of src/voucher/request.c. Allocations succeed. C string arguments are
    given by their bytes without the NUL, [None] for a NULL pointer. *)
From Verif Require Import Base MBase64 MSerialize MOs MVoucher MCrypto.
Open Scope N_scope.
Open Scope ub_scope.

(** [if (set_attr_voucher(v, a, x) < 0) fail;] then continue with [k]. *)
Definition set_or_fail {A} (v : voucher) (a : attr) (x : avalue)
           (k : voucher -> outcome (option A)) : outcome (option A) :=
  do r <- set_attr true (Some v) a x;
  if (fst r <? 0)%Z then Ok None
  else match snd r with Some v' => k v' | None => UB NullDeref end.

(** A C string as the memory passed to a setter. *)
Definition vstr (s : option bytes) : avalue :=
  VStr (match s with None => None | Some s => Some (s ++ [0]) end).

(** strcmp(a, b) == 0; a NULL argument is dereferenced. *)
Definition strcmp_eq (a b : option bytes) : outcome bool :=
  match a, b with
  | Some a, Some b => Ok (beqb a b)
  | _, _ => UB NullDeref
  end.

(** request.c 20-98 [sign_pledge_voucher_request]. *)
Definition sign_pledge_voucher_request (o : ossl) (created_on : option tm) (serial_number : option bytes)
           (nonce registrar_tls_cert pledge_sign_cert pledge_sign_key : option barray)
           (additional_pledge_certs : option certlist) : outcome (option bytes) :=
  set_or_fail init_voucher ACreatedOn (VTime created_on) (fun v =>
  let rest v :=
    set_or_fail v AAssertion (VInt 3) (fun v =>
    set_or_fail v AProximity (VArr registrar_tls_cert) (fun v =>
    set_or_fail v ASerial (vstr serial_number) (fun v =>
    sign_cms_voucher o (Some v) pledge_sign_cert pledge_sign_key additional_pledge_certs))) in
  match nonce with
  | None => rest v
  | Some _ => set_or_fail v ANonce (VArr nonce) rest
  end).

(** request.c 100-245 [sign_voucher_request]. *)
Definition sign_voucher_request (o : ossl) (pledge_voucher_request_cms : option barray)
           (created_on : option tm) (serial_number : option bytes)
           (idevid_issuer registrar_tls_cert registrar_sign_cert registrar_sign_key : option barray)
           (pledge_verify_certs pledge_verify_store additional_registrar_certs : option certlist)
  : outcome (option bytes) :=
  match serial_number, idevid_issuer with
  | None, _ => Ok None
  | _, None => Ok None
  | Some _, Some _ =>
    do r <- verify_cms_voucher o pledge_voucher_request_cms pledge_verify_certs pledge_verify_store false;
    match r with
    | None => Ok None
    | Some (pvr, _) =>
      match get_attr_str (Some pvr) ASerial with
      | None => Ok None
      | Some ps =>
        do same <- strcmp_eq ps serial_number;
        if negb same then Ok None
        else
          do c <- compare_binary_array (get_attr_array (Some pvr) AProximity) registrar_tls_cert;
          if (c <? 1)%Z then Ok None
          else
            match get_attr_enum (Some pvr) AAssertion with
            | None => UB NullDeref
            | Some a =>
              if negb (a =? 3)%Z then Ok None
              else
                set_or_fail init_voucher ACreatedOn (VTime created_on) (fun v =>
                let rest v :=
                  set_or_fail v ASerial (vstr serial_number) (fun v =>
                  set_or_fail v AIssuer (VArr idevid_issuer) (fun v =>
                  set_or_fail v APrior (VArr pledge_voucher_request_cms) (fun v =>
                  sign_cms_voucher o (Some v) registrar_sign_cert registrar_sign_key additional_registrar_certs))) in
                if is_attr_nonempty pvr ANonce then
                  match get_attr_array (Some pvr) ANonce with
                  | None => Ok None
                  | Some n => set_or_fail v ANonce (VArr (Some n)) rest
                  end
                else rest v)
            end
      end
    end
  end.

(** request.h [voucher_req_fn]: the result code and the content of
    [*pinned_domain_cert] (initially empty) for a serial number and the
    registrar's signer certificates. *)
Definition voucher_req_fn := bytes -> option certlist -> Z * barray.

(** request.c 247-446 [sign_masa_pledge_voucher]. *)
Definition sign_masa_pledge_voucher (o : ossl) (voucher_request_cms : option barray)
           (expires_on : option tm) (cb : option voucher_req_fn)
           (masa_sign_cert masa_sign_key : option barray)
           (registrar_verify_certs registrar_verify_store pledge_verify_certs pledge_verify_store
            additional_masa_certs : option certlist) : outcome (option bytes) :=
  match expires_on, cb with
  | None, _ => Ok None
  | _, None => Ok None
  | Some _, Some cb =>
    do r <- verify_cms_voucher o voucher_request_cms registrar_verify_certs registrar_verify_store true;
    match r with
    | None => Ok None
    | Some (vr, registrar_certs) =>
      if negb (is_attr_nonempty vr ASerial) then Ok None
      else match get_attr_str (Some vr) ASerial with
      | None => Ok None
      | Some voucher_serial =>
        let nonce := if is_attr_nonempty vr ANonce then get_attr_array (Some vr) ANonce else None in
        if is_attr_nonempty vr ANonce && match nonce with None => true | Some _ => false end then Ok None
        else if negb (is_attr_nonempty vr APrior) then Ok None
        else match get_attr_array (Some vr) APrior with
        | None => Ok None
        | Some prior =>
          do p <- verify_cms_voucher o (Some prior) pledge_verify_certs pledge_verify_store false;
          match p with
          | None => Ok None
          | Some (pvr, _) =>
            if negb (is_attr_nonempty pvr ASerial) then Ok None
            else match get_attr_str (Some pvr) ASerial with
            | None => Ok None
            | Some pledge_serial =>
              do same <- strcmp_eq voucher_serial pledge_serial;
              if negb same then Ok None
              else
                let rest v :=
                  set_or_fail v AAssertion (VInt 3) (fun v =>
                  match pledge_serial with
                  | None => UB NullDeref
                  | Some ps =>
                    let (rc, pinned) := cb ps registrar_certs in
                    if (rc <? 0)%Z then Ok None
                    else
                      set_or_fail v APinned (VArr (Some pinned)) (fun v =>
                      set_or_fail v ASerial (vstr pledge_serial) (fun v =>
                      set_or_fail v ARevocation (VInt 0) (fun v =>
                      set_or_fail v AExpiresOn (VTime expires_on) (fun v =>
                      sign_cms_voucher o (Some v) masa_sign_cert masa_sign_key additional_masa_certs))))
                  end) in
                match nonce with
                | None => rest init_voucher
                | Some n => set_or_fail init_voucher ANonce (VArr (Some n)) rest
                end
            end
          end
        end
      end
    end
  end.

(** request.c 448-581 [verify_masa_pledge_voucher]: [None] is the result -1;
    otherwise the pinned certificate copied out and the list in
    [*pledge_out_certs]. [out] says that pinned_domain_cert is not NULL,
    [want] that pledge_out_certs is not NULL. *)
Definition verify_masa_pledge_voucher (o : ossl) (masa_pledge_voucher_cms : option barray)
           (serial_number : option bytes) (nonce registrar_tls_cert : option barray)
           (domain_store pledge_verify_certs pledge_verify_store : option certlist)
           (want out : bool) : outcome (option (barray * option certlist)) :=
  match serial_number with
  | None => Ok None
  | Some _ =>
    do r <- verify_cms_voucher o masa_pledge_voucher_cms pledge_verify_certs pledge_verify_store want;
    match r with
    | None => Ok None
    | Some (mv, certs) =>
      if negb (is_attr_nonempty mv ASerial) then Ok None
      else match get_attr_str (Some mv) ASerial with
      | None => Ok None
      | Some vs =>
        do same <- strcmp_eq serial_number vs;
        if negb same then Ok None
        else
          do nonce_ok <-
            match nonce with
            | None => Ok true
            | Some _ =>
              if is_attr_nonempty mv ANonce then
                match get_attr_array (Some mv) ANonce with
                | None => Ok false
                | Some mn =>
                  do c <- compare_binary_array nonce (Some mn);
                  Ok (negb (c <? 1)%Z)
                end
              else Ok false
            end;
          if negb nonce_ok then Ok None
          else if negb (is_attr_nonempty mv APinned) then Ok None
          else match get_attr_array (Some mv) APinned with
          | None => Ok None
          | Some pinned =>
            do c <- copy_binary_array true ba_null (Some pinned);
            if (fst c <? 0)%Z then Ok None
            else
              do d <- ba_read (snd c);
              match registrar_tls_cert with
              | None => UB NullDeref
              | Some rc =>
                do e <- crypto_verify_cert o rc (Some [(d, 0%Z)]) domain_store;
                if (e <? 0)%Z then Ok None
                else if negb out then Ok None
                else
                  do p <- copy_binary_array true ba_null (Some pinned);
                  if (fst p <? 0)%Z then Ok None else Ok (Some (snd p, certs))
              end
          end
      end
    end
  end.
