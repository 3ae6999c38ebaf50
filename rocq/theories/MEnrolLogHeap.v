(** Model of the memory of the registrar's enrolment log: [save_to_log]
    (src/brski/registrar/registrar_api.cpp) with the lists of src/voucher/keyvalue.c
    and the functions of src/voucher/crypto_ossl.c that fill them. *)
From Verif Require Import Base MOs MSerialize MHeap MArray MHandlers MEnrolLog.
Open Scope N_scope.
Open Scope ub_scope.

(** crypto_ossl.c 669-690 [get_x509_keyvalue] with 640-667 [get_x509_entry]:
    ASN1_STRING_to_UTF8 allocates the text. [nn] says where the names of NNAMES
    (44-53) are. *)
Fixpoint h_get_x509_keyvalue (nn : bytes -> N) (entry : bytes -> option (option bytes)) (names : list bytes) (h : heap) (lst : N) : outcome (Z * heap) :=
  match names with
  | [] => Ok (0%Z, h)
  | n :: r =>
    match entry n with
    | None => Ok ((-1)%Z, h)
    | Some None => h_get_x509_keyvalue nn entry r h lst
    | Some (Some s) =>
      let (str, h) := alloc h (Buf (s ++ [0])) in
      if str =? 0 then Ok ((-1)%Z, h)
      else
        do (z, h) <- push_keyvalue_list h lst (nn n) str;
        do h <- sys_free h str;
        if (z <? 0)%Z then Ok ((-1)%Z, h) else h_get_x509_keyvalue nn entry r h lst
    end
  end.

(** crypto_ossl.c 692-745 [crypto_getcert_meta]. *)
Definition h_getcert_meta (nn : bytes -> N) (cert : option cert_view) (h : heap) (issuer subject : N) : outcome (Z * heap) :=
  match cert with
  | None => Ok ((-1)%Z, h)
  | Some c =>
    do (z, h) <- h_get_x509_keyvalue nn (cv_issuer_entry c) NNAMES h issuer;
    if (z <? 0)%Z then Ok ((-1)%Z, h)
    else
      do (z, h) <- h_get_x509_keyvalue nn (cv_subject_entry c) NNAMES h subject;
      if (z <? 0)%Z then Ok ((-1)%Z, h) else Ok (0%Z, h)
  end.

Fixpoint free_lists (h : heap) (l : list N) : outcome heap :=
  match l with
  | [] => Ok h
  | x :: l => do h <- free_keyvalue_list h x; free_lists h l
  end.

(** registrar_api.cpp 31-88 [save_to_log]. The FILE that fopen returns is a block;
    crypto_getcert_serial (crypto_ossl.c 1716-1726) returns the first value of the
    list with the key, which is read before the list is released. *)
Definition h_save_to_log (nn : bytes -> N) (now : Z) (opens : bool) (log : bytes) (icert : option cert_seen) (lcert : cert_seen) (h : heap) : outcome (bytes * heap) :=
  do (iissuer, h) <- init_keyvalue_list h;
  do (isubject, h) <- init_keyvalue_list h;
  if (iissuer =? 0) || (isubject =? 0) then Ok (log, h)
  else
    do (z, h) <- h_getcert_meta nn (option_map cs_view icert) h iissuer isubject;
    if (z <? 0)%Z then do h <- free_lists h [iissuer; isubject]; Ok (log, h)
    else
      do (lissuer, h) <- init_keyvalue_list h;
      do (lsubject, h) <- init_keyvalue_list h;
      if (lissuer =? 0) || (lsubject =? 0) then do h <- free_lists h [iissuer; isubject]; Ok (log, h)
      else
        do (z, h) <- h_getcert_meta nn (Some (cs_view lcert)) h lissuer lsubject;
        if (z <? 0)%Z then do h <- free_lists h [iissuer; isubject; lissuer; lsubject]; Ok (log, h)
        else
          let (f, h) := if opens then alloc h (Buf []) else (0, h) in
          do (log, h) <- (if f =? 0 then Ok (log, h)
            else
              do isub <- keyvalue_items h isubject;
              do lsub <- keyvalue_items h lsubject;
              let number c := match c with Some c => get_uint64 (cs_serial c) | None => 0 end in
              do h <- sys_free h f;
              Ok (log ++ log_line now (number icert) (crypto_getcert_serial isub) (number (Some lcert)) (crypto_getcert_serial lsub), h));
          do h <- free_lists h [iissuer; isubject; lissuer; lsubject];
          Ok (log, h).
