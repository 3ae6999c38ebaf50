(** Model of src/brski/config.c on the heap. *)
From Verif Require Import Base MHeap MArray.
Open Scope N_scope.
Open Scope ub_scope.

(** minIni, which is not part of the repository. [ini_keys s]: the key names of
    section [s] in order, as ini_getkey gives them for index 0, 1, ...;
    [ini_gets s k d n]: the text ini_gets stores for section [s], key [k],
    default [d] and buffer size [n]. The file does not change while it is read. *)
Record ini := mk_ini { ini_keys : bytes -> list bytes; ini_gets : bytes -> bytes -> bytes -> N -> bytes }.

(** config.c 31-32; minIni.h: INI_BUFFERSIZE. *)
Definition TIME_ISO_STR_SIZE : N := 22.
Definition MAX_CONFIG_VALUE_SIZE : N := 2048.
Definition INI_BUFFERSIZE : N := 512.

(** A buffer fresh from sys_zalloc. *)
Definition zeros (n : N) : block := Buf (repeat 0 (N.to_nat n)).
(** Storing a C string into the buffer at [a]. *)
Definition write_string (h : heap) (a : N) (t : bytes) : outcome heap :=
  do d <- load_buf h a;
  match d with
  | None => UB NullDeref
  | Some d =>
    if blen t <? blen d then Ok (put h a (Live (Buf (t ++ [0] ++ skipn (S (List.length t)) d)))) else UB OOBWrite
  end.

(** config.c 34-79 [load_config_value_list]; [cfg] and [fld] are the struct and
    the field [value_list] points to. *)
Fixpoint load_list_loop (m : ini) (sec key : bytes) (h : heap) (cfg : N) (fld : nat) (store : N) (ks : list bytes) : outcome (Z * heap) :=
  match ks with
  | [] => do h <- sys_free h store; Ok (0%Z, h)
  | k :: r =>
    do h <- write_string h store k;
    let (value, h) := alloc h (zeros MAX_CONFIG_VALUE_SIZE) in
    if value =? 0 then
      do h <- sys_free h store;
      do l <- get_ptr h cfg fld;
      do h <- free_array_list h l;
      Ok ((-1)%Z, h)
    else
      do name <- heap_string h store;
      do h <- write_string h value (ini_gets m sec name [] INI_BUFFERSIZE);
      do name <- heap_string h store;
      do text <- heap_string h value;
      if beqb name key && negb (blen text =? 0) then
        do l <- get_ptr h cfg fld;
        do p <- push_array_list h l value (blen text + 1) 0;
        let (rc, h) := p in
        if (rc <? 0)%Z then
          do h <- sys_free h value;
          do h <- sys_free h store;
          do l <- get_ptr h cfg fld;
          do h <- free_array_list h l;
          Ok ((-1)%Z, h)
        else
          do h <- sys_free h value;
          load_list_loop m sec key h cfg fld store r
      else
        do h <- sys_free h value;
        load_list_loop m sec key h cfg fld store r
  end.
Definition load_config_value_list (m : ini) (sec key : bytes) (h : heap) (cfg : N) (fld : nat) : outcome (Z * heap) :=
  do h <- set_field h cfg fld (P 0);
  let (store, h) := alloc h (zeros MAX_CONFIG_VALUE_SIZE) in
  if store =? 0 then Ok ((-1)%Z, h)
  else
    do p <- init_array_list h;
    let (l, h) := p in
    do h <- set_field h cfg fld (P l);
    if l =? 0 then do h <- sys_free h store; Ok ((-1)%Z, h)
    else load_list_loop m sec key h cfg fld store (ini_keys m sec).

(** config.h 25-29 [struct brski_config], pledge_config.h 16-28,
    registrar_config.h 14-26, masa_config.h 16-29: the pointer fields of the
    three parts in order, in one struct. The ports are plain numbers and left
    out. *)
Definition cfg_fields : nat := 32.

(** The strings of a part with their keys, defaults and buffer sizes in the
    order they are loaded, the lists with their keys, and the strings in the
    order they are released. *)
Record part := mk_part { pt_name : bytes; pt_strings : list (nat * bytes * bytes * N); pt_lists : list (nat * bytes); pt_release : list nat }.

(** config.c 499-635 [load_pledge_config], 448-497 [free_pledge_config_content]. *)
Definition pledge_part : part := mk_part (s2b "pledge")
  [(0%nat, s2b "createdOn", [], TIME_ISO_STR_SIZE);
   (1%nat, s2b "serialNumber", [], MAX_CONFIG_VALUE_SIZE);
   (2%nat, s2b "nonce", [], MAX_CONFIG_VALUE_SIZE);
   (4%nat, s2b "idevidKeyPath", [], MAX_CONFIG_VALUE_SIZE);
   (3%nat, s2b "idevidCertPath", [], MAX_CONFIG_VALUE_SIZE);
   (5%nat, s2b "idevidCACertPath", [], MAX_CONFIG_VALUE_SIZE);
   (6%nat, s2b "cmsSignCertPath", [], MAX_CONFIG_VALUE_SIZE);
   (7%nat, s2b "cmsSignKeyPath", [], MAX_CONFIG_VALUE_SIZE)]
  [(8%nat, s2b "cmsAdditionalCertPath"); (9%nat, s2b "cmsVerifyCertPath"); (10%nat, s2b "cmsVerifyStorePath")]
  [0%nat; 1%nat; 2%nat; 4%nat; 3%nat; 5%nat; 6%nat; 7%nat].

(** config.c 320-446 [load_registrar_config], 274-318
    [free_registrar_config_content]. *)
Definition registrar_part : part := mk_part (s2b "registrar")
  [(11%nat, s2b "bindAddress", s2b "0.0.0.0", MAX_CONFIG_VALUE_SIZE);
   (12%nat, s2b "tlsCertPath", [], MAX_CONFIG_VALUE_SIZE);
   (13%nat, s2b "tlsKeyPath", [], MAX_CONFIG_VALUE_SIZE);
   (14%nat, s2b "tlsCAKeyPath", [], MAX_CONFIG_VALUE_SIZE);
   (15%nat, s2b "tlsCACertPath", [], MAX_CONFIG_VALUE_SIZE);
   (16%nat, s2b "cmsSignCertPath", [], MAX_CONFIG_VALUE_SIZE);
   (17%nat, s2b "cmsSignKeyPath", [], MAX_CONFIG_VALUE_SIZE)]
  [(18%nat, s2b "cmsAdditionalCertPath"); (19%nat, s2b "cmsVerifyCertPath"); (20%nat, s2b "cmsVerifyStorePath")]
  [11%nat; 12%nat; 13%nat; 14%nat; 15%nat; 16%nat; 17%nat].

(** config.c 137-272 [load_masa_config], 81-135 [free_masa_config_content]
    (which looks at tls_key_path twice). *)
Definition masa_part : part := mk_part (s2b "masa")
  [(21%nat, s2b "bindAddress", s2b "0.0.0.0", MAX_CONFIG_VALUE_SIZE);
   (22%nat, s2b "expiresOn", [], TIME_ISO_STR_SIZE);
   (23%nat, s2b "ldevidCACertPath", [], MAX_CONFIG_VALUE_SIZE);
   (24%nat, s2b "tlsCertPath", [], MAX_CONFIG_VALUE_SIZE);
   (25%nat, s2b "tlsKeyPath", [], MAX_CONFIG_VALUE_SIZE);
   (26%nat, s2b "tlsCACertPath", [], MAX_CONFIG_VALUE_SIZE);
   (27%nat, s2b "cmsSignCertPath", [], MAX_CONFIG_VALUE_SIZE);
   (28%nat, s2b "cmsSignKeyPath", [], MAX_CONFIG_VALUE_SIZE)]
  [(29%nat, s2b "cmsAdditionalCertPath"); (30%nat, s2b "cmsVerifyCertPath"); (31%nat, s2b "cmsVerifyStorePath")]
  [21%nat; 22%nat; 23%nat; 25%nat; 24%nat; 25%nat; 26%nat; 27%nat; 28%nat].

(** Releasing a part: each string is released and its field set to NULL if it
    is not NULL, then the lists. *)
Fixpoint free_strings (h : heap) (cfg : N) (l : list nat) : outcome heap :=
  match l with
  | [] => Ok h
  | i :: r =>
    do p <- get_ptr h cfg i;
    do h <- (if p =? 0 then Ok h else do h <- sys_free h p; set_field h cfg i (P 0));
    free_strings h cfg r
  end.
Fixpoint free_lists (h : heap) (cfg : N) (l : list (nat * bytes)) : outcome heap :=
  match l with
  | [] => Ok h
  | (i, _) :: r =>
    do p <- get_ptr h cfg i;
    do h <- free_array_list h p;
    do h <- set_field h cfg i (P 0);
    free_lists h cfg r
  end.
Definition free_part (p : part) (h : heap) (cfg : N) : outcome heap :=
  do h <- free_strings h cfg (pt_release p);
  free_lists h cfg (pt_lists p).

(** The block of code repeated for each string. *)
Definition load_string (m : ini) (sec : bytes) (h : heap) (cfg : N) (e : nat * bytes * bytes * N) : outcome (bool * heap) :=
  let '(fld, key, def, size) := e in
  let (value, h) := alloc h (zeros size) in
  if value =? 0 then Ok (false, h)
  else
    do h <- write_string h value (ini_gets m sec key def size);
    do h <- set_field h cfg fld (P value);
    do t <- heap_string h value;
    if blen t =? 0 then
      do h <- set_field h cfg fld (P 0);
      do h <- sys_free h value;
      Ok (true, h)
    else Ok (true, h).
Fixpoint load_strings (m : ini) (sec : bytes) (h : heap) (cfg : N) (l : list (nat * bytes * bytes * N)) : outcome (bool * heap) :=
  match l with
  | [] => Ok (true, h)
  | e :: r =>
    do x <- load_string m sec h cfg e;
    let (ok, h) := x in
    if ok then load_strings m sec h cfg r else Ok (false, h)
  end.
Fixpoint load_lists (m : ini) (sec : bytes) (h : heap) (cfg : N) (l : list (nat * bytes)) : outcome (bool * heap) :=
  match l with
  | [] => Ok (true, h)
  | (fld, key) :: r =>
    do x <- load_config_value_list m sec key h cfg fld;
    let (rc, h) := x in
    if (rc <? 0)%Z then Ok (false, h) else load_lists m sec h cfg r
  end.
Definition load_part (p : part) (m : ini) (h : heap) (cfg : N) : outcome (Z * heap) :=
  do x <- load_strings m (pt_name p) h cfg (pt_strings p);
  let (ok, h) := x in
  if negb ok then do h <- free_part p h cfg; Ok ((-1)%Z, h)
  else
    do x <- load_lists m (pt_name p) h cfg (pt_lists p);
    let (ok, h) := x in
    if negb ok then do h <- free_part p h cfg; Ok ((-1)%Z, h) else Ok (0%Z, h).

(** config.c 637-641 [free_config_content]. *)
Definition free_config_content (h : heap) (cfg : N) : outcome heap :=
  do h <- free_part pledge_part h cfg;
  do h <- free_part registrar_part h cfg;
  free_part masa_part h cfg.

(** config.c 643-671 [load_brski_config]; [readable_file] says whether fopen
    succeeds. *)
Definition load_brski_config (readable_file : bool) (m : ini) (h : heap) (cfg : N) : outcome (Z * heap) :=
  if negb readable_file then Ok ((-1)%Z, h)
  else
    do x <- load_part pledge_part m h cfg;
    let (rc, h) := x in
    if (rc <? 0)%Z then do h <- free_config_content h cfg; Ok ((-1)%Z, h)
    else
      do x <- load_part registrar_part m h cfg;
      let (rc, h) := x in
      if (rc <? 0)%Z then do h <- free_config_content h cfg; Ok ((-1)%Z, h)
      else
        do x <- load_part masa_part m h cfg;
        let (rc, h) := x in
        if (rc <? 0)%Z then do h <- free_config_content h cfg; Ok ((-1)%Z, h) else Ok (0%Z, h).

(** What the rest of the program reads: a string field, a list field. *)
Definition cfg_string (h : heap) (cfg : N) (i : nat) : outcome (option bytes) :=
  do p <- get_ptr h cfg i;
  if p =? 0 then Ok None else do t <- heap_string h p; Ok (Some t).
Definition cfg_list (h : heap) (cfg : N) (i : nat) : outcome (list (bytes * Z)) :=
  do p <- get_ptr h cfg i; array_items h p.

(** What the certificate files contain: [read_cert path] is the DER encoding of
    the certificate in the file, [None] if the file cannot be opened, holds no
    PEM certificate or cannot be encoded. *)
(** array.c 90-98 [init_binary_array], crypto_ossl.c 232-249 [cert_to_derbuf],
    286-322 [file_to_x509buf]: the struct, then the buffer OpenSSL allocates.
    FILE and X509 objects are not on this heap. *)
Definition h_file_to_x509buf (read_cert : bytes -> option bytes) (h : heap) (path : N) : outcome (N * heap) :=
  do t <- heap_string h path;
  match read_cert t with
  | None => Ok (0, h)
  | Some d =>
    let (c, h) := alloc h (Struct [P 0; I 0]) in
    if c =? 0 then Ok (0, h)
    else
      let (b, h) := alloc h (Buf d) in
      if b =? 0 then
        do h <- sys_free h c; Ok (0, h)
      else
        do h <- set_field h c 0 (P b);
        do h <- set_field h c 1 (I (Z.of_N (blen d)));
        Ok (c, h)
  end.

(** array.c 154-159 [free_binary_array]. *)
Definition h_free_binary_array (h : heap) (arr : N) : outcome heap :=
  if arr =? 0 then Ok h
  else
    do p <- get_ptr h arr 0;
    do h <- (if p =? 0 then Ok h else do h <- sys_free h p; set_field h arr 0 (P 0));
    do h <- set_field h arr 1 (I 0);
    sys_free h arr.

(** config.c 673-710 [load_cert_files]; the result is the status and [*out]. *)
Fixpoint load_cert_loop (read_cert : bytes -> option bytes) (h : heap) (out : N) (l : list N) : outcome (Z * heap) :=
  match l with
  | [] => Ok (0%Z, h)
  | x :: r =>
    do path <- get_ptr h x 0;
    do c <- h_file_to_x509buf read_cert h path;
    let (cert, h) := c in
    if cert =? 0 then do h <- free_array_list h out; Ok ((-1)%Z, h)
    else
      do a <- get_ptr h cert 0;
      do n <- get_int h cert 1;
      do p <- push_array_list h out a (Z.to_N n) 0;
      let (rc, h) := p in
      if (rc <? 0)%Z then
        do h <- h_free_binary_array h cert;
        do h <- free_array_list h out; Ok ((-1)%Z, h)
      else
        do h <- h_free_binary_array h cert;
        load_cert_loop read_cert h out r
  end.
Definition load_cert_files (read_cert : bytes -> option bytes) (h : heap) (cert_paths : N) : outcome (Z * N * heap) :=
  if cert_paths =? 0 then Ok (0%Z, 0, h)
  else
    do n <- dl_list_len arr_off h cert_paths;
    if n =? 0 then Ok (0%Z, 0, h)
    else
      do p <- init_array_list h;
      let (out, h) := p in
      if out =? 0 then Ok ((-1)%Z, 0, h)
      else
        do l <- dl_list_for_each arr_off h cert_paths;
        do x <- load_cert_loop read_cert h out l;
        Ok (fst x, out, snd x).
