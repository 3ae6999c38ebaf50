(** Specification vocabulary for the configuration. *)
From Verif Require Import Base MHeap MArray MConfig SHeap SArray.
Open Scope N_scope.

(** What is assumed of minIni: given a C string as default it stores C strings
    that fit the buffer, and it gives non-empty key names. *)
Definition ini_ok (m : ini) : Prop :=
  (forall s, Forall (fun k => cstr_ok k /\ k <> [] /\ blen k < MAX_CONFIG_VALUE_SIZE) (ini_keys m s)) /\
  (forall s k d n, cstr_ok d -> 0 < n -> cstr_ok (ini_gets m s k d n) /\ blen (ini_gets m s k d n) < n).

(** Some allocation from now on fails. *)
Definition oomed (h : heap) : Prop := exists a, hp_next h <= a /\ hp_oom h a = true.

(** The configuration before loading and after releasing: all pointers NULL. *)
Definition zero_cfg (h : heap) (cfg : N) : Prop := hp_cell h cfg = Live (Struct (repeat (P 0) cfg_fields)).

Definition bytes_dec : forall a b : bytes, {a = b} + {a <> b} := list_eq_dec N.eq_dec.

(** The fields of a part hold what the file says: a string is absent if its
    text is empty; a list has one entry for each occurrence of its key, all
    holding the text of that key, with its NUL. *)
Definition string_of_file (m : ini) (sec key def : bytes) (size : N) : option bytes :=
  match ini_gets m sec key def size with [] => None | t => Some t end.
Definition list_of_file (m : ini) (sec key : bytes) : list (bytes * Z) :=
  match ini_gets m sec key [] INI_BUFFERSIZE with
  | [] => []
  | t => repeat (t ++ [0], 0%Z) (count_occ bytes_dec (ini_keys m sec) key)
  end.
(** The documented keys (docs and src/brski/*_config.h): section, field in the
    order of the structs, key, default and room. *)
Definition config_strings : list (bytes * nat * bytes * bytes * N) :=
  [(s2b "pledge", 0%nat, s2b "createdOn", [], 22);
   (s2b "pledge", 1%nat, s2b "serialNumber", [], 2048);
   (s2b "pledge", 2%nat, s2b "nonce", [], 2048);
   (s2b "pledge", 3%nat, s2b "idevidCertPath", [], 2048);
   (s2b "pledge", 4%nat, s2b "idevidKeyPath", [], 2048);
   (s2b "pledge", 5%nat, s2b "idevidCACertPath", [], 2048);
   (s2b "pledge", 6%nat, s2b "cmsSignCertPath", [], 2048);
   (s2b "pledge", 7%nat, s2b "cmsSignKeyPath", [], 2048);
   (s2b "registrar", 11%nat, s2b "bindAddress", s2b "0.0.0.0", 2048);
   (s2b "registrar", 12%nat, s2b "tlsCertPath", [], 2048);
   (s2b "registrar", 13%nat, s2b "tlsKeyPath", [], 2048);
   (s2b "registrar", 14%nat, s2b "tlsCAKeyPath", [], 2048);
   (s2b "registrar", 15%nat, s2b "tlsCACertPath", [], 2048);
   (s2b "registrar", 16%nat, s2b "cmsSignCertPath", [], 2048);
   (s2b "registrar", 17%nat, s2b "cmsSignKeyPath", [], 2048);
   (s2b "masa", 21%nat, s2b "bindAddress", s2b "0.0.0.0", 2048);
   (s2b "masa", 22%nat, s2b "expiresOn", [], 22);
   (s2b "masa", 23%nat, s2b "ldevidCACertPath", [], 2048);
   (s2b "masa", 24%nat, s2b "tlsCertPath", [], 2048);
   (s2b "masa", 25%nat, s2b "tlsKeyPath", [], 2048);
   (s2b "masa", 26%nat, s2b "tlsCACertPath", [], 2048);
   (s2b "masa", 27%nat, s2b "cmsSignCertPath", [], 2048);
   (s2b "masa", 28%nat, s2b "cmsSignKeyPath", [], 2048)].
Definition config_lists : list (bytes * nat * bytes) :=
  [(s2b "pledge", 8%nat, s2b "cmsAdditionalCertPath"); (s2b "pledge", 9%nat, s2b "cmsVerifyCertPath"); (s2b "pledge", 10%nat, s2b "cmsVerifyStorePath");
   (s2b "registrar", 18%nat, s2b "cmsAdditionalCertPath"); (s2b "registrar", 19%nat, s2b "cmsVerifyCertPath"); (s2b "registrar", 20%nat, s2b "cmsVerifyStorePath");
   (s2b "masa", 29%nat, s2b "cmsAdditionalCertPath"); (s2b "masa", 30%nat, s2b "cmsVerifyCertPath"); (s2b "masa", 31%nat, s2b "cmsVerifyStorePath")].
Definition holds (m : ini) (h : heap) (cfg : N) : Prop :=
  (forall sec fld key def size, In (sec, fld, key, def, size) config_strings -> cfg_string h cfg fld = Ok (string_of_file m sec key def size)) /\
  (forall sec fld key, In (sec, fld, key) config_lists -> cfg_list h cfg fld = Ok (list_of_file m sec key)).

(** A configuration file as its author sees it: sections with their entries in
    order. minIni looks up a key by taking the first entry with that name (both
    exactly equal here) and cuts a text to the buffer. *)
Definition ini_file := list (bytes * list (bytes * bytes)).
Definition entries (f : ini_file) (sec : bytes) : list (bytes * bytes) :=
  match find (fun x => beqb (fst x) sec) f with Some x => snd x | None => [] end.
Definition minini (f : ini_file) : ini :=
  mk_ini (fun sec => map fst (entries f sec))
         (fun sec key def n =>
            firstn (N.to_nat (n - 1))
              match find (fun e => beqb (fst e) key) (entries f sec) with Some e => snd e | None => def end).
(** What the author means by a list: the non-empty values given for the key. *)
Definition meant (f : ini_file) (sec key : bytes) : list (bytes * Z) :=
  map (fun e => (snd e ++ [0], 0%Z)) (filter (fun e => beqb (fst e) key && negb (beqb (snd e) [])) (entries f sec)).

(** A file minIni can read: names and values are C strings, names are not
    empty and fit the buffer for names. *)
Definition file_ok (f : ini_file) : Prop :=
  Forall (fun x => Forall (fun e => cstr_ok (fst e) /\ fst e <> [] /\ blen (fst e) < MAX_CONFIG_VALUE_SIZE /\ cstr_ok (snd e)) (snd x)) f.
