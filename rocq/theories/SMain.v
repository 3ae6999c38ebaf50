(** Specification vocabulary for the program brski. *)
From Verif Require Import Base MOs MHeap MArray MVoucher MCrypto MConfig MHandlers MLog MSignCert MMain SHeap SArray SBase64 SConfig SVoucher SRequest SHandlers SPledge SSignCert.
Open Scope N_scope.

(** ** The command line as its author writes it *)

(** Pieces: -d repeated; an option with its argument, in the same word or in the
    next one, after [n] times d; a word that is no option. *)
Inductive piece := PFlags (n : nat) | PJoined (n : nat) (c : N) (a : bytes) | PApart (n : nat) (c : N) (a : bytes) | PWord (w : bytes).
Definition ds (n : nat) : bytes := repeat 100 n.
Definition takes_arg (c : N) : Prop := In c (s2b "ciopa").
Definition piece_ok (p : piece) : Prop :=
  match p with
  | PFlags _ => True
  | PJoined _ c a => takes_arg c /\ a <> []
  | PApart _ c _ => takes_arg c
  | PWord w => w = [45] \/ forall r, w <> 45 :: r
  end.
Definition words (p : piece) : list bytes :=
  match p with
  | PFlags n => [45 :: ds (S n)]
  | PJoined n c a => [45 :: ds n ++ c :: a]
  | PApart n c a => [45 :: ds n ++ [c]; a]
  | PWord w => [w]
  end.
(** A whole line; after the word -- nothing is an option. *)
Definition written (ps : list piece) (more : option (list bytes)) : list bytes :=
  flat_map words ps ++ match more with None => [] | Some l => s2b "--" :: l end.
Definition operands (ps : list piece) (more : option (list bytes)) : list bytes :=
  flat_map (fun p => match p with PWord w => [w] | _ => [] end) ps ++ match more with None => [] | Some l => l end.
(** The argument of option [c]; the last one counts. *)
Fixpoint given (c : N) (ps : list piece) : option bytes :=
  match ps with
  | [] => None
  | p :: ps =>
    match given c ps with
    | Some a => Some a
    | None => match p with PJoined _ c' a | PApart _ c' a => if c =? c' then Some a else None | _ => None end
    end
  end.
Definition loud (ps : list piece) : bool :=
  existsb (fun p => match p with PFlags _ => true | PJoined n _ _ | PApart n _ _ => negb (Nat.eqb n 0) | PWord _ => false end) ps.
Definition or_empty (a : option bytes) : bytes := match a with Some a => a | None => [] end.

(** The commands. *)
Definition names (w : bytes) (c : command) : Prop :=
  match c with
  | CExportPvr => w = s2b "epvr" | CPledgeRequest => w = s2b "preq" | CVerifyMasa => w = s2b "vmasa" | CSignCert => w = s2b "sign"
  | CGetSerial => w = s2b "serial" | CRegistrar => w = s2b "registrar" | CMasa => w = s2b "masa"
  end.

(** Decimal numbers. *)
Definition digit (c : N) : Prop := 48 <= c <= 57.
Definition value (t : bytes) : N := fold_left (fun n c => n * 10 + (c - 48)) t 0.
Definition numeral (t : bytes) (n : N) : Prop := t <> [] /\ Forall digit t /\ value t = n.
(** What -p makes of a text: blanks, a sign, digits and whatever follows; the
    number is cut to 64 bits and then taken modulo 2^32. *)
Definition blank (c : N) : Prop := c = 32 \/ 9 <= c <= 13.
Definition cut_to_long (negative : bool) (n : N) : Z :=
  if negative then Z.max (- 2 ^ 63) (- Z.of_N n) else Z.min (2 ^ 63 - 1) (Z.of_N n).
Definition port_means (t : bytes) (n : N) : Prop :=
  exists blanks sign digits rest, t = blanks ++ sign ++ digits ++ rest /\
    Forall blank blanks /\ (sign = [] \/ sign = s2b "+" \/ sign = s2b "-") /\ Forall digit digits /\
    (forall c r, rest = c :: r -> ~ digit c /\ (sign = [] -> digits = [] -> ~ blank c /\ c <> 43 /\ c <> 45)) /\
    Z.of_N n = (cut_to_long (beqb sign (s2b "-")) (value digits) mod 2 ^ 32)%Z.

(** The line asks for command [c] with the options [o]; port 0 stands for none. *)
Definition asks_for (args : list bytes) (o : options) (c : command) : Prop :=
  exists ps more w rest, Forall piece_ok ps /\ args = written ps more /\ operands ps more = w :: rest /\ names w c /\
    op_verbose o = loud ps /\ op_config o = or_empty (given 99 ps) /\ op_in o = or_empty (given 105 ps) /\ op_out o = or_empty (given 111 ps) /\
    op_address o = or_empty (given 97 ps) /\ match given 112 ps with None => op_port o = 0 | Some t => port_means t (op_port o) end.
(** The line names no command to run: it asks for help or the version, or has an
    option that is not known or lacks its argument, after correct pieces; it is
    empty; or it is correct but has no command. *)
Definition unknown (c : N) : Prop := ~ takes_arg c /\ c <> 100 /\ c <> 104 /\ c <> 118.
Definition stops (args : list bytes) (l : leaving) : Prop :=
  match l with
  | LHelp => exists ps n r rest, Forall piece_ok ps /\ args = flat_map words ps ++ (45 :: ds n ++ 104 :: r) :: rest
  | LVersion => exists ps n r rest, Forall piece_ok ps /\ args = flat_map words ps ++ (45 :: ds n ++ 118 :: r) :: rest
  | LBadOption => exists ps, Forall piece_ok ps /\
      ((exists n c r rest, unknown c /\ ds n ++ c :: r <> s2b "-" /\ args = flat_map words ps ++ (45 :: ds n ++ c :: r) :: rest) \/
       (exists n c, takes_arg c /\ args = flat_map words ps ++ [45 :: ds n ++ [c]]))
  | LNothing => args = []
  | LNoCommand => args <> [] /\ exists ps more, Forall piece_ok ps /\ args = written ps more /\ forall w rest c, operands ps more = w :: rest -> ~ names w c
  end.

(** ** What the configuration says *)

(** A list of paths: the text of the key, once for each occurrence of the key. *)
Definition paths_of (m : ini) (sec key : bytes) : list bytes :=
  match ini_gets m sec key [] 512 with
  | [] => []
  | t => repeat t (count_occ bytes_dec (ini_keys m sec) key)
  end.
Definition pledge_setting (m : ini) (key : bytes) : option bytes := string_of_file m (s2b "pledge") key [] 2048.
Definition registrar_setting (m : ini) (key : bytes) : option bytes := string_of_file m (s2b "registrar") key [] 2048.

(** The settings of the pledge. *)
Definition settings (m : ini) : pledge_files :=
  mk_pfiles (string_of_file m (s2b "pledge") (s2b "createdOn") [] 22) (pledge_setting m (s2b "serialNumber")) (pledge_setting m (s2b "nonce"))
    (or_empty (pledge_setting m (s2b "cmsSignCertPath"))) (or_empty (pledge_setting m (s2b "cmsSignKeyPath")))
    (paths_of m (s2b "pledge") (s2b "cmsAdditionalCertPath")) (paths_of m (s2b "pledge") (s2b "cmsVerifyCertPath")) (paths_of m (s2b "pledge") (s2b "cmsVerifyStorePath")).
(** Both files for signing are named. *)
Definition signs (m : ini) : Prop := pledge_setting m (s2b "cmsSignCertPath") <> None /\ pledge_setting m (s2b "cmsSignKeyPath") <> None.

(** The address of the registrar: the one of the command line, if there is one. *)
Definition address_of (m : ini) (a : bytes) : option bytes :=
  match a with [] => string_of_file m (s2b "registrar") (s2b "bindAddress") (s2b "0.0.0.0") 2048 | _ => Some a end.
Definition port_of (e : outside) (o : options) : N := if op_port o =? 0 then e_port e (op_config o) else op_port o.

(** The exchanges with the registrar at that address and port, by the client's key
    and certificate; without one of the three nothing is exchanged. *)
Definition contact_for {A} (e : outside) (m : ini) (o : options) (make : bytes -> bytes -> bytes -> N -> A) (no : A) : A :=
  match address_of m (op_address o), pledge_setting m (s2b "idevidKeyPath"), pledge_setting m (s2b "idevidCertPath") with
  | Some a, Some k, Some c => make k c a (port_of e o)
  | _, _, _ => no
  end.
Definition contact1 (e : outside) (m : ini) (o : options) : post_cert_fn := contact_for e m o (e_post1 e) (fun _ => ((-1)%Z, [], None)).
Definition contact2 (e : outside) (m : ini) (o : options) : post_cert_fn := contact_for e m o (e_post2 e) (fun _ => ((-1)%Z, [], None)).
Definition contact3 (e : outside) (m : ini) (o : options) : post_ca_fn := contact_for e m o (e_post3 e) (fun _ _ => ((-1)%Z, [])).

(** The outside behaves. *)
Definition outside_ok (e : outside) : Prop :=
  (forall n m, e_ini e n = Some m -> ini_ok m) /\ ossl_sane (e_ossl e) /\ world_ok (e_world e) /\ device_ok (e_device e) /\
  bytes_ok (e_stdin e) /\ blen (e_junk e) = 4096 /\
  (forall k c a p, post_ok (e_post1 e k c a p)) /\ (forall k c a p, post_ok (e_post2 e k c a p)) /\ (forall k c a p, post_ca_ok (e_post3 e k c a p)).

(** ** The commands *)

(** Making the request does not survive: the nonce has bad padding, or a file for
    signing that is needed next is not named, or a file of the additional list
    cannot be read. *)
Definition request_crash (w : world) (m : ini) : Prop :=
  pledge_time w (settings m) <> None /\
  ((exists x, pledge_setting m (s2b "nonce") = Some x /\ bad_padding x) \/
   (exists n, nonce_given (settings m) n) /\
   match pledge_setting m (s2b "cmsSignCertPath") with
   | None => True
   | Some t => w_cert w t <> None /\
     match pledge_setting m (s2b "cmsSignKeyPath") with
     | None => True
     | Some k => w_key w k <> None /\ missing (w_cert w) (pf_add (settings m))
     end
   end).
Definition exchange_crash (e : outside) (m : ini) (o : options) : Prop :=
  exists tls1, first_contact (contact1 e m o) tls1 /\
    (request_crash (e_world e) m \/
     signs m /\ exists cms tls2 response, pledge_asks (e_ossl e) (e_world e) (settings m) tls1 cms /\ blen cms < SIZE_MAX / 4 /\
       second_contact (contact2 e m o) (rfc_encode cms) tls2 response /\
       (bad_padding (c_string response) \/ missing (w_cert (e_world e)) (pf_verify (settings m)) \/ missing (w_cert (e_world e)) (pf_store (settings m)))).

(** The pinned certificate [d] is obtained. *)
Definition exchange_gives (e : outside) (m : ini) (o : options) (d : bytes) : Prop :=
  signs m /\ exists tls1 tls2, pledge_obtains (e_ossl e) (e_world e) (settings m) (contact1 e m o) (contact2 e m o) tls1 tls2 d.

(** The key and the certificate for it are obtained. *)
Definition enrol_crash (e : outside) (m : ini) (o : options) : Prop :=
  dv_random (e_device e) <> None /\ exchange_crash e m o \/
  signs m /\ exists key response, enrolled (e_ossl e) (e_world e) (settings m) (e_device e) (contact1 e m o) (contact2 e m o) (contact3 e m o) key response /\ bad_padding (c_string response).
Definition enrol_gives (e : outside) (m : ini) (o : options) (key cert : bytes) : Prop :=
  signs m /\ sign_obtains (e_ossl e) (e_world e) (settings m) (e_device e) (contact1 e m o) (contact2 e m o) (contact3 e m o) key cert.

(** The certificate [d] is where it was asked for: on standard output in base64, or
    as PEM in the file. *)
Definition shown (e : outside) (out d : bytes) (r : ending) : Prop :=
  out = [] /\ blen d < SIZE_MAX / 4 /\ r = mk_ending 0 (rfc_encode d ++ [10]) [] \/
  out <> [] /\ exists t, e_open e (firstn 254 (out ++ s2b ".crt")) = true /\ e_pem_cert e d = Some t /\ r = mk_ending 0 [] [(firstn 254 (out ++ s2b ".crt"), t)].
(** The certificate and its key are where they were asked for. *)
Definition shown_pair (e : outside) (out cert key : bytes) (r : ending) : Prop :=
  out = [] /\ blen cert < SIZE_MAX / 4 /\ blen key < SIZE_MAX / 4 /\ r = mk_ending 0 (rfc_encode cert ++ [10] ++ rfc_encode key ++ [10]) [] \/
  out <> [] /\ exists t t', e_open e (firstn 254 (out ++ s2b ".crt")) = true /\ e_pem_cert e cert = Some t /\
    e_open e (firstn 254 (out ++ s2b ".key")) = true /\ e_pem_key e key = Some t' /\
    r = mk_ending 0 [] [(firstn 254 (out ++ s2b ".key"), t'); (firstn 254 (out ++ s2b ".crt"), t)].
(** The signed request is where it was asked for. *)
Definition shown_request (e : outside) (out cms : bytes) (r : ending) : Prop :=
  out = [] /\ blen cms < SIZE_MAX / 4 /\ r = mk_ending 0 (rfc_encode cms ++ [10]) [] \/
  out <> [] /\ exists t, e_smime e cms = Some t /\ e_open e (firstn 254 (out ++ s2b ".smime")) = true /\ r = mk_ending 0 [] [(firstn 254 (out ++ s2b ".smime"), t)].

(** The request for the registrar certificate of the configuration. *)
Definition export_gives (e : outside) (m : ini) (cms : bytes) : Prop :=
  exists t tls, registrar_setting m (s2b "tlsCertPath") = Some t /\ w_cert (e_world e) t = Some tls /\ signs m /\ pledge_asks (e_ossl e) (e_world e) (settings m) tls cms.
Definition export_crash (e : outside) (m : ini) : Prop :=
  match registrar_setting m (s2b "tlsCertPath") with
  | None => True
  | Some t => w_cert (e_world e) t <> None /\ request_crash (e_world e) m
  end.

(** The voucher on standard input, verified for the registrar certificate in the
    file named with -i, pins [d]. *)
Definition check_gives (e : outside) (m : ini) (o : options) (d : bytes) : Prop :=
  op_in o <> [] /\ blen (e_stdin e) < 4096 /\ exists tls msg, w_cert (e_world e) (op_in o) = Some tls /\ rfc_decode (e_stdin e) = Some msg /\
    pledge_takes (e_ossl e) (e_world e) (settings m) tls msg d.
Definition check_crash (e : outside) (m : ini) (o : options) : Prop :=
  op_in o <> [] /\ (4096 <= blen (e_stdin e) \/
    w_cert (e_world e) (op_in o) <> None /\
    ((forall n, ~ nonce_given (settings m) n) \/ missing (w_cert (e_world e)) (pf_verify (settings m)) \/ missing (w_cert (e_world e)) (pf_store (settings m)))).

(** The serial number in the certificate in the file named with -i. *)
Definition serial_gives (e : outside) (o : options) (s : bytes) : Prop :=
  op_in o <> [] /\ exists d v, w_cert (e_world e) (op_in o) = Some d /\ e_view e d = Some v /\ client_serial v s.

(** A command gives a result [x] and shows it and ends with 0, or there is none that can be shown
    and it ends with 1. *)
Definition delivers {A} (gives : A -> Prop) (shows : A -> ending -> Prop) (r : ending) : Prop :=
  (exists x, gives x /\ shows x r) \/ en_status r = 1%Z /\ forall x r', gives x -> ~ shows x r'.
(** It started: the server function returned 0 or more, for a positive number of
    the process. *)
Definition starts (z : Z) (r : ending) : Prop := (0 <= z)%Z /\ r = mk_ending 0 [] [] \/ (z < 0)%Z /\ r = mk_ending 1 [] [].
(** ** The whole program *)

(** Which commands with the settings of the file [m] do not survive. *)
Definition crashes (e : outside) (m : ini) (o : options) (c : command) : Prop :=
  match c with
  | CExportPvr => export_crash e m
  | CPledgeRequest => exchange_crash e m o
  | CVerifyMasa => check_crash e m o
  | CSignCert => enrol_crash e m o
  | CGetSerial | CRegistrar | CMasa => False
  end.
(** How a command that survives ends. *)
Definition answers (e : outside) (m : ini) (o : options) (c : command) (r : ending) : Prop :=
  match c with
  | CExportPvr => delivers (export_gives e m) (shown_request e (op_out o)) r
  | CPledgeRequest => delivers (exchange_gives e m o) (shown e (op_out o)) r
  | CVerifyMasa => delivers (check_gives e m o) (shown e (op_out o)) r
  | CSignCert => delivers (fun x => enrol_gives e m o (snd x) (fst x)) (fun x => shown_pair e (op_out o) (fst x) (snd x)) r
  | CGetSerial => delivers (serial_gives e o) (fun s r => r = mk_ending 0 s []) r
  | CRegistrar => starts (e_registrar e (address_of m (op_address o)) (port_of e o)) r
  | CMasa => starts (e_masa e) r
  end.
