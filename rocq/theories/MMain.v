(** Model of the program brski: src/brski/brski.cpp 30-65, 127-216, 239-525 and the
    functions that write its output files. Log lines and help texts are left out. *)
From Verif Require Import Base MOs MBase64 MSerialize MVoucher MCrypto MRequest MHeap MArray MVoucherHeap MConfig MHandlers MLog MSignCert.
Open Scope N_scope.
Open Scope ub_scope.

(** ** The command line *)

(** brski.cpp 35-65. *)
Inductive command := CExportPvr | CPledgeRequest | CVerifyMasa | CSignCert | CGetSerial | CRegistrar | CMasa.
Definition command_list : list (bytes * command) :=
  [(s2b "epvr", CExportPvr); (s2b "preq", CPledgeRequest); (s2b "vmasa", CVerifyMasa); (s2b "sign", CSignCert);
   (s2b "serial", CGetSerial); (s2b "registrar", CRegistrar); (s2b "masa", CMasa)].
(** brski.cpp 127-135 [get_command_id]; [None] is the exception. *)
Definition get_command_id (label : bytes) : option command :=
  option_map snd (find (fun e => beqb (fst e) label) command_list).

(** The variables process_options fills. *)
Record options := mk_options {
  op_verbose : bool; op_config : bytes; op_in : bytes; op_out : bytes; op_port : N; op_address : bytes }.
Definition no_options : options := mk_options false [] [] [] 0 [].

(** strtol(text, NULL, 10) of C 7.22.1.4 with a 64-bit long: blanks, a sign, digits. *)
Definition is_blank (c : N) : bool := (c =? 32) || ((9 <=? c) && (c <=? 13)).
Fixpoint skip_blanks (s : bytes) : bytes := match s with c :: r => if is_blank c then skip_blanks r else s | [] => [] end.
Definition is_dec (c : N) : bool := (48 <=? c) && (c <=? 57).
Fixpoint digits_value (acc : N) (s : bytes) : N :=
  match s with c :: r => if is_dec c then digits_value (acc * 10 + (c - 48)) r else acc | [] => acc end.
Definition strtol (s : bytes) : Z :=
  match skip_blanks s with
  | c :: r =>
    if c =? 45 then Z.max (-9223372036854775808) (- Z.of_N (digits_value 0 r))
    else Z.min 9223372036854775807 (Z.of_N (digits_value 0 (if c =? 43 then r else c :: r)))
  | [] => 0%Z
  end.
(** [(unsigned int)x]. *)
Definition to_uint (z : Z) : N := Z.to_N (z mod 4294967296).

(** brski.cpp 30: the options of OPT_STRING with and without an argument. *)
Definition with_arg (c : N) : bool := existsb (N.eqb c) (s2b "ciopa").
Definition without_arg (c : N) : bool := existsb (N.eqb c) (s2b "dvh").

(** brski.cpp 152-166: one option with its argument. *)
Definition set_option (c : N) (a : bytes) (o : options) : options :=
  if c =? 99 then mk_options (op_verbose o) a (op_in o) (op_out o) (op_port o) (op_address o)
  else if c =? 105 then mk_options (op_verbose o) (op_config o) a (op_out o) (op_port o) (op_address o)
  else if c =? 111 then mk_options (op_verbose o) (op_config o) (op_in o) a (op_port o) (op_address o)
  else if c =? 112 then mk_options (op_verbose o) (op_config o) (op_in o) (op_out o) (to_uint (strtol a)) (op_address o)
  else mk_options (op_verbose o) (op_config o) (op_in o) (op_out o) (op_port o) a.
Definition set_verbose (o : options) : options :=
  mk_options true (op_config o) (op_in o) (op_out o) (op_port o) (op_address o).

(** What getopt (glibc, without POSIXLY_CORRECT) makes of one word after its '-',
    given to the loop 144-180: all options set; an option that takes the next word; or the
    program ends. *)
Inductive leaving := LHelp | LVersion | LBadOption | LNothing | LNoCommand.
Inductive word := WDone (o : options) | WNext (c : N) (o : options) | WExit (l : leaving).
Fixpoint word_options (w : bytes) (o : options) : word :=
  match w with
  | [] => WDone o
  | c :: r =>
    if with_arg c then match r with [] => WNext c o | _ => WDone (set_option c r o) end
    else if c =? 100 then word_options r (set_verbose o)
    else if without_arg c then WExit (if c =? 104 then LHelp else LVersion)
    else WExit LBadOption
  end.
(** The words after the program name: the options and the words that are none, or
    the program ends. *)
Fixpoint scan_words (args : list bytes) (o : options) (rest : list bytes) : (options * list bytes) + leaving :=
  match args with
  | [] => inl (o, rest)
  | w :: args =>
    if beqb (firstn 1 w) [45] && negb (beqb w [45]) then
      if beqb w [45; 45] then inl (o, rest ++ args)
      else
      match word_options (skipn 1 w) o with
      | WDone o => scan_words args o rest
      | WExit s => inr s
      | WNext c o => match args with [] => inr LBadOption | a :: args => scan_words args (set_option c a o) rest end
      end
    else scan_words args o (rest ++ [w])
  end.
(** brski.cpp 137-202 [process_options]; the test on optind at 184 holds only
    without any argument. *)
Definition process_options (args : list bytes) : (options * command) + leaving :=
  match args with
  | [] => inr LNothing
  | _ =>
    match scan_words args no_options [] with
    | inr l => inr l
    | inl (_, []) => inr LNoCommand
    | inl (o, label :: _) => match get_command_id label with Some c => inl (o, c) | None => inr LNoCommand end
    end
  end.
(** brski.cpp 84-108 [show_help]: [basename] (GNU, from the C library) searches a
    copy of the program's name for '/' up to a null byte; the copy has none. The
    texts written are not modelled. *)
Definition show_help (name : bytes) : outcome unit := do _ <- strlen name; Ok tt.
(** The ends of [process_options]: status, with help or without. *)
Definition leave_early (name : bytes) (l : leaving) : outcome Z :=
  match l with
  | LHelp | LNothing => do _ <- show_help name; Ok 0%Z
  | LVersion => Ok 0%Z
  | LBadOption => Ok 1%Z
  | LNoCommand => do _ <- show_help name; Ok 1%Z
  end.

(** ** The commands *)

(** The outside: the configuration files as minIni reads them ([None]: cannot be
    opened) and the port of the registrar in them; OpenSSL, files and clock; the
    generated key; the three exchanges for the client's key and certificate file,
    address and port; which files can be opened for writing; DER data as written in
    PEM and S/MIME; DER data as a certificate; standard input and the bytes found in
    the buffer for it; the results of the two servers' start functions, for the registrar with its
    address and port. *)
Record outside := mk_outside {
  e_ini : bytes -> option ini; e_port : bytes -> N;
  e_ossl : ossl; e_world : world; e_device : device;
  e_post1 : bytes -> bytes -> bytes -> N -> post_cert_fn; e_post2 : bytes -> bytes -> bytes -> N -> post_cert_fn;
  e_post3 : bytes -> bytes -> bytes -> N -> post_ca_fn;
  e_open : bytes -> bool; e_pem_cert : bytes -> option bytes; e_pem_key : bytes -> option bytes; e_smime : bytes -> option bytes;
  e_view : bytes -> option cert_view; e_stdin : bytes; e_junk : bytes;
  e_registrar : option bytes -> N -> Z; e_masa : Z }.

(** What the program leaves: its status, standard output, and the files it wrote,
    the last one first. *)
Record ending := mk_ending { en_status : Z; en_out : bytes; en_files : list (bytes * bytes) }.

(** [snprintf(outf, 255, "%s" ext, name)]. *)
Definition out_name (name ext : bytes) : bytes := firstn 254 (name ++ ext).

(** The array at [p] handed to OpenSSL. *)
Definition array_data (h : heap) (p : N) : outcome bytes :=
  do b <- h_barray h p; match b with Some b => ba_read b | None => UB NullDeref end.

(** crypto_ossl.c 174-201 [certbuf_to_file], 203-230 [keybuf_to_file]: the file is
    emptied when it is opened. A failing write is not told from a failing
    conversion. *)
Definition pem_to_file (e : outside) (pem : bytes -> option bytes) (fs : list (bytes * bytes)) (d name : bytes) : Z * list (bytes * bytes) :=
  if e_open e name then
    match pem d with Some t => (0%Z, (name, t) :: fs) | None => ((-1)%Z, (name, []) :: fs) end
  else ((-1)%Z, fs).
(** crypto_ossl.c 141-172 [cmsbuf_to_file]: the conversion comes first. *)
Definition cms_to_file (e : outside) (fs : list (bytes * bytes)) (d name : bytes) : Z * list (bytes * bytes) :=
  match e_smime e d with
  | None => ((-1)%Z, fs)
  | Some t => if e_open e name then (0%Z, (name, t) :: fs) else ((-1)%Z, fs)
  end.

(** brski.cpp 239-262 [output_domain_cert], with print_cert 208-216. *)
Definition output_domain_cert (e : outside) (h : heap) (pinned : N) (out : bytes) : outcome (Z * bytes * list (bytes * bytes) * heap) :=
  match out with
  | [] =>
    do x <- encode_array h pinned;
    match x with
    | (None, h) => Ok ((-1)%Z, [], [], h)
    | (Some t, h) => Ok (0%Z, t ++ [10], [], h)
    end
  | _ =>
    do d <- array_data h pinned;
    let (z, fs) := pem_to_file e (e_pem_cert e) [] d (out_name out (s2b ".crt")) in
    Ok (z, [], fs, h)
  end.

(** pledge_config.h: the fields of the pledge part the client uses. *)
Definition pledge_fields (h : heap) (cfg : N) : outcome pledge_conf :=
  do a <- get_ptr h cfg 0; do b <- get_ptr h cfg 1; do c <- get_ptr h cfg 2; do d <- get_ptr h cfg 6;
  do e <- get_ptr h cfg 7; do f <- get_ptr h cfg 8; do g <- get_ptr h cfg 9; do i <- get_ptr h cfg 10;
  Ok (mk_pconf a b c d e f g i).

(** pledge_request.cpp 100-113: the three strings without which
    post_voucher_pledge_request returns -1 before anything else. *)
Definition refused : post_cert_fn := fun _ => ((-1)%Z, [], None).
Definition client (h : heap) (cfg : N) : outcome (option (bytes * bytes * bytes)) :=
  do key <- cfg_string h cfg 4; do cert <- cfg_string h cfg 3; do address <- cfg_string h cfg 11;
  Ok match address, key, cert with Some a, Some k, Some c => Some (k, c, a) | _, _, _ => None end.

(** brski.cpp 297-305: the address of the command line; strdup allocates like
    sys_strdup. *)
Definition override_address (h : heap) (cfg : N) (address : bytes) : outcome (bool * heap) :=
  match address with
  | [] => Ok (true, h)
  | _ =>
    do p <- get_ptr h cfg 11;
    do h <- sys_free h p;
    let (a, h) := alloc h (Buf (address ++ [0])) in
    do h <- set_field h cfg 11 (P a);
    Ok (negb (a =? 0), h)
  end.

(** brski.cpp 312-342. *)
Definition main_epvr (e : outside) (o : options) (h : heap) (cfg : N) : outcome (ending * heap) :=
  do c <- pledge_fields h cfg;
  do path <- get_ptr h cfg 12;
  do x <- h_file_to_cert (e_world e) h path;
  let (tls, h) := x in
  if tls =? 0 then Ok (mk_ending 1 [] [], h)
  else match op_out o with
  | [] =>
    do x <- voucher_pledge_request_to_base64 (e_ossl e) (e_world e) c h tls;
    let (text, h) := x in
    do h <- h_free_binary_array h tls;
    match text with
    | None => Ok (mk_ending 1 [] [], h)
    | Some t => Ok (mk_ending 0 (t ++ [10]) [], h)
    end
  | _ =>
    (* pledge_utils.c 112-134 *)
    do x <- voucher_pledge_request_to_array (e_ossl e) (e_world e) c h tls;
    let (cms, h) := x in
    if cms =? 0 then Ok (mk_ending 1 [] [], h)
    else
    do d <- array_data h cms;
    let (z, fs) := cms_to_file e [] d (out_name (op_out o) (s2b ".smime")) in
    do h <- h_free_binary_array h cms;
    if (z <? 0)%Z then Ok (mk_ending 1 [] fs, h)
    else do h <- h_free_binary_array h tls; Ok (mk_ending 0 [] fs, h)
  end.

(** brski.cpp 343-360. *)
Definition main_preq (e : outside) (o : options) (port : N) (h : heap) (cfg : N) : outcome (ending * heap) :=
  do c <- pledge_fields h cfg;
  do k <- client h cfg;
  let (pinned, h) := local h (Struct [P 0; I 0]) in
  do x <- match k with
          | Some (key, cert, address) => post_voucher_pledge_request (e_ossl e) (e_world e) c (e_post1 e key cert address port) (e_post2 e key cert address port) h pinned
          | None => post_voucher_pledge_request (e_ossl e) (e_world e) c refused refused h pinned
          end;
  let (z, h) := x in
  if (z <? 0)%Z then Ok (mk_ending 1 [] [], h)
  else
  do x <- output_domain_cert e h pinned (op_out o);
  let '(z, text, fs, h) := x in
  if (z <? 0)%Z then Ok (mk_ending 1 text fs, h)
  else do h <- h_free_binary_array_content h (pinned, 0%nat); Ok (mk_ending 0 text fs, h).

(** brski.cpp 362-407. The key is printed with print_cert. *)
Definition main_sign (e : outside) (o : options) (port : N) (h : heap) (cfg : N) : outcome (ending * heap) :=
  do c <- pledge_fields h cfg;
  do k <- client h cfg;
  let out_cert := hp_next h in
  let out_key := hp_next h + 1 in
  do x <- match k with
          | Some (key, cert, address) => sign_cert_command (e_ossl e) (e_world e) c (e_device e) (e_post1 e key cert address port) (e_post2 e key cert address port) (e_post3 e key cert address port) h
          | None => sign_cert_command (e_ossl e) (e_world e) c (e_device e) refused refused (fun _ _ => ((-1)%Z, [])) h
          end;
  let (z, h) := x in
  if (z <? 0)%Z then Ok (mk_ending 1 [] [], h)
  else
  let done h text fs :=
    do h <- h_free_binary_array_content h (out_cert, 0%nat);
    do h <- h_free_binary_array_content h (out_key, 0%nat);
    Ok (mk_ending 0 text fs, h) in
  match op_out o with
  | [] =>
    do x <- encode_array h out_cert;
    match x with
    | (None, h) => Ok (mk_ending 1 [] [], h)
    | (Some t, h) =>
      do x <- encode_array h out_key;
      match x with
      | (None, h) => Ok (mk_ending 1 (t ++ [10]) [], h)
      | (Some t', h) => done h (t ++ [10] ++ t' ++ [10]) []
      end
    end
  | _ =>
    do d <- array_data h out_cert;
    let (z, fs) := pem_to_file e (e_pem_cert e) [] d (out_name (op_out o) (s2b ".crt")) in
    if (z <? 0)%Z then Ok (mk_ending 1 [] fs, h)
    else
    do d <- array_data h out_key;
    let (z, fs) := pem_to_file e (e_pem_key e) fs d (out_name (op_out o) (s2b ".key")) in
    if (z <? 0)%Z then Ok (mk_ending 1 [] fs, h)
    else done h [] fs
  end.

(** brski.cpp 408-458. The length is a [size_t]: the test at 430-432 never holds. *)
Definition main_vmasa (e : outside) (o : options) (h : heap) (cfg : N) : outcome (ending * heap) :=
  do c <- pledge_fields h cfg;
  let (pinned, h) := local h (Struct [P 0; I 0]) in
  match op_in o with
  | [] => Ok (mk_ending 1 [] [], h)
  | _ =>
    do x <- main_reads (e_junk e) (e_stdin e);
    match x with
    | None => Ok (mk_ending 1 [] [], h)
    | Some (buf, sz) =>
      do src <- take_mem buf sz;
      do r <- h_base64str2array h src;
      let '(rc, arr, h) := r in
      let (path, h) := local h (Buf (op_in o ++ [0])) in
      do x <- h_file_to_cert (e_world e) h path;
      let (tls, h) := x in
      if tls =? 0 then Ok (mk_ending 1 [] [], h)
      else
      do x <- verify_masa_pledge_request (e_ossl e) (e_world e) c h rc arr tls pinned;
      let (z, h) := x in
      if (z <? 0)%Z then Ok (mk_ending 1 [] [], h)
      else
      do x <- output_domain_cert e h pinned (op_out o);
      let '(z, text, fs, h) := x in
      if (z <? 0)%Z then Ok (mk_ending 1 text fs, h)
      else
      do h <- h_free_binary_array h tls;
      do h <- h_free_binary_array_content h (pinned, 0%nat);
      Ok (mk_ending 0 text fs, h)
    end
  end.

(** brski.cpp 459-503. The lists and objects are given by their items; there is
    memory for them. *)
Definition main_serial (e : outside) (o : options) : outcome ending :=
  match op_in o with
  | [] => Ok (mk_ending 1 [] [])
  | _ =>
    match w_cert (e_world e) (op_in o) with
    | None => Ok (mk_ending 1 [] [])
    | Some d =>
      match e_view e d with
      | None => Ok (mk_ending 1 [] [])
      | Some v =>
        do m <- crypto_getcert_meta (Some v);
        match m with
        | None => Ok (mk_ending 1 [] [])
        | Some (_, subject) =>
          match crypto_getcert_serial subject with
          | None => Ok (mk_ending 1 [] [])
          | Some s => Ok (mk_ending 0 s [])
          end
        end
      end
    end
  end.

(** brski.cpp 505-521. *)
Definition main_start (z : Z) : ending := if (z <? 0)%Z then mk_ending 1 [] [] else mk_ending 0 [] [].

(** brski.cpp 264-525 [main]; the configuration is released by its destructor on
    every return. *)
Definition leave (cfg : N) (x : ending * heap) : outcome (ending * heap) :=
  let (r, h) := x in do h <- free_config_content h cfg; Ok (r, h).
Definition run_command (e : outside) (o : options) (cmd : command) (h : heap) (cfg : N) : outcome (ending * heap) :=
  let port := if op_port o =? 0 then e_port e (op_config o) else op_port o in
  match cmd with
  | CExportPvr => main_epvr e o h cfg
  | CPledgeRequest => main_preq e o port h cfg
  | CSignCert => main_sign e o port h cfg
  | CVerifyMasa => main_vmasa e o h cfg
  | CGetSerial => do x <- main_serial e o; Ok (x, h)
  | CRegistrar => do a <- cfg_string h cfg 11; Ok (main_start (e_registrar e a port), h)
  | CMasa => Ok (main_start (e_masa e), h)
  end.
Definition main (e : outside) (name : bytes) (args : list bytes) (h : heap) : outcome (ending * heap) :=
  match process_options args with
  | inr l => do s <- leave_early name l; Ok (mk_ending s [] [], h)
  | inl (o, cmd) =>
    let (cfg, h) := local h (Struct (repeat (P 0) cfg_fields)) in
    do x <- match cmd with
            | CGetSerial => Ok (0%Z, h)
            | _ => match e_ini e (op_config o) with None => Ok ((-1)%Z, h) | Some m => load_brski_config true m h cfg end
            end;
    let (z, h) := x : Z * heap in
    if (z <? 0)%Z then leave cfg (mk_ending 1 [] [], h)
    else
    do x <- match cmd with
            | CPledgeRequest | CSignCert | CRegistrar => override_address h cfg (op_address o)
            | _ => Ok (true, h)
            end;
    let (ok, h) := x : bool * heap in
    if negb ok then leave cfg (mk_ending 1 [] [], h)
    else do x <- run_command e o cmd h cfg; leave cfg x
  end.
