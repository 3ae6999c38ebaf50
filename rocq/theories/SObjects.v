(** Specification of the ownership of OpenSSL objects. *)
From Verif Require Import Base MOs MCrypto MObjects.
Open Scope nat_scope.

(** No call fails for lack of memory. *)
Definition steady (s : objs) : Prop := forall n, (0 < ob_ret s n)%Z.
(** The store refuses nothing. *)
Definition takes (o : ossl) : Prop := forall acc v, store_add o acc v = true.
(** The signer certificates CMS_verify finds come from the message or the given stack;
    CMS_get0_signers returns as many. *)
Definition in_range {o : ossl} (inn : inner o) (c : CMS o) (st : option (list (X509 o))) (p : pick) : Prop :=
  match p with
  | FromMessage i => i < in_certs inn c
  | FromStack i => match st with Some l => i < List.length l | None => False end
  | _ => False
  end.
Definition coherent {o : ossl} (inn : inner o) : Prop :=
  forall c st, Forall (in_range inn c st) (in_signers inn c st) /\
    forall xs, cms_signers o c st = Some xs -> List.length (in_signers inn c st) = List.length xs.

(** What was there is as it was; of what is new only the buffers in [R] are in use,
    each with one reference. *)
Definition leaves (s s' : objs) (R : list nat) : Prop :=
  (forall x, x < ob_next s -> ob_at s' x = ob_at s x) /\
  (forall x, ob_next s <= x -> ob_at s' x = if existsb (Nat.eqb x) R then Alive KBuf 1 [] else Gone).
(** What was there is as it was. *)
Definition apart (s s' : objs) : Prop := forall x, x < ob_next s -> ob_at s' x = ob_at s x.

(** The results of crypto_verify_cms without the objects, and their objects. *)
Definition ol (p : option nat) : list nat := match p with None => [] | Some x => [x] end.
Definition strip (r : option (option (bytes * nat) * option (certlist * nat))) : option (option bytes * option certlist) :=
  option_map (fun '(d, l) => (option_map fst d, option_map fst l)) r.
Definition ids_of (r : option (option (bytes * nat) * option (certlist * nat))) : list nat :=
  match r with Some (d, l) => ol (option_map snd d) ++ ol (option_map snd l) | None => [] end.

(** The message reaches the extraction of the certificates and has signers. *)
Definition reaches (o : ossl) (cms : bytes) (certs store : option certlist) : Prop :=
  exists c st tr text x xs, d2i_cms o cms = Some c /\ opt_stack o certs = Some st /\ opt_store o store = Some tr /\
    cms_verify o c st tr (match tr with None => true | Some _ => false end) = Some text /\ cms_signers o c st = Some (x :: xs).

(** What crypto_generate_rsakey leaves: the array with its buffer, or nothing. *)
Definition leaves_key (s s' : objs) (r : option nat) : Prop :=
  match r with
  | None => leaves s s' []
  | Some x => apart s s' /\ exists b, ob_next s <= x /\ ob_next s <= b /\ x <> b /\ ob_at s' x = Alive KList 1 [b] /\ ob_at s' b = Alive KBuf 1 [] /\
      forall y, ob_next s <= y -> y <> x -> y <> b -> ob_at s' y = Gone
  end.
(** What the call number [i] from now on returns. *)
Definition ret (s : objs) (i : nat) : Z := ob_ret s (ob_next s + i).

(** The elements of the first list are among those of the second, in their order. *)
Inductive sub {A} : list A -> list A -> Prop :=
| sub_nil : sub [] []
| sub_take : forall x l m, sub l m -> sub (x :: l) (x :: m)
| sub_skip : forall x l m, sub l m -> sub l (x :: m).
Definition opt_sub {A} (l m : option (list A)) : Prop :=
  match l, m with
  | None, None => True
  | Some l, Some m => sub l m
  | _, _ => False
  end.
(** What OpenSSL accepts with fewer untrusted certificates it accepts with more. *)
Definition monotone (o : ossl) : Prop :=
  (forall c l m t skip text, opt_sub l m -> cms_verify o c l t skip = Some text -> cms_verify o c m t skip = Some text) /\
  (forall x l m t y ys, sub l m -> build_chain o x l t = Some (y :: ys) -> exists z zs, build_chain o x m t = Some (z :: zs)).
(** A message that CMS_verify accepts has a signer. *)
Definition signers_found (o : ossl) : Prop :=
  forall c l t skip text, cms_verify o c l t skip = Some text -> exists x xs, cms_signers o c l = Some (x :: xs).

(** An array without a buffer is left and nothing else. *)
Definition leaves_empty (s s' : objs) (x : nat) : Prop :=
  apart s s' /\ ob_next s <= x /\ ob_at s' x = Alive KList 1 [] /\ forall y, ob_next s <= y -> y <> x -> ob_at s' y = Gone.

(** The meta data can be set: not both end dates. *)
Definition one_end (m : shape) : bool := negb (sh_absolute m && sh_after m).
