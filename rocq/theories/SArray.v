(** Specification vocabulary for the lists of array.c and keyvalue.c. *)
From Verif Require Import Base MHeap MArray SHeap.
Open Scope N_scope.
Open Scope ub_scope.

(** The bytes of the buffer at an address, and the C string they start with. *)
Definition content (h : heap) (a : N) : bytes :=
  match hp_cell h a with Live (Buf d) => d | _ => [] end.
Fixpoint c_string (d : bytes) : bytes :=
  match d with [] => [] | c :: r => if c =? 0 then [] else c :: c_string r end.

(** A history: the same call with different arguments, results collected. *)
Fixpoint calls {A} (f : heap -> A -> outcome (Z * heap)) (h : heap) (l : list A) : outcome (list Z * heap) :=
  match l with
  | [] => Ok ([], h)
  | x :: r =>
    do y <- f h x;
    do z <- calls f (snd y) r;
    Ok (fst y :: fst z, snd z)
  end.

(** What the calls that returned 0 were given. *)
Fixpoint accepted {A B} (f : A -> B) (l : list A) (rcs : list Z) : list B :=
  match l, rcs with
  | x :: l, r :: rcs => if (r =? 0)%Z then f x :: accepted f l rcs else accepted f l rcs
  | _, _ => []
  end.

(** [h'] is [h] with anything at all done to the memory below [n]. *)
Definition same_above (n : N) (h h' : heap) : Prop :=
  hp_next h' = hp_next h /\ forall a, n <= a -> hp_cell h' a = hp_cell h a.

(** The array list [H] in the heap [h] was created in [h0] and then pushed to
    with the arguments [l] (pointer, length, flags), where the pointers are
    NULL or existed before the list; [rcs] are the results. *)
Definition built_array (h0 : heap) (l : list (N * N * Z)) (rcs : list Z) (H : N) (h : heap) : Prop :=
  heap_wf h0 /\ Forall (fun x => let '(arr, _, _) := x in arr < hp_next h0) l /\
  exists h1, init_array_list h0 = Ok (H, h1) /\ H <> 0 /\
    calls (fun h x => let '(arr, n, fl) := x in push_array_list h H arr n fl) h1 l = Ok (rcs, h).

(** The same for key/value lists; the arguments are the two strings. *)
Definition built_keyvalue (h0 : heap) (l : list (N * N)) (rcs : list Z) (H : N) (h : heap) : Prop :=
  heap_wf h0 /\ Forall (fun x => fst x < hp_next h0 /\ snd x < hp_next h0) l /\
  exists h1, init_keyvalue_list h0 = Ok (H, h1) /\ H <> 0 /\
    calls (fun h x => push_keyvalue_list h H (fst x) (snd x)) h1 l = Ok (rcs, h).

(** Contents of the arguments at the time the list was created. *)
Definition array_arg (h0 : heap) (x : N * N * Z) : bytes * Z :=
  let '(arr, n, fl) := x in (firstn (N.to_nat n) (content h0 arr), fl).
Definition keyvalue_arg (h0 : heap) (x : N * N) : bytes * bytes :=
  (c_string (content h0 (fst x)), c_string (content h0 (snd x))).

(** A pointer to [n] readable bytes, a pointer to a C string. *)
Definition readable (h : heap) (a n : N) : Prop := exists d, hp_cell h a = Live (Buf d) /\ n <= blen d.
Definition is_string (h : heap) (a : N) : Prop :=
  exists d, hp_cell h a = Live (Buf d) /\ In 0 d /\ blen (c_string d) < SIZE_MAX.
