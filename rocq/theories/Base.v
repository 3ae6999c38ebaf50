(** Shared vocabulary: bytes, C strings, outcomes with undefined behaviour. *)
From Coq Require Export List NArith ZArith Lia Bool Ascii String.
From Coq Require Import ZifyBool ZifyNat ZifyN.
Export ListNotations.
Close Scope string_scope.
Open Scope list_scope.

(** A byte is an [N] below 256; a buffer or a C string (without its NUL) is a
    list of bytes. *)
Definition bytes := list N.
Definition bytes_ok (l : bytes) : Prop := Forall (fun b => (b < 256)%N) l.

(** A C string as a byte list: every byte is a non-zero byte. *)
Definition cstr_ok (l : bytes) : Prop :=
  Forall (fun b => (0 < b)%N /\ (b < 256)%N) l.

(** String literals as byte lists. *)
Definition s2b (s : string) : bytes :=
  map N_of_ascii (list_ascii_of_string s).

(** Kinds of undefined behaviour that the model distinguishes. *)
Inductive ubkind :=
| OOBWrite        (* write outside an object *)
| OOBRead         (* read outside an object *)
| NullDeref       (* access through a NULL pointer *)
| UseAfterFree    (* access to a released block *)
| DoubleFree      (* release of an already released block *)
| BadFree         (* release of something that is not a block *)
| BadVararg       (* variable argument read with another type than passed *)
| NoEnd.          (* a loop that never ends *)

Inductive outcome (A : Type) :=
| Ok (a : A)
| UB (k : ubkind).
Arguments Ok {A} a.
Arguments UB {A} k.

Definition obind {A B} (m : outcome A) (f : A -> outcome B) : outcome B :=
  match m with Ok a => f a | UB k => UB k end.

Declare Scope ub_scope.
Delimit Scope ub_scope with ub.
Notation "'do' x <- m ; f" := (obind m (fun x => f))
  (at level 200, x pattern, m at level 100, f at level 200) : ub_scope.

(** Byte-list equality, used where the C code uses memcmp/strcmp == 0. *)
Fixpoint beqb (a b : bytes) : bool :=
  match a, b with
  | [], [] => true
  | x :: a', y :: b' => (x =? y)%N && beqb a' b'
  | _, _ => false
  end.

(** Length as [N]. *)
Definition blen (l : bytes) : N := N.of_nat (List.length l).

(** 64-bit [size_t] arithmetic. *)
Definition size_mod : N := 18446744073709551616%N.   (* 2^64 *)
Definition SIZE_MAX : N := 18446744073709551615%N.
Definition szadd (a b : N) : N := ((a + b) mod size_mod)%N.
Definition szmul (a b : N) : N := ((a * b) mod size_mod)%N.
