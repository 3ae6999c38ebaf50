(** Specification vocabulary for the memory owned by a voucher. *)
From Verif Require Import Base MVoucher MHeap MVoucherHeap SJson SHeap SArray.
Open Scope N_scope.
Open Scope ub_scope.

(** What a user can do with the owning attributes of a voucher: set an array
    attribute from a struct of their own (block and field), set the serial
    number from a string of their own, clear an attribute, set an array
    attribute [a] to what the getter gives for [b] of the same voucher, set the
    serial number to what the getter gives for it. *)
Inductive vop :=
| SetArray (a : attr) (s : N) (so : nat)
| SetString (a : attr) (value : N)
| ClearAttr (a : attr)
| CopyOwn (a b : attr)
| OwnSerial.

Definition do_op (v : N) (h : heap) (op : vop) : outcome (Z * heap) :=
  match op with
  | SetArray a s so => h_set_attr_array h v a (s, so)
  | SetString a value => h_set_attr_str h v a value
  | ClearAttr a => h_clear_attr h v a
  | CopyOwn a b => h_set_attr_array h v a (match arr_field b with Some j => (v, j) | None => (0, 0%nat) end)
  | OwnSerial => do p <- get_ptr h v 0; h_set_attr_str h v ASerial p
  end.

(** The caller's arguments: NULL, an empty array, or memory the caller owns and
    that is as large as they say. *)
Definition array_ok (h : heap) (s : N) (so : nat) : Prop :=
  s = 0 \/ exists fs p n, hp_cell h s = Live (Struct fs) /\ s <> 0 /\ nth_error fs so = Some (P p) /\
    nth_error fs (so + 1) = Some (I (Z.of_N n)) /\ ((p = 0 /\ n = 0) \/ (p <> 0 /\ readable h p n)).
Definition op_ok (h : heap) (op : vop) : Prop :=
  match op with
  | SetArray _ s so => array_ok h s so
  | SetString _ value => value = 0 \/ exists d, hp_cell h value = Live (Buf d) /\ In 0 d
  | _ => True
  end.

(** Their contents. *)
Definition array_of (h : heap) (s : N) (so : nat) : option bytes :=
  if s =? 0 then None
  else match hp_cell h s with
       | Live (Struct fs) =>
         match nth_error fs so, nth_error fs (so + 1) with
         | Some (P p), Some (I n) => if p =? 0 then None else Some (firstn (Z.to_nat n) (content h p))
         | _, _ => None
         end
       | _ => None
       end.
Definition string_of (h : heap) (value : N) : option bytes :=
  if value =? 0 then None else Some (c_string (content h value)).

Definition is_array (a : attr) : bool := match arr_field a with Some _ => true | None => false end.
Definition attr_dec : forall a b : attr, {a = b} + {a <> b}.
Proof. decide equality. apply Z.eq_dec. Defined.

(** The owning attributes as a user sees them: unset or a value. *)
Definition attrs := attr -> option bytes.
Definition unset : attrs := fun _ => None.
Definition upd (f : attrs) (a : attr) (x : option bytes) : attrs := fun b => if attr_dec a b then x else f b.
Definition held (x : option bytes) : nat := match x with None => 0 | Some _ => 1 end.

(** What each operation gives and does when memory does not run out; [h0] is
    the memory of the caller. *)
Definition setting (h0 : heap) (f : attrs) (op : vop) : option (attr * bytes) :=
  match op with
  | SetArray a s so => if is_array a then option_map (pair a) (array_of h0 s so) else None
  | SetString ASerial value =>
    match string_of h0 value with Some t => if blen t <? 128 then Some (ASerial, t) else None | None => None end
  | SetString _ _ => None
  | ClearAttr _ => None
  | CopyOwn a b =>
    if is_array a && is_array b then
      match f b with
      | Some d => Some (a, if attr_dec a b then [] else d)
      | None => None
      end
    else None
  | OwnSerial => option_map (pair ASerial) (f ASerial)
  end.
Definition result (h0 : heap) (f : attrs) (op : vop) : Z :=
  match op with ClearAttr _ => 0%Z | _ => match setting h0 f op with Some _ => 0%Z | None => (-1)%Z end end.
Definition after (h0 : heap) (f : attrs) (op : vop) : attrs :=
  match op with
  | ClearAttr a => upd f a None
  | _ => match setting h0 f op with Some (a, d) => upd f a (Some d) | None => f end
  end.
(** The attribute an operation is about. *)
Definition target (op : vop) : attr :=
  match op with SetArray a _ _ | SetString a _ | ClearAttr a | CopyOwn a _ => a | OwnSerial => ASerial end.
(** An operation that sets an attribute which already has a value. *)
Definition overwrites (h0 : heap) (f : attrs) (op : vop) : nat :=
  match setting h0 f op with Some (a, _) => held (f a) | None => 0 end.

Fixpoint results (h0 : heap) (f : attrs) (ops : list vop) : list Z :=
  match ops with [] => [] | op :: r => result h0 f op :: results h0 (after h0 f op) r end.
Definition final (h0 : heap) (ops : list vop) : attrs := fold_left (after h0) ops unset.
Fixpoint overwritten (h0 : heap) (f : attrs) (ops : list vop) : nat :=
  match ops with [] => 0 | op :: r => overwrites h0 f op + overwritten h0 (after h0 f op) r end.

(** [h2] is the heap after creating the voucher [v] in [h0] and performing
    [ops] on it. *)
Definition voucher_life (h0 : heap) (ops : list vop) (rcs : list Z) (v : N) (h2 : heap) : Prop :=
  exists h1, h_init_voucher h0 = (v, h1) /\ v <> 0 /\ calls (do_op v) h1 ops = Ok (rcs, h2).

(** [n] occurs twice in [J], without overlap. *)
Definition repeated (n J : bytes) : Prop := exists A B C, J = A ++ n ++ B ++ n ++ C.
(** The attributes whose values a voucher owns. *)
Definition owning (a : attr) : Prop := is_array a = true \/ a = ASerial.
(** A voucher object of flat members with different names. *)
Definition distinct_members (J : bytes) : Prop :=
  exists w key ms, layout_ok w /\ Forall plain_char key /\ Forall member_ok ms /\ J = document w key ms /\ NoDup (map m_key ms).
(** No member that is held in memory is given twice: its name does not occur twice
    in the text at all, or the text is such an object (in which a value may well
    contain the name of a member). *)
Definition single (J : bytes) : Prop := (forall a, owning a -> ~ repeated (attr_name a) J) \/ distinct_members J.
