(** What a JSON document of any shape says as a voucher, from its values and keys
    in order and without any position in the text. *)
From Verif Require Import Base MJsmn MVoucher SVoucher SJson SJsonTree.
Open Scope N_scope.

(** The pieces behind the first one whose text begins the root name. *)
Fixpoint behind_root (ps : list (toktype * Z * bytes)) : option (list (toktype * Z * bytes)) :=
  match ps with
  | [] => None
  | (_, _, x) :: r => if beqb x (firstn (List.length x) root_name) then Some r else behind_root r
  end.
(** The texts of the next [n] pairs of pieces. *)
Fixpoint next_pairs (n : nat) (ps : list (toktype * Z * bytes)) : option (list (bytes * bytes)) :=
  match n with
  | O => Some []
  | S n =>
    match ps with
    | (_, _, k) :: (_, _, x) :: r => match next_pairs n r with Some l => Some ((k, x) :: l) | None => None end
    | _ => None
    end
  end.
Definition voucher_pairs (v : json) : option (list (bytes * bytes)) :=
  match pieces v with
  | (TObject, _, _) :: ps =>
    match behind_root ps with
    | Some ((TObject, n, _) :: r) => next_pairs (Z.to_nat n) r
    | _ => None
    end
  | _ => None
  end.

(** The pairs name known attributes with valid texts, with these values. *)
Definition pairs_mean (l : list (bytes * bytes)) (kvs : list (attr * pval)) : Prop :=
  Forall2 (fun kx kv => fst kx = attr_name (fst kv) /\ In (fst kv) all_attrs /\ value_ok (fst kv) (snd kx) (snd kv)) l kvs.

(** The members of an object without objects or lists among the values. *)
Fixpoint leaf_members (l : members) : option (list (bytes * bytes)) :=
  match l with
  | MNone => Some []
  | MMore _ key _ _ v _ l =>
    match v, leaf_members l with
    | JText s, Some r | JWord s, Some r => Some ((key, s) :: r)
    | _, _ => None
    end
  end.
