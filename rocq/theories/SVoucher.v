(** Specification vocabulary for vouchers. *)
From Verif Require Import Base SBase64 MSerialize MVoucher.
Open Scope N_scope.

(** Everything a user can observe of one attribute: the answers of the five
    getters and of the emptiness test. *)
Definition observe (v : voucher) (a : attr) :=
  (get_attr_bool (Some v) a, get_attr_time (Some v) a, get_attr_enum (Some v) a,
   get_attr_str (Some v) a, get_attr_array (Some v) a, is_attr_nonempty v a).

(** [b] describes exactly the bytes [d]. *)
Definition ba_is (b : barray) (d : bytes) : Prop := ba_data b = Some d /\ ba_len b = blen d.

(** A well-formed binary array: NULL and 0, or a block of its length. *)
Definition ba_wf (b : barray) : Prop :=
  (ba_data b = None /\ ba_len b = 0) \/ (exists d, ba_is b d).

Definition voucher_wf (v : voucher) : Prop :=
  (0 <= v_assertion v <= 3)%Z /\
  (forall s, v_serial v = Some s -> blen s < 128 /\ ~ In 0 s) /\
  (forall a b, get_attr_array (Some v) a = Some b -> ba_wf b).

(** What the getter of the right kind must answer after setting [x]. *)
Definition reads_back (v : voucher) (a : attr) (x : avalue) : Prop :=
  match x with
  | VTime t => exists t', t = Some t' /\ get_attr_time (Some v) a = Some t'
  | VInt z =>
    (a = AAssertion /\ get_attr_enum (Some v) a = Some z) \/
    (a = ARevocation /\ get_attr_bool (Some v) a = Some (negb (z =? 0)%Z))
  | VStr s => exists mem, s = Some mem /\ get_attr_str (Some v) a = Some (Some (upto_nul mem))
  | VArr b => exists b' mem d rest, b = Some b' /\ ba_data b' = Some mem /\ mem = d ++ rest /\
       blen d = ba_len b' /\ get_attr_array (Some v) a = Some (mk_ba (Some d) (blen d))
  end.

(** A time value that counts as present. *)
Definition value_present (x : avalue) : Prop :=
  match x with
  | VTime (Some t) =>
    (tm_year t <> 0 \/ tm_mon t <> 0 \/ tm_mday t <> 0 \/ tm_hour t <> 0 \/ tm_min t <> 0 \/ tm_sec t <> 0)%Z
  | _ => True
  end.

(** The kind of value an attribute takes. *)
Inductive akind := KTime | KEnum | KStr | KArr | KBool | KNone.
Definition kind (a : attr) : akind :=
  match a with
  | ACreatedOn | AExpiresOn | ALastRenewal => KTime
  | AAssertion => KEnum
  | ASerial => KStr
  | ARevocation => KBool
  | ABad _ => KNone
  | _ => KArr
  end.

(** Operations of the attribute API on one voucher. *)
Inductive vop :=
| OpSet (mok : bool) (a : attr) (x : avalue)
| OpBool (a : attr) (b : bool)
| OpTime (a : attr) (t : option tm)
| OpEnum (a : attr) (z : Z)
| OpStr (mok : bool) (a : attr) (s : option bytes)
| OpArr (mok : bool) (a : attr) (b : option barray)
| OpBase64 (mok : bool) (a : attr) (mem : bytes) (len : N)
| OpClear (a : attr).

Definition run_op (v : option voucher) (o : vop) : outcome (Z * option voucher) :=
  match o with
  | OpSet mok a x => set_attr mok v a x
  | OpBool a b => set_attr_bool v a b
  | OpTime a t => set_attr_time v a t
  | OpEnum a z => set_attr_enum v a z
  | OpStr mok a s => set_attr_str mok v a s
  | OpArr mok a b => set_attr_array mok v a b
  | OpBase64 mok a mem len => set_attr_base64 mok v a mem len
  | OpClear a => Ok (clear_attr v a)
  end.

Definition op_attr (o : vop) : attr :=
  match o with
  | OpSet _ a _ | OpBool a _ | OpTime a _ | OpEnum a _ | OpStr _ a _ | OpArr _ a _
  | OpBase64 _ a _ _ | OpClear a => a
  end.

Fixpoint run_ops (v : option voucher) (ops : list vop) : outcome (option voucher) :=
  match ops with
  | [] => Ok v
  | o :: rest => obind (run_op v o) (fun r => run_ops (snd r) rest)
  end.

(** Calls that must be refused: wrong kind of attribute, or a value that is
    not valid for it. Readable memory is assumed for the text given. *)
Definition must_reject (o : vop) : Prop :=
  match o with
  | OpSet _ (ABad _) _ => True
  | OpSet _ AAssertion (VInt z) => ~ (1 <= z <= 3)%Z
  | OpSet _ ASerial (VStr s) => s = None \/ exists t rest, s = Some (t ++ 0 :: rest) /\ ~ In 0 t /\ 128 <= blen t
  | OpSet _ _ _ => False
  | OpBool a _ => kind a <> KBool
  | OpTime a _ => kind a <> KTime
  | OpEnum a z => kind a <> KEnum \/ ~ (1 <= z <= 3)%Z
  | OpStr _ a s => kind a <> KStr \/ s = None \/
      exists t rest, s = Some (t ++ 0 :: rest) /\ ~ In 0 t /\ 128 <= blen t
  | OpArr _ a b => (kind a <> KArr) \/ b = None \/ b = Some (mk_ba None 0)
  | OpBase64 _ a mem len => exists t rest, mem = t ++ rest /\ len = blen t /\ bytes_ok t /\
      (kind a <> KArr \/ rfc_decode t = None)
  | OpClear _ => False
  end.

(** The value an attribute has when it is not set. *)
Definition attr_blank (v : voucher) (a : attr) : Prop :=
  observe v a = observe init_voucher a.

(** The text given to the base64 setter consists of bytes. *)
Definition op_mem_ok (o : vop) : Prop :=
  match o with OpBase64 _ _ mem _ => bytes_ok mem | _ => True end.
