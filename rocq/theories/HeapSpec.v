(** * Specification of the cached encodings, in terms of calls and values. *)
From Verif Require Import Base TlvModel NameModel WireModel HeapModel.

Section Formats.
Variable encD : Z -> data -> res wire.
Variable decD : Z -> data -> bytes -> res (data * (Z * Z)).
Variable partD : Z -> data -> bytes -> option data.
Variable encI : Z -> list Z -> interest -> res wire.
Variable decI : Z -> interest -> bytes -> res (interest * (Z * Z)).
Variable partI : Z -> interest -> bytes -> option (interest * bool).
Variable sha256 : bytes -> bytes.

(** The bytes [w] of format [f] describe these field values: the encoder makes them from the
    values (whatever the random bytes of the nonce), or the decoder read the values from
    them (with some previous contents of the object). *)
Definition describesD (f : Z) (d : data) (w : wire) : Prop := encD f d = Ok w \/ exists d0, decD f d0 (fst w) = Ok (d, snd w).
Definition describesI (f : Z) (v : interest) (w : wire) : Prop := (exists rnd, encI f rnd v = Ok w) \/ exists v0, decI f v0 (fst w) = Ok (v, snd w).

Definition is_data (h : heap) (i : nat) : Prop := class_at h i = Some CData.
Definition is_int (h : heap) (i : nat) : Prop := class_at h i = Some CInt.
(** The field values of an Interest, with the nonce that getNonce returns. *)
Definition nonce_now (h : heap) (i : nat) : option bytes := snd (int_getNonce h i).
Definition int_now (h : heap) (i : nat) : interest := int_value h i (nonce_now h i).

(** The Name of the Interest and the Name of its key locator are different objects. *)
Definition unshared (h : heap) (i : nat) : Prop := forall kl n kn, kid h i 1 = Some kl -> kid h i 0 = Some n -> kid h kl 0 = Some kn -> n <> kn.

(** A call that goes through the API's setters: all but the two changes which no change
    counter sees; and an Interest that is decoded into does not share its Name object with
    its key locator. *)
Definition seen_call (s : state) (o : op) : Prop :=
  match o with
  | DelegationTouch _ _ | LinkTouch _ _ => False
  | IDecode i _ _ => unshared (s_heap s) i
  | _ => True
  end.
Notation step_op := (exec encD decD partD encI decI partI sha256).
Notation run_ops := (run encD decD partD encI decI partI sha256).
Fixpoint seen_history (s : state) (os : list op) : Prop :=
  match os with [] => True | o :: os' => seen_call s o /\ seen_history (fst (step_op s o)) os' end.
End Formats.

(** ** Which calls change which object *)
(** [sets o k]: [o] is a call of a setter of object [k]. *)
Definition sets (o : op) (k : nat) : Prop :=
  match o with
  | SetName i _ | SetMeta i _ | SetVal i _ | SetExcl i _ | SetDel i _ | KlSet i _ _ | KlSetName i _ | KlClear i
  | SigSetBits i _ | SigSetKl i _ | SigSetVal i _ | GenSet i _ _ | DSetName i _ | DSetMeta i _ | DSetSig i _ | DSetContent i _
  | ISetName i _ | ISetKl i _ | ISetExcl i _ | ISetDel i _ | ISet i _ => i = k
  | _ => False
  end.
(** Getters, encoders, constructors and copies. *)
Definition only_reads (o : op) : Prop :=
  match o with
  | NewName _ | NewMeta _ | NewVal _ | NewKl _ | NewSig _ | NewData _ | NewInt _ | IGetNonce _ | GetChangeCount _
  | DEncode _ _ | DFullName _ _ | DCopy _ | IEncode _ _ _ | ICopy _ | SetDefaultFormat _ => True
  | _ => False
  end.
(** [k] is [i] or a sub-object of [i], at any depth. *)
Inductive below (h : heap) : nat -> nat -> Prop :=
| below_refl i : below h i i
| below_kid i j k p : kid h i p = Some j -> below h j k -> below h i k.
Definition is_ok {A} (r : res A) : bool := match r with Ok _ => true | Err _ => false end.
(** A call that does not give Interest [i] a nonce. *)
Definition not_nonce_call (i : nat) (o : op) : Prop :=
  match o with ISetNonce j _ | IRefreshNonce j _ | IDecode j _ _ => j <> i | _ => True end.
