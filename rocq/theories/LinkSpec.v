(** * Specification of Link *)
From Verif Require Import Base NameModel TlvSpec WireModel WireSpec DelegModel LinkModel.

(** Whoever decodes the content of the packet gets the delegations of the object; a packet without content has none. *)
Definition carries (l : link) : Prop :=
  mi_type (d_meta (l_data l)) = 1 /\
  match d_content (l_data l) with Some c => decodeDelegationSet c = Ok (l_ds l) | None => l_ds l = [] end.
(** The calls on the delegations *)
Definition ds_ops (h : list lop) : list ds_op :=
  flat_map (fun o => match o with LAdd p n => [DsAdd p n] | LRemove n => [DsRemove n] | _ => [] end) h.
(** Values that NDN-TLV can carry *)
Definition lop_ok (o : lop) : Prop :=
  match o with
  | LAdd p n => 0 <= p < 2 ^ 64 /\ name_ok n
  | LRemove n | LSetName n => name_ok n
  | LSetSignature s => sig_ok s
  | LSetFreshness f => float_ok f
  end.
(** The value that was set last *)
Definition last_set {A} (f : lop -> option A) (a : A) (h : list lop) : A := fold_left (fun a o => match f o with Some b => b | None => a end) h a.
Definition last_name (n : name) (h : list lop) : name := last_set (fun o => match o with LSetName n => Some n | _ => None end) n h.
Definition last_signature (s : signature) (h : list lop) : signature := last_set (fun o => match o with LSetSignature s => Some s | _ => None end) s h.
Definition last_freshness (x : option Z) (h : list lop) : option Z := last_set (fun o => match o with LSetFreshness f => Some f | _ => None end) x h.
(** the bytes of the delegations *)
Definition ds_size (ds : list delegation) : Z := zlen (elems (map deleg_el ds)).
