(** * Specification of EncryptorV2 *)
From Verif Require Import Base TlvSpec NameModel NameSpec DictModel WireModel CtlModel ChainSpec NacModel EncModel.

(** The CKs that were generated, with their times; the last is the one that encrypt uses *)
Fixpoint regens (l : list eevent) : list (Z * bytes) :=
  match l with [] => [] | VRegen now b _ _ _ :: l' => (now, b) :: regens l' | _ :: l' => regens l' end.
Definition current (l : list eevent) : option (Z * bytes) := match rev (regens l) with [] => None | x :: _ => Some x end.
Definition v_ids (o : eevent) : list Z := match o with VRegen _ _ (Some i) _ _ | VTimeout _ (Some i) | VLater _ (Some i) => [i] | _ => [] end.
Definition v_signs (o : eevent) : list (data -> res data) := match o with VRegen _ _ _ _ g | VData _ _ _ g => [g] | _ => [] end.
(** expressInterest returns positive ids, the clock fits in 64 bits, and signing only changes the
    signature (which C75_sign proves of KeyChain.sign). *)
Definition keeps (g : data -> res data) : Prop := forall d d', g d = Ok d' -> exists sg, d' = with_sig d sg.
Definition eproper (l : list eevent) : Prop :=
  Forall (fun o => Forall (fun i => 0 < i) (v_ids o) /\ Forall keeps (v_signs o)) l /\ Forall (fun x => 0 <= fst x < 2 ^ 64) (regens l).
(** The name of the CK that was generated at [now] *)
Definition ck_of_time (ckPrefix : name) (now : Z) : name := ckPrefix ++ [N_CK; c_generic (253 :: nonneg now)].
(** The Data [d] carries the bits of a CK, encrypted with the KEK [kek]. *)
Definition ck_data (penc : Z -> bytes -> bytes -> res bytes) (k : name) (bits : bytes) (kek d : data) : Prop :=
  d_name d = k ++ [N_ENCRYPTED_BY] ++ d_name kek /\
  exists pub r c, d_content kek = Some pub /\ penc r pub bits = Ok c /\ d_content d = Some (encodeEncryptedContentV2 (EC None kl_empty None (Some c) None)).
Definition kek_in (l : list eevent) (kek : data) : Prop := exists id r g, In (VData id kek r g) l.
(** Interests for the KEK *)
Fixpoint e_sends (l : list eout) : list name := match l with [] => [] | OSend _ n :: l' => n :: e_sends l' | _ :: l' => e_sends l' end.
(** How often a fetch may start: regenerateCk, and the delayed calls *)
Fixpoint starts (l : list eevent) : Z := match l with [] => 0 | VRegen _ _ _ _ _ :: l' | VLater _ _ :: l' => 1 + starts l' | _ :: l' => starts l' end.
Definition no_shutdown (l : list eevent) : Prop := ~ In VShutdown l.
(** expressInterest did not raise. *)
Definition no_raise (l : list eevent) : Prop := Forall (fun o => match o with VRegen _ _ None _ _ | VTimeout _ None | VLater _ None => False | _ => True end) l.
