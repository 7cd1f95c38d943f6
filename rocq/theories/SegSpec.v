(** * Specification of C32 and C33. *)
From Verif Require Import Base TlvSpec NameModel NameSpec WireModel SegModel.

(** The component is a segment number: marker 0 and the number in big-endian bytes. *)
Definition is_segment (c : comp) (k : Z) : Prop := c_type c = 8 /\ exists v, c_value c = 0 :: v /\ be_value v = k.
Definition segment_of (d : data) (k : Z) : Prop := exists p c, d_name d = p ++ [c] /\ is_segment c k.
(** The FinalBlockId names the segment. *)
Definition final_of (d : data) (k : Z) : Prop := exists v, c_value (mi_final (d_meta d)) = 0 :: v /\ be_value v = k.

(** The calls of onComplete and onError. *)
Definition is_terminal (e : event) : bool := match e with LComplete _ | LError _ => true | _ => false end.
Definition is_raise (e : event) : bool := match e with LRaise _ => true | _ => false end.

(** The packet came as the answer to the interest awaited then and was verified. *)
Definition accepted (kc : bool) (base : interest) (os : list op) (d : data) : Prop :=
  exists os1 i o os2, os = os1 ++ o :: os2 /\
   (if kc then s_wait (run kc (start base) os1) = Some (WVerify i d) /\ o = FVerified /\ (exists v, In (FData d v) os1)
    else s_wait (run kc (start base) os1) = Some (WInterest i) /\ o = FData d (Ok true)).
Definition all_content (ds : list data) (b : bytes) : Prop := exists bs, map d_content ds = map Some bs /\ b = concat bs.
(** No FinalBlockId, or it names another segment. *)
Definition not_final (d : data) (k : Z) : Prop := c_value (mi_final (d_meta d)) = [] \/ exists m, m <> k /\ final_of d m.

(** ** C33 *)
(** The segment an interest asks for: the number in its last component, or 0. *)
Definition asked_for (n : name) (k : Z) : Prop :=
  (exists p c, n = p ++ [c] /\ is_segment c k) \/ ((forall p c j, n = p ++ [c] -> ~ is_segment c j) /\ k = 0).
(** A PSync packet carries 4400 bytes of content at most. *)
Definition segment_size : Z := 4400.
