(** * Specification vocabulary: management, link and encrypted formats as TLV elements *)
From Verif Require Import Base TlvSpec NameModel NameSpec CalModel WireModel WireSpec BlobModel BlobProps CtlModel.

(** UTF-8 bytes of a text (their meaning is property C45). *)
Definition utf8 (s : str) : bytes := match blob_of_str s with Ok (Some b) => b | _ => [] end.

(** ** ControlParameters *)
Definition cp_ok (c : controlParameters) : Prop :=
  match cp_name c with Some n => name_ok n | None => True end /\ u64o (cp_faceId c) /\ text (cp_uri c) /\
  u64o (cp_localControlFeature c) /\ u64o (cp_origin c) /\ u64o (cp_cost c) /\ name_ok (cp_strategy c) /\ float_ok (cp_expiration c).
(** CHILD_INHERIT is the bit 1, CAPTURE the bit 2; the default (1) is not sent. *)
Definition cp_flagbits (c : controlParameters) : option Z :=
  match ro_childInherit (cp_flags c), ro_capture (cp_flags c) with
  | true, false => None | false, false => Some 0 | false, true => Some 2 | true, true => Some 3
  end.
(** The elements that the library does not use but other programs send. *)
Record cp_extra : Type := Extra { x_localUri : option bytes; x_capacity : option bytes; x_count : option bytes;
  x_interval : option bytes; x_threshold : option bytes; x_mtu : option bytes; x_mask : option bytes }.
Definition no_extra : cp_extra := Extra None None None None None None None.
Definition cp_els (c : controlParameters) (x : cp_extra) : list el :=
  opt_el 7 (option_map (fun n => snd (name_el n)) (cp_name c)) ++
  opt_nn 105 (cp_faceId c) ++
  opt_el 114 (match cp_uri c with [] => None | u => Some (utf8 u) end) ++
  opt_el 129 (x_localUri x) ++
  opt_nn 110 (cp_localControlFeature c) ++ opt_nn 111 (cp_origin c) ++ opt_nn 106 (cp_cost c) ++
  opt_el 131 (x_capacity x) ++ opt_el 132 (x_count x) ++ opt_el 135 (x_interval x) ++ opt_el 136 (x_threshold x) ++ opt_el 137 (x_mtu x) ++
  opt_nn 108 (cp_flagbits c) ++
  opt_el 112 (x_mask x) ++
  opt_el 107 (match cp_strategy c with [] => None | s => Some (elems [name_el s]) end) ++
  opt_nn 109 (cp_expiration c).
Definition cp_el (c : controlParameters) (x : cp_extra) : el := (104, elems (cp_els c x)).

(** ** ControlResponse *)
Definition cr_ok (r : controlResponse) : Prop :=
  (exists c, cr_code r = Some c /\ u64 c) /\ text (cr_text r) /\ match cr_body r with Some b => cp_ok b | None => True end.
Definition cr_bytes (r : controlResponse) (x : cp_extra) : bytes :=
  tlv 101 (elems (opt_nn 102 (cr_code r) ++ [(103, utf8 (cr_text r))] ++
                  match cr_body r with Some b => [cp_el b x] | None => [] end)).

(** ** LpPacket *)
(** A header field as it is sent: a recognized one, or an unrecognized one that a
    receiver must ignore. *)
Inductive lpHeader : Type := HField (f : lpField) | HUnknown (t : Z) (v : bytes).
Definition nack_code (n : networkNack) : Z := if nk_reason n =? 32767 then nk_other n else nk_reason n.
Definition nack_ok (n : networkNack) : Prop :=
  (nk_reason n = 0 \/ nk_reason n = 50 \/ nk_reason n = 100 \/ nk_reason n = 150) /\ nk_other n = -1 \/
  nk_reason n = 32767 /\ u64 (nk_other n) /\ nk_other n <> 0 /\ nk_other n <> 50 /\ nk_other n <> 100 /\ nk_other n <> 150.
(** NDNLPv2: ignorable are the types 800..959 whose two low bits are zero. *)
Definition lp_ignorable (t : Z) : Prop := 800 <= t <= 959 /\ t mod 4 = 0.
Definition lp_known (t : Z) : Prop := t = 80 \/ t = 800 \/ t = 817 \/ t = 832.
Definition header_ok (h : lpHeader) : Prop :=
  match h with
  | HField (LpNack n) => nack_ok n
  | HField (LpFaceId v) | HField (LpCongestion v) => u64 v
  | HUnknown t v => lp_ignorable t /\ ~ lp_known t
  end.
Definition header_el (h : lpHeader) : el :=
  match h with
  | HField (LpNack n) => (800, elems [(801, nonneg (nack_code n))])
  | HField (LpFaceId v) => (817, nonneg v)
  | HField (LpCongestion v) => (832, nonneg v)
  | HUnknown t v => (t, v)
  end.
Definition header_field (h : lpHeader) : list lpField := match h with HField f => [f] | HUnknown _ _ => [] end.
Definition lp_bytes (hs : list lpHeader) (fragment : option bytes) : bytes :=
  tlv 100 (elems (map header_el hs ++ opt_el 80 fragment)).

(** ** EncryptedContent *)
Definition blob_opt (o : option bytes) : option bytes := match o with Some (b :: v) => Some (b :: v) | _ => None end.
Definition ec_bytes (e : encryptedContent) : bytes :=
  tlv 130 (elems (kl_el 28 (ec_keyLocator e) :: opt_nn 131 (ec_algorithm e) ++ opt_el 133 (blob_opt (ec_iv e)) ++ [(132, blob_bytes (ec_payload e))])).
Definition kl_name_opt (k : keyLocator) : option name := match kl_type k with Some t => if t =? 1 then Some (kl_name k) else None | None => None end.
Definition ec2_bytes (e : encryptedContent) : bytes :=
  tlv 130 (elems ((132, blob_bytes (ec_payload e)) :: opt_el 133 (blob_opt (ec_iv e)) ++ opt_el 134 (blob_opt (ec_payloadKey e)) ++
                  opt_el 7 (option_map (fun n => snd (name_el n)) (kl_name_opt (ec_keyLocator e))))).
