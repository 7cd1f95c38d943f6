(** * Specification: packets on a byte stream, and what arrives. *)
From Verif Require Import Base TlvSpec NameModel NameSpec CalModel WireModel WireSpec BlobModel CtlModel CtlSpec BagModel RecvModel.

(** A packet of the application. *)
Inductive packet : Type := PInterest (i : interest) | PData (d : data).
(** It can be represented. An Interest with parameters is only recognized by the receiver if it
    has CanBePrefix, MustBeFresh or a forwarding hint (see C17). *)
Definition packet_ok (p : packet) : Prop :=
  match p with
  | PInterest i => interest_ok i /\
      (blob_size (i_params i) = 0 \/ 0 < blob_size (i_params i) /\ (i_canBePrefix i = true \/ i_mustBeFresh i = true \/ i_hint i <> []))
  | PData d => data_ok d
  end.
(** Its bytes; [rnd]: the random bytes that complete a short nonce. *)
Definition packet_bytes (rnd : bytes) (p : packet) : bytes :=
  match p with
  | PInterest i => if blob_size (i_params i) =? 0 then interest02 i (nonce4 rnd (i_nonce i)) else interest03 i (nonce4 rnd (i_nonce i))
  | PData d => data_bytes d
  end.
(** What the receiver sees of it. *)
Definition packet_seen (rnd : bytes) (p : packet) : packet :=
  match p with
  | PInterest i => PInterest (if blob_size (i_params i) =? 0 then interest_seen i (nonce4 rnd (i_nonce i)) else interest_seen03 i (nonce4 rnd (i_nonce i)))
  | PData d => PData (data_seen data_new d)
  end.

(** How a forwarder passes it on: as it is, or in an LpPacket with header fields. *)
Notation framing := (option (list lpHeader)).
Definition framing_ok (fr : framing) : Prop := match fr with None => True | Some hs => Forall header_ok hs end.
Definition framed (fr : framing) (w : bytes) : bytes := match fr with None => w | Some hs => lp_bytes hs (Some w) end.
(** The header fields that a receiver recognizes, and the reason if it is a Nack. *)
Definition fields_seen (fr : framing) : headers := option_map (flat_map header_field) fr.
Definition nack_in (fr : framing) : option networkNack :=
  match fr with
  | None => None
  | Some hs => match flat_map (fun h => match h with HField (LpNack n) => [n] | _ => [] end) hs with n :: _ => Some n | [] => None end
  end.
Definition arrival (p : packet) (fr : framing) : received :=
  match p, nack_in fr with
  | PInterest i, Some n => RNack i n
  | PInterest i, None => RInterest i (fields_seen fr)
  | PData _, Some _ => RDropped
  | PData d, None => RData d (fields_seen fr)
  end.
