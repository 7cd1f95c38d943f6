(** * Specification of the Validator, by the history of events

    [H] is the whole history; events are counted from 0, and "before k" means at one of the
    events 0 ... k-1. *)
From Verif Require Import Base NameModel CertModel AnchorSpec ValModel.
Section S.
Context {P C I : Type}.
Variable ct_period : C -> res (Z * Z).
Variable ct_check : C -> res unit.
Variable i_name : I -> name.
Variable i_matches : I -> C -> bool.
Variable ver : P -> C -> res bool.
Variable verc : C -> C -> res bool.
Variable pol : nat -> P -> verdict I.
Variable polc : nat -> C -> verdict I.
Variable files : nat -> Z -> res (list (option C)).
Variable maxDepth : Z.
Variable H : list (@event P C).

(** the time of an event in which the validator works *)
Definition time (e : @event P C) : option Z := match e with EValidate now _ | EData now _ _ | ETimeout now _ => Some now | _ => None end.
(** the number of the validation started at event [j] *)
Definition is_validate (e : @event P C) : bool := match e with EValidate _ _ => true | _ => false end.
Definition starts (j : nat) : nat := length (filter is_validate (firstn j H)).

(** ** Trust anchors *)
(** resetAnchors was not called after event [j] and before [k] *)
Definition kept (j k : nat) : Prop := forall m, (j < m < k)%nat -> nth_error H m <> Some (EAnchor TClear).
(** the path of the dynamic group [id] was given before [k] *)
Definition registered (k : nat) (id : Z) : Prop := exists j p t fs, (j < k)%nat /\ nth_error H j = Some (EAnchor (TPath id p t fs)) /\ kept j k.
(** event [j] gives the certificate [c] to the trust anchors: by a call, or by reading the
    path of a group *)
Definition given (j : nat) (c : C) : Prop :=
  exists e, nth_error H j = Some e /\
  match e with
  | EAnchor o => gives o c
  | _ => time e <> None /\ exists id fs, registered j id /\ files j id = Ok fs /\ In (Some c) fs
  end.
Definition anchor (k : nat) (c : C) : Prop := ct_check c = Ok tt /\ exists j, (j < k)%nat /\ given j c /\ kept j k.

(** ** What the policy said *)
(** Before [k] the policy asked to have the certificate [c], valid at that time, checked with
    the certificate that the Interest [r] fetches *)
Definition accepted (k : nat) (c : C) (r : I) : Prop :=
  exists j e now nb na, (j < k)%nat /\ nth_error H j = Some e /\ time e = Some now /\ polc j c = VContinue (Some r) /\
  ct_check c = Ok tt /\ ct_period c = Ok (nb, na) /\ nb <= now <= na.
(** The validation started at [j0] went up from the packet: for each certificate of the chain,
    the last found first, the policy gave a next Interest *)
Inductive chased (k : nat) (j0 : nat) : list C -> list I -> Prop :=
  | Ch_start : forall now p r, (j0 < k)%nat -> nth_error H j0 = Some (EValidate now p) -> pol j0 p = VContinue (Some r) -> chased k j0 [] [r]
  | Ch_next : forall c chain r r' rs, chased k j0 chain (r' :: rs) -> i_matches r' c = true -> accepted k c r -> chased k j0 (c :: chain) (r :: r' :: rs).

(** ** Trust *)
(** the verified certificates were not reset after [j] and before [k] *)
Definition remembered (j k : nat) : Prop := forall m, (j < m < k)%nat -> nth_error H m <> Some EReset.
(** [trusted k now c]: at the time [now], before event [k], [c] is a trust anchor, or it was
    declared verified by the user or verified with a trusted certificate, less than an
    hour ago and has not expired since.  [signed j now c]: in event [j], at the time [now],
    the signature of [c] was verified, up to a trusted certificate. *)
Inductive trusted : nat -> Z -> C -> Prop :=
  | T_anchor : forall k now c, anchor k c -> trusted k now c
  | T_user : forall k now j now' c nb na, (j < k)%nat -> remembered j k -> nth_error H j = Some (EVerified now' c) ->
      ct_check c = Ok tt -> ct_period c = Ok (nb, na) -> now' <= na -> now < Z.min na (now' + 3600000) -> trusted k now c
  | T_signed : forall k now j now' c nb na, (j < k)%nat -> remembered j k -> signed j now' c ->
      ct_check c = Ok tt -> ct_period c = Ok (nb, na) -> now' <= na -> now < Z.min na (now' + 3600000) -> trusted k now c
with signed : nat -> Z -> C -> Prop :=
  | S_by : forall j e now c r t, nth_error H j = Some e -> time e = Some now -> accepted (S j) c r -> i_matches r t = true -> verc c t = Ok true ->
      trusted (S j) now t \/ signed j now t -> signed j now c.
(** the root signed the first certificate of the chain, that one the next, and the last one
    the packet *)
Fixpoint signs (root : C) (chain : list C) (p : P) : Prop :=
  match chain with
  | [] => ver p root = Ok true
  | c :: chain' => verc c root = Ok true /\ signs c chain' p
  end.
(** Why the validation number [i] may succeed *)
Definition justified (k : nat) (i : nat) : Prop :=
  exists j0 now0 p, (j0 < k)%nat /\ nth_error H j0 = Some (EValidate now0 p) /\ starts j0 = i /\
  (pol j0 p = VContinue None \/
   exists j e now chain r rs root, (j0 <= j < k)%nat /\ nth_error H j = Some e /\ time e = Some now /\
     chased (S j) j0 chain (r :: rs) /\ NoDup (map i_name (r :: rs)) /\ zlen chain < maxDepth /\
     i_matches r root = true /\ signs root chain p /\ trusted (S j) now root).
(** ** Answers of the face *)
(** event [e] in the world [w] is the answer of the face to the pending request of the
    validation number [i] *)
Definition answers (w : @world P C I) (e : @event P C) (i : nat) : bool :=
  match e with
  | EData _ j c => match nth_error (w_pend w) j with Some pd => i_matches (pd_req pd) c && (vs_id (pd_state pd) =? i)%nat | None => false end
  | ETimeout _ j => match nth_error (w_pend w) j with Some pd => (vs_id (pd_state pd) =? i)%nat | None => false end
  | _ => false
  end.
(** ** A chain that arrives *)
(** From event [k] on, after the request [r] (after those of the names [seen]) the certificates
    [l] arrive, each with its time and with the Interest that the policy gives for it, up to the
    trust anchor [a]: the Interest names differ, there are fewer than maxDepth certificates, no
    Interest matches a certificate that came before, each certificate is accepted, and the
    signatures are good. *)
Variable ct_name : C -> name.
Fixpoint route (a : C) (p : P) (k : nat) (r : I) (seen : list name) (chain : list C) (l : list (Z * C * I)) : Prop :=
  ~ In (i_name r) seen /\ zlen chain < maxDepth /\ (forall c, In c chain -> i_matches r c = false) /\
  match l with
  | [] => i_matches r a = true /\ (exists rest, ct_name a = i_name r ++ rest) /\ signs a chain p
  | (t, c, r') :: l' =>
      i_matches r a = false /\ i_matches r c = true /\ ct_check c = Ok tt /\ (exists nb na, ct_period c = Ok (nb, na) /\ nb <= t <= na) /\
      polc k c = VContinue (Some r') /\ route a p (S k) r' (i_name r :: seen) (c :: chain) l'
  end.
Definition arrivals (l : list (Z * C * I)) : list (@event P C) := map (fun '(t, c, r) => EData t 0 c) l.
End S.
