(** * Property C04: decoding arbitrary bytes is safe *)
From Verif Require Import Base BaseLemmas TlvModel TlvSpec TlvProofs TlvDecProofs NameModel NameSpec NameProofs UriModel CalModel WireModel WireSafety BlobModel BlobProps CtlModel.
From Coq Require Import ZifyBool.
Local Open Scope dec_scope.

(** Specification: on every byte string the decoder stops, either with its offset inside
    the input or with one of the two documented exceptions (never with the model's
    OutOfFuel, IndexError, ...). *)
Definition decodes_safely {A} (m : dec A) : Prop := forall inp, bytes_ok inp ->
  match m inp 0 with Ok (_, off) => 0 <= off <= zlen inp | Err e => e = ValueError \/ e = RuntimeError end.

Lemma safe_decodes : forall A (m : dec A), safe m -> decodes_safely m.
Proof.
  intros A m H inp B. specialize (H inp 0 B ltac:(pose proof (zlen_nonneg _ inp); lia)).
  destruct (m inp 0) as [[a o]|e]; [lia|exact H].
Qed.
Lemma safe_text : forall b, safe (dlift (blob_to_str b)).
Proof. intros b. apply safe_lift. intros e H. left. eapply C45_text_error. exact H. Qed.
Lemma safe_cp : safe dec_cp.
Proof. unfold dec_cp. sf; apply safe_text. Qed.
Lemma safe_cr : safe dec_cr.
Proof. unfold dec_cr. sf; [apply safe_text|apply safe_cp]. Qed.
Lemma safe_ec : safe dec_ec.
Proof. unfold dec_ec. sf. apply safe_keyLocator. Qed.
Lemma safe_ec2 : safe dec_ec2.
Proof. unfold dec_ec2. sf. Qed.

Theorem C04_name : decodes_safely dec_name.
Proof. apply safe_decodes, safe_name. Qed.
Theorem C04_interestV02 : forall prev, decodes_safely (dec_interestV02 prev).
Proof. intros. apply safe_decodes, safe_V02. Qed.
Theorem C04_interestV03 : decodes_safely dec_interestV03.
Proof. apply safe_decodes, safe_V03. Qed.
Theorem C04_decodeInterest : forall prev inp, bytes_ok inp ->
  (exists r, decodeInterest prev inp = Ok r) \/ decodeInterest prev inp = Err ValueError \/ decodeInterest prev inp = Err RuntimeError.
Proof.
  intros prev inp B. unfold decodeInterest. pose proof (C04_interestV02 prev inp B) as H.
  destruct (dec_interestV02 prev inp 0) as [[r o]|e]; [left; eexists; reflexivity|].
  destruct (dec_interestV03 inp 0) as [[r o]|e']; [left; eexists; reflexivity|]. right. destruct H as [-> | ->]; auto.
Qed.
Theorem C04_data : forall prev, decodes_safely (dec_data prev).
Proof. intros. apply safe_decodes, safe_data. Qed.
Theorem C04_signatureInfo : decodes_safely dec_sigInfo.
Proof. apply safe_decodes, safe_sigInfo. Qed.
Theorem C04_delegationSet : forall e, decodes_safely (dec_delegationSet e).
Proof. intros. apply safe_decodes, safe_ds. Qed.
Theorem C04_controlParameters : decodes_safely dec_cp.
Proof. apply safe_decodes, safe_cp. Qed.
Theorem C04_controlResponse : decodes_safely dec_cr.
Proof. apply safe_decodes, safe_cr. Qed.
Theorem C04_encryptedContent : decodes_safely dec_ec.
Proof. apply safe_decodes, safe_ec. Qed.
Theorem C04_encryptedContentV2 : decodes_safely dec_ec2.
Proof. apply safe_decodes, safe_ec2. Qed.

(** LpPacket: the only further exception is the TypeError of a Nack without a reason. *)
Definition lp_error (e : exn) : Prop := e = ValueError \/ e = RuntimeError \/ e = TypeError.
Lemma lp_loop_safe : forall fuel en acc inp off, bytes_ok inp -> 0 <= off <= zlen inp -> zlen inp - off < Z.of_nat fuel ->
  match dec_lp_loop fuel en acc inp off with Ok (_, o) => off <= o <= zlen inp | Err e => lp_error e end.
Proof.
  assert (DE : forall e, decode_error e -> lp_error e) by (intros e [-> | ->]; unfold lp_error; auto).
  induction fuel as [|fuel IH]; intros en acc inp off B O F; [lia|]. cbn [dec_lp_loop]. unfold dbind at 1. unfold d_getOffset.
  destruct (off <? en) eqn:E; [|unfold dret; lia]. unfold dbind at 1. pose proof (dsafe_readVar inp off B O) as P.
  destruct (d_readVarNumber inp off) as [[t o1]|x]; [|apply DE, P]. destruct P as (P1 & P2 & P3).
  unfold dbind at 1. pose proof (dsafe_readVar inp o1 B ltac:(lia)) as P'.
  destruct (d_readVarNumber inp o1) as [[n o2]|x]; [|apply DE, P']. destruct P' as (R1 & R2 & R3). unfold u64 in *.
  unfold dbind at 1. unfold dbind at 1. unfold d_inputLength. destruct (zlen inp <? o2 + n) eqn:Len; [left; reflexivity|].
  destruct (t =? 80) eqn:Et. { unfold dbind, d_getSlice, d_seek, dret. lia. }
  set (mid := if t =? 800 then _ else _).
  assert (Hm : match mid inp o2 with Ok (_, o) => o2 <= o <= zlen inp | Err e => lp_error e end).
  { unfold mid. destruct (t =? 800).
    { unfold dbind at 1. pose proof (safe_optNN 801 (o2 + n) inp o2 B ltac:(lia)) as S.
      destruct (d_readOptionalNonNegativeIntegerTlv 801 (o2 + n) inp o2) as [[c o3]|x]; [|apply DE, S]. unfold dbind, dlift, nack_of_code.
      destruct c as [c|]; [|right; right; reflexivity]. destruct (_ || _); [unfold dret; lia|]. destruct (_ || _); unfold dret; lia. }
    destruct (t =? 817). { unfold dbind at 1. pose proof (dsafe_readNonNeg n inp o2 B ltac:(lia)) as S.
      destruct (d_readNonNegativeInteger n inp o2) as [[c o3]|x]; [|apply DE, S]. unfold dret. lia. }
    destruct (t =? 832). { unfold dbind at 1. pose proof (dsafe_readNonNeg n inp o2 B ltac:(lia)) as S.
      destruct (d_readNonNegativeInteger n inp o2) as [[c o3]|x]; [|apply DE, S]. unfold dret. lia. }
    destruct (lp_canIgnore t); [unfold dbind, d_seek, dret; lia|left; reflexivity]. }
  unfold dbind at 1. destruct (mid inp o2) as [[acc' o3]|x]; [|exact Hm].
  unfold dbind at 1. pose proof (dsafe_finish (o2 + n) false inp o3 B ltac:(lia)) as S.
  destruct (d_finishNestedTlvs (o2 + n) false inp o3) as [[u o4]|x]; [|apply DE, S].
  specialize (IH en acc' inp o4 B ltac:(lia) ltac:(lia)). destruct (dec_lp_loop fuel en acc' inp o4) as [[p o5]|x]; [lia|exact IH].
Qed.
Theorem C04_lpPacket : forall inp, bytes_ok inp ->
  match dec_lp inp 0 with Ok (_, off) => 0 <= off <= zlen inp | Err e => e = ValueError \/ e = RuntimeError \/ e = TypeError end.
Proof.
  assert (DE : forall e, decode_error e -> lp_error e) by (intros e [-> | ->]; unfold lp_error; auto).
  intros inp B. unfold dec_lp, dbind. pose proof (zlen_nonneg _ inp) as N. pose proof (dsafe_readNested 100 inp 0 B ltac:(lia)) as R.
  destruct (d_readNestedTlvsStart 100 inp 0) as [[e o]|x]; [|apply DE, R]. unfold dfuel.
  pose proof (lp_loop_safe (S (length inp)) e [] inp o B ltac:(lia) ltac:(unfold zlen in *; lia)) as L.
  destruct (dec_lp_loop (S (length inp)) e [] inp o) as [[p o2]|x]; [|exact L].
  pose proof (dsafe_finish e false inp o2 B ltac:(lia)) as Fi. destruct (d_finishNestedTlvs e false inp o2) as [[u o3]|x]; [|apply DE, Fi].
  unfold dret. lia.
Qed.
(** ... and that TypeError is reachable: the exception the documentation does not mention. *)
Theorem C04_lpPacket_refuted : exists inp, bytes_ok inp /\ dec_lp inp 0 = Err TypeError.
Proof. exists [100; 4; 253; 3; 32; 0]. split; [apply bytes_okb_ok; reflexivity|vm_compute; reflexivity]. Qed.

(** Values come from the input: every component value of a decoded name is a substring of
    the input, digests have 32 bytes and type codes are 64-bit. *)
Theorem C04_name_from_input : forall inp n off, bytes_ok inp -> dec_name inp 0 = Ok (n, off) ->
  Forall (fun c => (exists pre post, inp = pre ++ c_value c ++ post) /\ 0 <= c_code c < 2 ^ 64 /\
            (c_type c = CT_IMPLICIT \/ c_type c = CT_PARAMS -> zlen (c_value c) = 32)) (fst n).
Proof.
  intros inp n off B H. pose proof (dec_name_safe inp 0 B ltac:(pose proof (zlen_nonneg _ inp); lia)) as S. rewrite H in S.
  destruct S as (_ & _ & S). revert S. apply Forall_impl. intros c (F & _ & U & D). split; [exact F|]. split; [exact U|exact D].
Qed.
(** A blob read from the input is the slice of the input that the element's length
    announces, ending where the reader stops. *)
Theorem C04_blob_from_input : forall t inp v off, bytes_ok inp -> d_readBlobTlv t inp 0 = Ok (v, off) ->
  exists a, 2 <= a /\ v = zslice inp a off /\ a + zlen v = off /\ off <= zlen inp.
Proof.
  intros t inp v off B H. pose proof (dsafe_readBlob t inp 0 B ltac:(pose proof (zlen_nonneg _ inp); lia)) as S. rewrite H in S.
  destruct S as (L & _ & _ & a & _ & E & A & Z). exists a. split; [lia|]. split; [exact E|]. split; [exact Z|lia].
Qed.
(** Truncated, over-long and corrupt packets, and one that decodes. *)
Example C04_example :
  dec_name [7; 3; 8; 1; 65] 0 = Ok (([c_generic [65]], (2, 2)), 5) /\
  dec_name [7; 3; 8; 2; 65] 0 = Err ValueError /\ dec_name [7; 255; 255; 255; 255; 255; 255; 255; 255; 255] 0 = Err ValueError /\
  dec_name [] 0 = Err ValueError /\ dec_name [7; 2; 1; 0] 0 = Err RuntimeError.
Proof. vm_compute. repeat split. Qed.
Print Assumptions C04_name.
Print Assumptions C04_interestV02.
Print Assumptions C04_interestV03.
Print Assumptions C04_decodeInterest.
Print Assumptions C04_data.
Print Assumptions C04_signatureInfo.
Print Assumptions C04_delegationSet.
Print Assumptions C04_controlParameters.
Print Assumptions C04_controlResponse.
Print Assumptions C04_encryptedContent.
Print Assumptions C04_encryptedContentV2.
Print Assumptions C04_lpPacket.
Print Assumptions C04_lpPacket_refuted.
Print Assumptions C04_name_from_input.
Print Assumptions C04_blob_from_input.
