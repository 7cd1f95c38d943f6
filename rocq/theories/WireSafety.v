(** * Lemmas for C04: the decoders are safe on arbitrary bytes. *)
From Verif Require Import Base BaseLemmas TlvModel TlvSpec TlvProofs TlvDecProofs NameModel NameSpec NameProofs UriModel CalModel WireModel.
From Coq Require Import ZifyBool.
Local Open Scope dec_scope.

(** Progress: at least [k] bytes are consumed. *)
Definition progress {A} (k : Z) : bytes -> Z -> A -> Z -> Prop := fun _ off _ off' => off + k <= off'.
Definition safe {A} (m : dec A) : Prop := dsafe m anyQ.

Lemma dsafe_safe : forall A (m : dec A) Q, dsafe m Q -> safe m.
Proof. intros. eapply dsafe_weaken; eauto. intros; exact I. Qed.
Lemma safe_bind : forall A B (m : dec A) (k : A -> dec B), safe m -> (forall a, safe (k a)) -> safe (dbind m k).
Proof. intros. apply dsafe_bind_any; assumption. Qed.
Lemma safe_ret : forall A (a : A), safe (dret a).
Proof. intros. apply dsafe_ret. Qed.
Lemma safe_err : forall A e, decode_error e -> safe (@derr A e).
Proof. intros. apply dsafe_err. assumption. Qed.
Lemma safe_if : forall A (b : bool) (m n : dec A), safe m -> safe n -> safe (if b then m else n).
Proof. intros A [|]; auto. Qed.
Lemma safe_getOffset : safe d_getOffset. Proof. apply dsafe_getOffset. Qed.
Lemma safe_getSlice : forall a b, safe (d_getSlice a b). Proof. apply dsafe_getSlice. Qed.
Lemma safe_inputLength : safe d_inputLength. Proof. apply dsafe_inputLength. Qed.
Lemma safe_readVar : safe d_readVarNumber. Proof. eapply dsafe_safe, dsafe_readVar. Qed.
Lemma safe_readTL : forall t, safe (d_readTypeAndLength t). Proof. intros. eapply dsafe_safe, dsafe_readTL. Qed.
Lemma safe_readBlob : forall t, safe (d_readBlobTlv t). Proof. intros. eapply dsafe_safe, dsafe_readBlob. Qed.
Lemma safe_readNested : forall t, safe (d_readNestedTlvsStart t). Proof. intros. eapply dsafe_safe, dsafe_readNested. Qed.
Lemma safe_peek : forall t e, safe (d_peekType t e). Proof. intros. eapply dsafe_safe, dsafe_peek. Qed.
Lemma safe_nnTlv : forall t, safe (d_readNonNegativeIntegerTlv t). Proof. intros. eapply dsafe_safe, dsafe_nnTlv. Qed.
Lemma safe_finish : forall e b, safe (d_finishNestedTlvs e b). Proof. intros. eapply dsafe_safe, dsafe_finish. Qed.
Lemma safe_lift : forall A (r : res A), (forall e, r = Err e -> decode_error e) -> safe (dlift r).
Proof. intros A r H inp off B O. unfold dlift. destruct r; [split; [lia|exact I]|auto]. Qed.
Lemma safe_optNN : forall t e, safe (d_readOptionalNonNegativeIntegerTlv t e).
Proof. intros. unfold d_readOptionalNonNegativeIntegerTlv. apply safe_bind; [apply safe_peek|]. intros [|]; [|apply safe_ret]. apply safe_bind; [apply safe_nnTlv|intros; apply safe_ret]. Qed.
Lemma safe_optBlob : forall t e, safe (d_readOptionalBlobTlv t e).
Proof. intros. unfold d_readOptionalBlobTlv. apply safe_bind; [apply safe_peek|]. intros [|]; [|apply safe_ret]. apply safe_bind; [apply safe_readBlob|intros; apply safe_ret]. Qed.
Lemma safe_bool : forall t e, safe (d_readBooleanTlv t e).
Proof.
  intros. unfold d_readBooleanTlv. apply safe_bind; [apply safe_peek|]. intros [|]; [|apply safe_ret].
  eapply dsafe_bind; [apply dsafe_readTL|]. intros inp off n off' B O1 O2 (Q1 & Q2 & Q3). unfold dbind, d_skip, dret. split; [lia|exact I].
Qed.
Lemma safe_skipTlv : forall t, safe (d_skipTlv t).
Proof.
  intros. unfold d_skipTlv. eapply dsafe_bind; [apply dsafe_readTL|]. intros inp off n off' B O1 O2 (Q1 & Q2 & Q3). unfold d_skip. split; [lia|exact I].
Qed.
Lemma safe_skipOpt : forall t e, safe (d_skipOptionalTlv t e).
Proof. intros. unfold d_skipOptionalTlv. apply safe_bind; [apply safe_peek|]. intros [|]; [apply safe_skipTlv|apply safe_ret]. Qed.

(** Loops: each iteration consumes at least one byte. *)
Lemma dfuel_safe : forall A (f : nat -> dec A),
  (forall fuel inp off, bytes_ok inp -> 0 <= off <= zlen inp -> zlen inp - off < Z.of_nat fuel ->
    match f fuel inp off with Ok (a, off') => off <= off' <= zlen inp | Err e => decode_error e end) -> safe (dfuel f).
Proof.
  intros A f H inp off B O. unfold dfuel. specialize (H (S (length inp)) inp off B O). unfold zlen in *. specialize (H ltac:(lia)).
  destruct (f (S (length inp)) inp off) as [[a o]|e]; [split; [lia|exact I]|assumption].
Qed.

(** ** Components and names *)
(** A value cut out of the input. *)
Definition from_input (inp v : bytes) : Prop := exists pre post, inp = pre ++ v ++ post.
Lemma zslice_from : forall inp a b, 0 <= a <= b -> b <= zlen inp -> from_input inp (zslice inp a b).
Proof. intros inp a b H L. destruct (zslice_split _ inp a b H L) as (p & q & E & _). exists p, q. exact E. Qed.
Lemma dsafe_blob_from : forall t, dsafe (d_readBlobTlv t) (fun inp off v off' => off + 2 <= off' /\ bytes_ok v /\ from_input inp v).
Proof.
  intros t. eapply dsafe_weaken; [apply dsafe_readBlob|]. intros inp off v off' B O L (P & Bv & a & Pa & -> & Q & E).
  split; [exact P|]. split; [exact Bv|]. apply zslice_from; [|lia].
  split; [lia|]. destruct (Z.le_gt_cases a off'); [assumption|]. exfalso. unfold zslice in E. unfold zlen in *. lia.
Qed.
Lemma dec_comp_safe : dsafe dec_comp (fun inp off c off' => off + 2 <= off' /\ from_input inp (c_value c) /\ bytes_ok (c_value c) /\
  (c_type c = CT_IMPLICIT \/ c_type c = CT_PARAMS -> zlen (c_value c) = 32) /\ c_valid c /\ u64 (c_code c)).
Proof.
  intros inp off B O. unfold dec_comp. unfold dbind, d_getOffset. pose proof (dsafe_readVar inp off B O) as R.
  destruct (d_readVarNumber inp off) as [[t o1]|e]; [|exact R]. destruct R as (_ & _ & Ut). unfold d_seek.
  pose proof (dsafe_blob_from t inp off B O) as S. destruct (d_readBlobTlv t inp off) as [[v o2]|e]; [|exact S].
  destruct S as (S1 & S2 & S3 & S4). unfold dlift, dret, c_fromImplicitSha256Digest, c_fromParametersSha256Digest, c_new, c_valid, c_code.
  unfold CT_OTHER, CT_IMPLICIT, CT_PARAMS, CT_GENERIC, u64 in *.
  destruct (t =? 1) eqn:E1; [destruct (negb (zlen v =? 32)) eqn:E; [right; reflexivity|]; cbn; split; [lia|]; split; [lia|]; split; [exact S4|]; split; [exact S3|]; split; [lia|]; split; [split; [exact S3|]; right|]; lia|].
  destruct (t =? 2) eqn:E2; [destruct (negb (zlen v =? 32)) eqn:E; [right; reflexivity|]; cbn; split; [lia|]; split; [lia|]; split; [exact S4|]; split; [exact S3|]; split; [lia|]; split; [split; [exact S3|]; right|]; lia|].
  destruct (t =? 8) eqn:E8; [unfold c_generic, CT_GENERIC; cbn; split; [lia|]; split; [lia|]; split; [exact S4|]; split; [exact S3|]; split; [lia|]; split; [split; [exact S3|]; right|]; lia|].
  cbn [Z.eqb Pos.eqb]. replace (t <? 0) with false by lia. cbn. split; [lia|]. split; [lia|]. split; [exact S4|]. split; [exact S3|]. split; [lia|]. split; [split; [exact S3|]; left|]; lia.
Qed.
Definition comp_from (inp : bytes) (c : comp) : Prop :=
  from_input inp (c_value c) /\ c_valid c /\ u64 (c_code c) /\ (c_type c = CT_IMPLICIT \/ c_type c = CT_PARAMS -> zlen (c_value c) = 32).
Lemma dec_name_loop_safe : forall fuel e acc se inp off, bytes_ok inp -> 0 <= off <= zlen inp -> zlen inp - off < Z.of_nat fuel ->
  Forall (comp_from inp) acc ->
  match dec_name_loop fuel e acc se inp off with Ok ((n, _), off') => off <= off' <= zlen inp /\ Forall (comp_from inp) n | Err x => decode_error x end.
Proof.
  induction fuel as [|fuel IH]; intros e acc se inp off B O F Ha; [lia|]. cbn [dec_name_loop]. unfold dbind, d_getOffset.
  destruct (off <? e) eqn:E; [|unfold dret; split; [lia|apply Forall_rev, Ha]].
  pose proof (dec_comp_safe inp off B O) as S. destruct (dec_comp inp off) as [[c o]|x]; [|exact S].
  destruct S as (S1 & S2 & S3 & S4 & S5 & S6 & S7).
  specialize (IH e (c :: acc) off inp o B ltac:(lia) ltac:(lia) ltac:(constructor; [unfold comp_from; tauto|assumption])).
  destruct (dec_name_loop fuel e (c :: acc) off inp o) as [[[n s] o']|x]; [|exact IH]. split; [lia|tauto].
Qed.
Lemma dec_name_safe : dsafe dec_name (fun inp off r off' => off + 2 <= off' /\ Forall (comp_from inp) (fst r)).
Proof.
  unfold dec_name. eapply dsafe_bind; [apply dsafe_readNested|]. intros inp off e off' B O1 O2 (Q1 & Q2). unfold dbind, d_getOffset, dfuel.
  pose proof (dec_name_loop_safe (S (length inp)) e [] off' inp off' B ltac:(lia) ltac:(unfold zlen in *; lia) ltac:(constructor)) as L.
  destruct (dec_name_loop (S (length inp)) e [] off' inp off') as [[[n s] o]|x]; [|exact L].
  pose proof (dsafe_finish e false inp o B ltac:(lia)) as Fi. destruct (d_finishNestedTlvs e false inp o) as [[u o2]|x]; [|exact Fi].
  unfold dret. cbn [fst]. split; [lia|]. split; [lia|tauto].
Qed.
Lemma safe_name : safe dec_name. Proof. eapply dsafe_safe, dec_name_safe. Qed.
Lemma safe_comp : safe dec_comp. Proof. eapply dsafe_safe, dec_comp_safe. Qed.

Ltac sf := repeat lazymatch goal with
  | |- safe (dbind _ _) => apply safe_bind; [|intros ?]
  | |- safe (if _ then _ else _) => apply safe_if
  | |- safe (dret _) => apply safe_ret
  | |- safe (derr _) => apply safe_err; (left; reflexivity) || (right; reflexivity)
  | |- safe d_getOffset => apply safe_getOffset
  | |- safe (d_getSlice _ _) => apply safe_getSlice
  | |- safe d_inputLength => apply safe_inputLength
  | |- safe d_readVarNumber => apply safe_readVar
  | |- safe (d_readTypeAndLength _) => apply safe_readTL
  | |- safe (d_readBlobTlv _) => apply safe_readBlob
  | |- safe (d_readNestedTlvsStart _) => apply safe_readNested
  | |- safe (d_peekType _ _) => apply safe_peek
  | |- safe (d_readNonNegativeIntegerTlv _) => apply safe_nnTlv
  | |- safe (d_finishNestedTlvs _ _) => apply safe_finish
  | |- safe (d_readOptionalNonNegativeIntegerTlv _ _) => apply safe_optNN
  | |- safe (d_readOptionalBlobTlv _ _) => apply safe_optBlob
  | |- safe (d_readBooleanTlv _ _) => apply safe_bool
  | |- safe (d_skipTlv _) => apply safe_skipTlv
  | |- safe (d_skipOptionalTlv _ _) => apply safe_skipOpt
  | |- safe dec_name => apply safe_name
  | |- safe dec_comp => apply safe_comp
  end.

Lemma safe_keyLocator : forall t, safe (dec_keyLocator t).
Proof. intros t. unfold dec_keyLocator. sf. Qed.
Lemma dec_ex_loop_safe : forall fuel e acc inp off, bytes_ok inp -> 0 <= off <= zlen inp -> zlen inp - off < Z.of_nat fuel ->
  match dec_exclude_loop fuel e acc inp off with Ok (_, off') => off <= off' <= zlen inp | Err x => decode_error x end.
Proof.
  induction fuel as [|fuel IH]; intros e acc inp off B O F; [lia|]. cbn [dec_exclude_loop]. unfold dbind, d_getOffset.
  destruct (off <? e) eqn:E; [|unfold dret; lia]. pose proof (dsafe_peek 19 e inp off B O) as P.
  destruct (d_peekType 19 e inp off) as [[b o]|x] eqn:Ep; [|exact P]. destruct P as (_ & -> & _). destruct b.
  - assert (R : match d_readBooleanTlv 19 e inp off with Ok (_, o) => off + 2 <= o <= zlen inp | Err x => decode_error x end).
    { unfold d_readBooleanTlv, dbind. rewrite Ep. pose proof (dsafe_readTL 19 inp off B O) as R. destruct (d_readTypeAndLength 19 inp off) as [[n o]|x]; [|exact R].
      unfold d_skip, dret. lia. }
    destruct (d_readBooleanTlv 19 e inp off) as [[u o]|x]; [|exact R]. specialize (IH e (ExAny :: acc) inp o B ltac:(lia) ltac:(lia)).
    destruct (dec_exclude_loop fuel e (ExAny :: acc) inp o) as [[? ?]|?]; [lia|exact IH].
  - pose proof (dec_comp_safe inp off B O) as S. destruct (dec_comp inp off) as [[c o]|x]; [|exact S]. destruct S as (S1 & S2 & _).
    specialize (IH e (ExComp c :: acc) inp o B ltac:(lia) ltac:(lia)). destruct (dec_exclude_loop fuel e (ExComp c :: acc) inp o) as [[? ?]|?]; [lia|exact IH].
Qed.
Lemma safe_exclude : safe dec_exclude.
Proof. unfold dec_exclude. sf. apply dfuel_safe. intros. apply dec_ex_loop_safe; assumption. Qed.
Lemma safe_metaInfo : forall p, safe (dec_metaInfo p).
Proof.
  intros p. unfold dec_metaInfo. apply safe_bind; [sf|intros e]. apply safe_bind; [sf|intros tc].
  destruct (match tc with None => (0, mi_other p) | Some t => _ end) as [ty ot]. unfold d_readOptionalNonNegativeIntegerTlvAsFloat. sf.
Qed.
Lemma int_or_err : forall s e, int_or s = Err e -> decode_error e.
Proof. intros s e H. unfold int_or in H. destruct (int10 s); inversion H. left. reflexivity. Qed.
Lemma iso_err : forall s e, fromIsoString s = Err e -> decode_error e.
Proof.
  intros s e H. unfold fromIsoString in H. destruct (_ || _); [inversion H; right; reflexivity|].
  repeat match type of H with (x <-- ?m ;; _)%res = _ => let E := fresh in destruct m eqn:E; cbn [rbind] in H; [|inversion H; subst; eapply int_or_err; eassumption] end.
  destruct (dt_new _ _ _ _ _ _) eqn:E in H; cbn [rbind] in H; [discriminate|]. inversion H; subst.
  unfold dt_new in E. repeat match type of E with (if ?b then _ else _) = _ => destruct b; [inversion E; left; reflexivity|] end. discriminate.
Qed.
Lemma blob_iso_err : forall b e, (s <-- blob_str b ;; fromIsoString s)%res = Err e -> decode_error e.
Proof. intros b e H. unfold blob_str in H. destruct (forallb _ b); cbn [rbind] in H; [eapply iso_err; eassumption|inversion H; left; reflexivity]. Qed.
Lemma safe_validity : safe dec_validity.
Proof. unfold dec_validity. sf; apply safe_lift; apply blob_iso_err. Qed.
Lemma safe_sigInfo : safe dec_sigInfo.
Proof. unfold dec_sigInfo. sf; try apply safe_keyLocator; apply safe_validity. Qed.
Lemma ds_loop_safe : forall fuel e acc inp off, bytes_ok inp -> 0 <= off <= zlen inp -> zlen inp - off < Z.of_nat fuel ->
  match dec_ds_loop fuel e acc inp off with Ok (_, off') => off <= off' <= zlen inp | Err x => decode_error x end.
Proof.
  induction fuel as [|fuel IH]; intros e acc inp off B O F; [lia|]. cbn [dec_ds_loop]. unfold dbind, d_getOffset.
  destruct (off <? e) eqn:E; [|unfold dret; lia]. pose proof (dsafe_readTL 31 inp off B O) as P.
  destruct (d_readTypeAndLength 31 inp off) as [[b o]|x]; [|exact P].
  pose proof (dsafe_nnTlv 30 inp o B ltac:(lia)) as P2. destruct (d_readNonNegativeIntegerTlv 30 inp o) as [[b2 o2]|x]; [|exact P2].
  pose proof (dec_name_safe inp o2 B ltac:(lia)) as P3. destruct (dec_name inp o2) as [[b3 o3]|x]; [|exact P3].
  specialize (IH e ((b2, fst b3) :: acc) inp o3 B ltac:(lia) ltac:(lia)). destruct (dec_ds_loop fuel e ((b2, fst b3) :: acc) inp o3) as [[? ?]|?]; [lia|exact IH].
Qed.
Lemma safe_ds : forall e, safe (dec_delegationSet e).
Proof. intros e. apply dfuel_safe. intros. apply ds_loop_safe; assumption. Qed.
Lemma safe_hint : forall e a, safe (dec_hint e a).
Proof. intros. unfold dec_hint. sf. apply safe_ds. Qed.
Lemma safe_selectors : safe dec_selectors.
Proof. unfold dec_selectors. sf; [apply safe_keyLocator|apply safe_exclude]. Qed.
Lemma safe_link : forall e, safe (dec_link e).
Proof.
  intros e. unfold dec_link. apply safe_bind; [sf|]. intros [|]; [|sf].
  intros inp off B O. unfold dbind, d_getOffset. pose proof (dsafe_readNested 6 inp off B O) as R.
  destruct (d_readNestedTlvsStart 6 inp off) as [[e' o]|x]; [|exact R]. unfold d_seek, d_getSlice, dret. split; [lia|exact I].
Qed.
Lemma safe_V02 : forall p, safe (dec_interestV02 p).
Proof.
  intros p. unfold dec_interestV02, d_readOptionalNonNegativeIntegerTlvAsFloat. sf; try apply safe_selectors; try apply safe_hint; try apply safe_link.
  - repeat match goal with |- safe (match ?x with _ => _ end) => destruct x end; sf.
    all: repeat match goal with |- safe (match ?x with _ => _ end) => destruct x end; sf.
Qed.
Lemma safe_V03 : safe dec_interestV03.
Proof. unfold dec_interestV03, d_readOptionalNonNegativeIntegerTlvAsFloat. sf. apply safe_hint. Qed.
Lemma safe_data : forall p, safe (dec_data p).
Proof. intros p. unfold dec_data. sf; [apply safe_metaInfo|apply safe_sigInfo]. Qed.
Lemma safe_generic_check : safe generic_check.
Proof. unfold generic_check. sf. Qed.
