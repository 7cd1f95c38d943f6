(** * C90: Protobuf messages as NDN-TLV. *)
From Verif Require Import Base BaseLemmas NameModel TlvModel TlvSpec TlvProofs TlvDecProofs BlobModel BlobProps WireModel WireSpec WireProofs WireSafety ChainProofs3.
From Verif Require Import PtlvModel PtlvSpec PtlvProofs PtlvProofs2.
From Coq Require Import ZifyBool.
Local Open Scope Z_scope.

Lemma msg_bytes : forall sch, (forall t, Forall known (sch t)) ->
  (forall f v, val_ok true sch f v -> known f -> bytes_ok (elems (val_elems sch f v))) /\
  (forall f vs, vals_ok true sch f vs -> known f -> bytes_ok (elems (vals_elems sch f vs))) /\
  (forall fs m, msg_ok true sch fs m -> Forall known fs -> bytes_ok (elems (msg_elems sch fs m))).
Proof.
  intros sch K.
  assert (One : forall f b, known f -> bytes_ok b -> bytes_ok (elems [(f_number f, b)])).
  { intros f b Kf B. apply elems_bytes. constructor; [|constructor]. split; [now apply known_pos|assumption]. }
  apply ok_ind.
  - intros f t m E _ IH Kf. rewrite (elems_msg _ _ _ _ E). auto.
  - intros f n E H Kf. cbn [val_elems]. rewrite E. apply One; [assumption|apply nonneg_ok; lia].
  - intros f n E H Kf. cbn [val_elems]. rewrite E. apply One; [assumption|apply nonneg_ok; lia].
  - intros f l n E _ H Kf. cbn [val_elems]. rewrite E. apply One; [assumption|apply nonneg_ok; lia].
  - intros f b E H Kf. cbn [val_elems]. rewrite E. now apply One.
  - intros f s E H Kf. cbn [val_elems]. rewrite E. apply One; [assumption|]. unfold utf8. destruct (utf8_encode_ok s H) as (b & -> & B). exact B.
  - intros f b E Kf. cbn [val_elems]. rewrite E. destruct b; [apply One; [assumption|constructor]|constructor].
  - intros. constructor.
  - intros f v vs _ IH1 _ IH2 Kf. cbn [vals_elems]. rewrite elems_app. apply bytes_ok_app. auto.
  - intros. constructor.
  - intros f vs fs m _ _ IH1 _ IH2 Kf. cbn [msg_elems]. rewrite elems_app. apply bytes_ok_app. inversion Kf; auto.
Qed.

(** ** Encoding: exactly the initialised messages, as the elements of the specification. *)
Theorem C90_encode : forall sch t m, schema_ok sch -> msg_ok false sch (sch t) m ->
  (msg_ok true sch (sch t) m -> pt_encode sch t m = Ok (elems (msg_elems sch (sch t) m))) /\
  (~ msg_ok true sch (sch t) m -> pt_encode sch t m = Err RuntimeError).
Proof.
  intros sch t m S O. unfold pt_encode. rewrite isInit. split; intros H.
  - destruct (init_strict sch) as (_ & _ & I1). rewrite (I1 _ _ H).
    destruct (enc_ok sch (fun t => proj2 (S t))) as (_ & _ & E). rewrite (E _ _ H (proj2 (S t))). now rewrite app_nil_r.
  - destruct (init_fields sch (sch t) m) eqn:E; [|reflexivity].
    destruct (strict_init sch) as (_ & _ & I1). elim H. now apply I1.
Qed.

(** ** A reader and a writer with different versions of the types, and anything else after the
    message: the reader gets the fields it shares with the writer. *)
Theorem C90_versions : forall writer reader common t m had extra bs,
  versions writer reader common -> msg_ok true writer (writer t) m -> msg_ok false reader (reader t) had ->
  pt_encode writer t m = Ok bs -> zlen bs < 2 ^ 64 ->
  small extra -> bytes_ok (elems extra) -> (forall f, In f (reader t) -> Forall (fun e => fst e <> f_number f) extra) ->
  pt_decode reader t had (bs ++ elems extra) = Ok (got_fields common reader (common t) had m).
Proof.
  intros writer reader common t m had extra bs V O OH E L SX BX WX.
  assert (KW : forall t, Forall known (writer t)).
  { intros u. destruct (V u) as (newer & older & EW & _ & _ & K & _). rewrite EW. rewrite !Forall_app in *. tauto. }
  assert (Eb : bs = elems (msg_elems writer (writer t) m)).
  { unfold pt_encode in E. rewrite isInit in E. destruct (init_fields writer (writer t) m); [|discriminate].
    destruct (enc_ok writer KW) as (_ & _ & En). rewrite (En _ _ O (KW t)), app_nil_r in E. now inversion E. }
  destruct (msg_bytes writer KW) as (_ & _ & MBy). specialize (MBy _ _ O (KW t)). rewrite <- Eb in MBy.
  destruct (V t) as (newer & older & EW & ER & ND & KN & CR & RQ).
  destruct (read_all writer reader common V) as (_ & _ & RA). destruct (RA _ _ O) as [P _].
  set (inp := bs ++ elems extra).
  assert (A : At inp 0 (zlen inp) (msg_elems writer (writer t) m ++ extra)).
  { unfold inp. rewrite Eb, <- elems_app. apply At_whole. apply small_app. split; [|assumption].
    apply msg_small; [apply KW|now rewrite <- Eb]. }
  assert (B : bytes_ok inp) by (apply bytes_ok_app; auto).
  rewrite ER in OH, WX.
  destruct (P (common t) newer older (length inp) inp 0 (zlen inp) extra had EW ND KN RQ WX) as (off' & D & _); auto.
  { rewrite <- Eb. unfold inp. rewrite app_length. unfold zlen. lia. }
  unfold pt_decode. cbn [dec_fields]. rewrite ER. fold inp. now rewrite D.
Qed.

(** ** One version of the types: decoding what was encoded. *)
Lemma same_version : forall sch, schema_ok sch -> versions sch sch sch.
Proof.
  intros sch S t. destruct (S t) as [ND K]. exists [], []. rewrite !app_nil_r. repeat split; auto; constructor.
Qed.

Theorem C90_round_trip : forall sch t m bs, schema_ok sch -> msg_ok true sch (sch t) m ->
  pt_encode sch t m = Ok bs -> zlen bs < 2 ^ 64 ->
  pt_decode sch t (fresh (sch t)) bs = Ok (got_fields sch sch (sch t) (fresh (sch t)) m).
Proof.
  intros sch t m bs S O E L. rewrite <- (app_nil_r bs). change (@nil Z) with (elems []).
  apply (C90_versions sch sch sch t m (fresh (sch t)) [] bs); auto using same_version, fresh_ok; try (intros; constructor).
Qed.

(** ** What comes back is the message itself exactly when it is plain. *)
Lemma utf8_same : forall s, text s -> (utf8 s = s <-> Forall (fun c => c < 128) s).
Proof.
  assert (X : forall s b, text s -> utf8_encode s = Ok b ->
    (length s <= length b)%nat /\ (length b = length s -> Forall (fun c => c < 128) s) /\ (Forall (fun c => c < 128) s -> b = s)).
  { induction s as [|c s IH]; intros b T E.
    - inversion E. repeat split; auto.
    - inversion T as [|? ? Tc Ts]; subst. cbn [utf8_encode] in E. destruct (utf8_encode s) as [r|] eqn:Er; [|discriminate E]. cbn [rbind] in E.
      destruct (IH r Ts eq_refl) as (L & A & B).
      destruct (c <? 128) eqn:C1.
      { inversion E; subst. cbn [length]. split; [lia|]. split.
        - intros EL. constructor; [lia|apply A; lia].
        - intros F. inversion F; subst. now rewrite B. }
      assert (Y : (S (length s) < length b)%nat).
      { destruct (c <? 2048); [inversion E; subst; cbn [length]; lia|].
        destruct ((55296 <=? c) && (c <=? 57343)); [discriminate E|].
        destruct (c <? 65536); inversion E; subst; cbn [length]; lia. }
      cbn [length]. split; [lia|]. split; [intros; lia|]. intros F. inversion F; subst. lia. }
  intros s T. unfold utf8. destruct (utf8_encode_ok s T) as (b & E & _). rewrite E.
  destruct (X s b T E) as (L & A & B). split; intros H; [apply A; congruence|auto].
Qed.

Lemma touched_exists : forall m, touched m = true <-> Exists (fun vs => vs <> []) m.
Proof.
  intros m. unfold touched. rewrite existsb_exists, Exists_exists. split; intros (x & Hx & H); exists x; (split; [assumption|]).
  - destruct x; [discriminate H|discriminate].
  - destruct x; [congruence|reflexivity].
Qed.

Section Plain.
Variable sch : schema.

Lemma got_rep : forall f v had, f_label f = LRepeated -> got sch sch f had v = had ++ got sch sch f [] v.
Proof.
  intros f v had L. destruct v as [m|n|b|s|b].
  - destruct (f_type f) eqn:E; [rewrite !(got_msg _ _ _ _ _ _ E), L; reflexivity|..]; cbn [got]; rewrite E, L; reflexivity.
  - cbn [got]. destruct (f_type f); rewrite L; reflexivity.
  - cbn [got]. destruct (f_type f); rewrite L; reflexivity.
  - cbn [got]. destruct (f_type f); rewrite L; reflexivity.
  - cbn [got]. destruct (f_type f); destruct b; rewrite L; cbn [put app]; try reflexivity; now rewrite app_nil_r.
Qed.

Lemma got_short : forall f v, (length (got sch sch f [] v) <= 1)%nat.
Proof.
  intros f v. destruct v as [m|n|b|s|b].
  - destruct (f_type f) eqn:E.
    { rewrite (got_msg _ _ _ _ _ _ E). cbv zeta. destruct (f_label f); cbn [is_nil negb orb app]; try (destruct (touched _)); cbn [length]; lia. }
    all: cbn [got]; rewrite E; unfold put; destruct (f_label f); cbn [length app]; lia.
  - cbn [got]. unfold put. destruct (f_type f), (f_label f); cbn [length app]; lia.
  - cbn [got]. unfold put. destruct (f_type f), (f_label f); cbn [length app]; lia.
  - cbn [got]. unfold put. destruct (f_type f), (f_label f); cbn [length app]; lia.
  - cbn [got]. unfold put. destruct (f_type f), (f_label f), b; cbn [length app]; lia.
Qed.

Lemma got_values_rep : forall f vs had, f_label f = LRepeated ->
  got_values sch sch f had vs = had ++ flat_map (got sch sch f []) vs.
Proof.
  intros f vs. induction vs as [|v vs IH]; intros had L; cbn [got_values flat_map]; [now rewrite app_nil_r|].
  rewrite IH, (got_rep _ _ _ L) by assumption. now rewrite app_assoc.
Qed.

Lemma flat_short : forall (g : pval -> list pval) vs, (forall v, (length (g v) <= 1)%nat) ->
  (length (flat_map g vs) <= length vs)%nat.
Proof. intros g vs H. induction vs as [|v vs IH]; [reflexivity|]. cbn [flat_map]. rewrite app_length. specialize (H v). cbn [length]. lia. Qed.

Lemma plain_iff :
  (forall f v, val_ok true sch f v -> (got sch sch f [] v = [v] <-> val_plain sch f v)) /\
  (forall f vs, vals_ok true sch f vs -> label_ok true f vs -> (got_values sch sch f [] vs = vs <-> vals_plain sch f vs)) /\
  (forall fs m, msg_ok true sch fs m -> (got_fields sch sch fs (fresh fs) m = m <-> msg_plain sch fs m)).
Proof.
  apply ok_ind.
  - intros f t m E _ IH. rewrite (got_msg _ _ _ _ _ _ E). cbv zeta. cbn [current is_nil negb orb app]. split; intros H.
    + apply (VP_msg _ _ t); [assumption| |].
      * apply IH. destruct (f_label f); [destruct (touched _)|destruct (touched _)|]; congruence.
      * destruct (f_label f); [right|right|now left]; destruct (touched _) eqn:T; try discriminate H; apply touched_exists in T; injection H as HH; rewrite HH in T; exact T.
    + inversion H as [? t' ? E' P LX| | | |]; subst. rewrite E in E'. inversion E'; subst t'. apply IH in P. rewrite P.
      destruct LX as [->|X]; [reflexivity|]. apply touched_exists in X. rewrite X. destruct (f_label f); reflexivity.
  - intros f n E H. cbn [got]. rewrite E. split; intros; [constructor|]. unfold put. destruct (f_label f); reflexivity.
  - intros f n E H. cbn [got]. rewrite E. split; intros; [constructor|]. unfold put. destruct (f_label f); reflexivity.
  - intros f l n E Hi H. cbn [got]. rewrite E. split; intros; [constructor|]. unfold put. destruct (f_label f); reflexivity.
  - intros f b E H. cbn [got]. rewrite E. split; intros; [constructor|]. unfold put. destruct (f_label f); reflexivity.
  - intros f s E H. cbn [got]. rewrite E. split; intros G.
    + constructor. apply utf8_same; [assumption|]. unfold put in G. destruct (f_label f); cbn [app] in G; congruence.
    + inversion G as [| | |? ? A|]; subst. apply utf8_same in A; [|assumption]. rewrite A. unfold put. destruct (f_label f); reflexivity.
  - intros f b E. cbn [got]. rewrite E. split; intros G.
    + constructor. destruct b; [now right|left]. destruct (f_label f); [discriminate G|reflexivity|discriminate G].
    + inversion G as [| | | |? ? A]; subst. destruct A as [A| ->].
      * rewrite A. destruct b; reflexivity.
      * unfold put. destruct (f_label f); reflexivity.
  - intros f _. cbn [got_values]. split; [constructor|reflexivity].
  - intros f v vs Ov IH1 Ovs IH2 Lb. split; intros H.
    + unfold label_ok in *. destruct (f_label f) eqn:Ef.
      * destruct vs; [|cbn [length] in Lb; lia]. cbn [got_values] in H. apply IH1 in H. constructor; [assumption|constructor].
      * destruct vs; [|cbn [length] in Lb; lia]. cbn [got_values] in H. apply IH1 in H. constructor; [assumption|constructor].
      * rewrite got_values_rep in H by assumption. cbn [flat_map app] in H.
        pose proof (got_short f v) as L1. pose proof (flat_short (got sch sch f []) vs (got_short f)) as L2.
        assert (Len : length (got sch sch f [] v ++ flat_map (got sch sch f []) vs) = length (v :: vs)) by now rewrite H.
        rewrite app_length in Len. cbn [length] in Len.
        destruct (got sch sch f [] v) as [|x [|? ?]] eqn:G; cbn [length] in *; try lia. cbn [app] in H. injection H as -> H2.
        constructor; [now apply IH1|]. apply (IH2 Logic.I). rewrite got_values_rep by assumption. exact H2.
    + inversion H as [|? ? ? Pv Pvs]; subst. apply IH1 in Pv.
      unfold label_ok in *. destruct (f_label f) eqn:Ef.
      * destruct vs; [|cbn [length] in Lb; lia]. exact Pv.
      * destruct vs; [|cbn [length] in Lb; lia]. exact Pv.
      * apply IH2 in Pvs; [|exact Logic.I]. rewrite got_values_rep in * by assumption. cbn [flat_map app] in *. rewrite Pv. cbn [app]. now f_equal.
  - cbn [got_fields fresh map]. split; [constructor|reflexivity].
  - intros f vs fs m Lb Ovs IH1 Om IH2. cbn [got_fields]. change (fresh (f :: fs)) with ([] :: fresh fs). cbn [hd tl]. split; intros H.
    + injection H as H1 H2. constructor; [exact (proj1 (IH1 Lb) H1)|exact (proj1 IH2 H2)].
    + inversion H as [|? ? ? ? P1 P2]; subst. apply IH1 in P1; [|assumption]. apply IH2 in P2. congruence.
Qed.
End Plain.

Theorem C90_faithful : forall sch t m bs, schema_ok sch -> msg_ok true sch (sch t) m ->
  pt_encode sch t m = Ok bs -> zlen bs < 2 ^ 64 ->
  (pt_decode sch t (fresh (sch t)) bs = Ok m <-> msg_plain sch (sch t) m).
Proof.
  intros sch t m bs S O E L. rewrite (C90_round_trip sch t m bs S O E L).
  destruct (plain_iff sch) as (_ & _ & P). rewrite <- (P _ _ O). split; intros H; [injection H as H; exact H|now rewrite H].
Qed.

(** Two plain messages with the same encoding are the same message. *)
Theorem C90_injective : forall sch t m1 m2 bs, schema_ok sch ->
  msg_ok true sch (sch t) m1 -> msg_plain sch (sch t) m1 -> msg_ok true sch (sch t) m2 -> msg_plain sch (sch t) m2 ->
  pt_encode sch t m1 = Ok bs -> pt_encode sch t m2 = Ok bs -> zlen bs < 2 ^ 64 -> m1 = m2.
Proof.
  intros sch t m1 m2 bs S O1 P1 O2 P2 E1 E2 L.
  apply (C90_faithful sch t m1 bs S O1 E1 L) in P1. apply (C90_faithful sch t m2 bs S O2 E2 L) in P2. congruence.
Qed.

(** ** Any bytes: decoding ends, with a message of the type or one of the two exceptions a caller
    expects. *)
Definition fine {A} (Q : A -> Z -> Prop) (inp : bytes) (off : Z) (r : res (A * Z)) : Prop :=
  match r with
  | Ok (a, off') => off <= off' <= zlen inp /\ Q a off'
  | Err e => decode_error e
  end.

Lemma fine_bind : forall A B (Q : A -> Z -> Prop) (R : B -> Z -> Prop) (m : dec A) (k : A -> dec B) inp off,
  fine Q inp off (m inp off) ->
  (forall a off', off <= off' <= zlen inp -> Q a off' -> fine R inp off' (k a inp off')) ->
  fine R inp off (dbind m k inp off).
Proof.
  intros A B Q R m k inp off H K. unfold dbind. unfold fine in H. destruct (m inp off) as [[a off']|e]; [|exact H].
  destruct H as [H1 H2]. specialize (K a off' H1 H2). unfold fine in *. destruct (k a inp off') as [[b o]|e]; [|exact K].
  destruct K. split; [lia|assumption].
Qed.
Lemma fine_dsafe : forall A (m : dec A) Q inp off, dsafe m Q -> bytes_ok inp -> 0 <= off <= zlen inp ->
  fine (Q inp off) inp off (m inp off).
Proof. intros A m Q inp off H B O. specialize (H inp off B O). unfold fine. destruct (m inp off) as [[a o]|e]; auto. Qed.
Lemma fine_weaken : forall A (Q R : A -> Z -> Prop) inp off r, fine Q inp off r ->
  (forall a o, off <= o <= zlen inp -> Q a o -> R a o) -> fine R inp off r.
Proof. intros A Q R inp off r H W. unfold fine in *. destruct r as [[a o]|e]; [|exact H]. destruct H. split; [assumption|auto]. Qed.
Lemma fine_ret : forall A (Q : A -> Z -> Prop) (a : A) inp off, 0 <= off <= zlen inp -> Q a off -> fine Q inp off (dret a inp off).
Proof. intros. unfold fine, dret. split; [lia|assumption]. Qed.

Section Safe.
Variable sch : schema.
Hypothesis KN : forall t, Forall known (sch t).

Definition vok (f : field) (v : pval) : Prop := val_ok false sch f v.

Lemma store_fine : forall f v inp off (Q : pval -> Z -> Prop), 0 <= off <= zlen inp ->
  (d_store f v inp off = Ok (v, off) -> Q v off) -> fine Q inp off (d_store f v inp off).
Proof.
  intros f v inp off Q O H. unfold d_store in *. destruct (f_type f), v; unfold derr, dret in *;
    try (split; [lia|auto]);
    match goal with |- context [if ?c then _ else _] => destruct c end; try (split; [lia|auto]); now left.
Qed.

Lemma value_fine : forall f e inp off, known f -> (forall t, f_type f <> TMessage t) -> bytes_ok inp -> 0 <= off <= zlen inp ->
  fine (fun v o => vok f v /\ (d_peekType (f_number f) e inp off = Ok (true, off) -> off + 2 <= o)) inp off (dec_value f e inp off).
Proof.
  intros f e inp off (KO & _ & KE) NM B O. unfold dec_value.
  assert (NNcase : f_type f = TUint32 \/ f_type f = TUint64 \/ (exists l, f_type f = TEnum l) ->
    fine (fun v o => vok f v /\ (d_peekType (f_number f) e inp off = Ok (true, off) -> off + 2 <= o)) inp off
      (dbind (n <~ d_readNonNegativeIntegerTlv (f_number f) ;; dret (VInt n))%dec (d_store f) inp off)).
  { intros C. apply (fine_bind _ _ (fun v o => exists n, v = VInt n /\ u64 n /\ off + 2 <= o)).
    - eapply fine_bind; [apply (fine_dsafe _ _ _ _ _ (dsafe_nnTlv (f_number f)) B O)|]. intros n o Ho [H1 H2]. apply fine_ret; [lia|eauto].
    - intros v o Ho (n & -> & Un & Lo). apply store_fine; [lia|]. intros St. split; [|auto]. unfold d_store, derr, dret in St. unfold u64 in Un.
      destruct C as [C|[C|(l & C)]]; rewrite C in St.
      + destruct ((0 <=? n) && (n <? 2 ^ 32)) eqn:X; [|discriminate St]. apply VO_u32; [assumption|lia].
      + apply VO_u64; [assumption|lia].
      + destruct (existsb (Z.eqb n) l) eqn:X; [|discriminate St]. apply existsb_exists in X. destruct X as (y & Hy & Ey).
        assert (n = y) by lia. subst y. apply (VO_enum _ _ _ l); auto. specialize (KE l n C Hy). lia. }
  destruct (f_type f) eqn:E; try (apply NNcase; eauto).
  - now specialize (NM t).
  - apply (fine_bind _ _ (fun v o => exists b, v = VBytes b /\ bytes_ok b /\ off + 2 <= o)).
    + eapply fine_bind; [apply (fine_dsafe _ _ _ _ _ (dsafe_blob_from (f_number f)) B O)|]. intros b o Ho (H1 & H2 & _). apply fine_ret; [lia|eauto].
    + intros v o Ho (b & -> & Bb & Lo). apply store_fine; [lia|]. intros _. split; [|auto]. now apply VO_bytes.
  - apply (fine_bind _ _ (fun v o => exists b, v = VStr b /\ bytes_ok b /\ off + 2 <= o)).
    + eapply fine_bind; [apply (fine_dsafe _ _ _ _ _ (dsafe_blob_from (f_number f)) B O)|]. intros b o Ho (H1 & H2 & _). apply fine_ret; [lia|eauto].
    + intros v o Ho (b & -> & Bb & Lo). apply store_fine; [lia|]. intros _. split; [|auto]. apply VO_str; [assumption|].
      unfold text. eapply Forall_impl; [|exact Bb]. intros c Hc. unfold is_byte in Hc. unfold scalar. lia.
  - apply (fine_bind _ _ (fun v o => (exists b, v = VBool b) /\ (d_peekType (f_number f) e inp off = Ok (true, off) -> off + 2 <= o))).
    + apply (fine_bind _ _ (fun (b : bool) o => d_peekType (f_number f) e inp off = Ok (true, off) -> off + 2 <= o)).
      * unfold d_readBooleanTlv. pose proof (fine_dsafe _ _ _ _ _ (dsafe_peek (f_number f) e) B O) as P. unfold dbind at 1. unfold fine in P.
        destruct (d_peekType (f_number f) e inp off) as [[pk o]|x] eqn:Pk; [|exact P].
        destruct P as [P1 [-> P3]]. destruct pk.
        -- eapply fine_bind; [apply (fine_dsafe _ _ _ _ _ (dsafe_readTL (f_number f)) B O)|]. intros n o Ho (H1 & H2 & H3).
           unfold dbind, d_skip. unfold fine, dret. split; [lia|]. intros _. lia.
        -- apply fine_ret; [lia|]. intros X. inversion X.
      * intros b o Ho Hb. apply fine_ret; [lia|eauto].
    + intros v o Ho [(b & ->) Lo]. apply store_fine; [lia|]. intros _. split; [|auto]. now apply VO_bool.
  - congruence.
Qed.

Definition sub_fine (n : nat) (sub : list field -> pmsg -> Z -> dec pmsg) : Prop :=
  forall t m e inp off, msg_ok false sch (sch t) m -> bytes_ok inp -> 0 <= off <= zlen inp -> zlen inp - off < Z.of_nat n ->
  fine (fun m' _ => msg_ok false sch (sch t) m') inp off (sub (sch t) m e inp off).

Lemma nested_fine : forall n sub f t base inp off A (k : pmsg -> dec A) (Q : A -> Z -> Prop),
  sub_fine n sub -> f_type f = TMessage t -> msg_ok false sch (sch t) base -> bytes_ok inp -> 0 <= off <= zlen inp ->
  zlen inp - off < Z.of_nat (S n) ->
  (forall m o, msg_ok false sch (sch t) m -> off + 2 <= o <= zlen inp -> fine Q inp o (k m inp o)) ->
  fine Q inp off ((inner <~ d_readNestedTlvsStart (f_number f) ;;
                   m <~ sub (sch t) base inner ;;
                   d_finishNestedTlvs inner false ;;; k m)%dec inp off).
Proof.
  intros n sub f t base inp off A k Q HS E MB B O L HK.
  eapply fine_bind; [apply (fine_dsafe _ _ _ _ _ (dsafe_readNested (f_number f)) B O)|]. intros e o Ho (H1 & H2).
  eapply fine_bind; [apply HS; auto; lia|]. intros m o2 Ho2 Hm.
  eapply fine_bind; [apply (fine_dsafe _ _ _ inp o2 (dsafe_finish e false) B ltac:(lia))|]. intros [] o3 Ho3 _.
  apply HK; [assumption|lia].
Qed.

Lemma vals_snoc : forall f vs v, vals_ok false sch f vs -> vok f v -> vals_ok false sch f (vs ++ [v]).
Proof. intros f vs v H Hv. induction vs as [|x vs IH]; cbn [app]; [constructor; [assumption|constructor]|]. inversion H; subst. constructor; auto. Qed.

Lemma repeat_fine : forall f e one inp lo, bytes_ok inp -> 0 <= lo ->
  (forall off, lo <= off <= zlen inp -> d_peekType (f_number f) e inp off = Ok (true, off) -> fine (fun v o => vok f v /\ off + 2 <= o) inp off (one inp off)) ->
  forall fuel vs off, vals_ok false sch f vs -> lo <= off <= zlen inp -> zlen inp - off < Z.of_nat fuel ->
  fine (fun vs' _ => vals_ok false sch f vs') inp off (dec_repeat fuel one (f_number f) e vs inp off).
Proof.
  intros f e one inp lo B Lo0 H1 fuel. induction fuel as [|fuel IH]; intros vs off Ov O L; [lia|].
  cbn [dec_repeat]. pose proof (fine_dsafe _ _ _ inp off (dsafe_peek (f_number f) e) B) as P. specialize (P ltac:(lia)). unfold dbind at 1. unfold fine in P.
  destruct (d_peekType (f_number f) e inp off) as [[pk o]|x] eqn:Pk; [|exact P]. destruct P as [P1 [-> _]]. destruct pk.
  - eapply fine_bind; [apply (H1 off O Pk)|]. intros v o Ho [Hv Lo]. apply IH; [now apply vals_snoc|lia|lia].
  - apply fine_ret; [lia|assumption].
Qed.

Lemma field_fine : forall n sub f vs e inp off, sub_fine n sub -> known f -> label_ok false f vs -> vals_ok false sch f vs ->
  bytes_ok inp -> 0 <= off <= zlen inp -> zlen inp - off < Z.of_nat (S n) ->
  fine (fun vs' _ => label_ok false f vs' /\ vals_ok false sch f vs') inp off (dec_field sub sch f vs e inp off).
Proof.
  intros n sub f vs e inp off HS Kf Lb Ov B O L. unfold dec_field.
  assert (Single : forall v, f_label f <> LRepeated -> vok f v -> label_ok false f [v] /\ vals_ok false sch f [v]).
  { intros v NR Hv. split; [|constructor; [assumption|constructor]]. unfold label_ok. destruct (f_label f); cbn [length]; lia. }
  assert (NoneOk : label_ok false f [] /\ vals_ok false sch f []).
  { split; [|constructor]. unfold label_ok. destruct (f_label f); cbn [length]; lia. }
  assert (Body : f_label f <> LRepeated ->
    fine (fun vs' _ => label_ok false f vs' /\ vals_ok false sch f vs') inp off
      (match f_type f with
       | TMessage t =>
            inner <~ d_readNestedTlvsStart (f_number f) ;;
            m <~ sub (sch t) (current (sch t) vs) inner ;;
            d_finishNestedTlvs inner false ;;;
            dret (if negb (is_nil vs) || touched m then [VMsg m] else [])
       | _ => v <~ dec_value f e ;; dret [v]
       end%dec inp off)).
  { intros NR.
    assert (Val : (forall t, f_type f <> TMessage t) -> fine (fun vs' _ => label_ok false f vs' /\ vals_ok false sch f vs') inp off
       ((v <~ dec_value f e ;; dret [v])%dec inp off)).
    { intros NM. eapply fine_bind; [apply (value_fine f e inp off Kf NM B O)|]. intros v o Ho [Hv _]. apply fine_ret; [lia|]. now apply Single. }
    destruct (f_type f) eqn:E; try (apply Val; intros; discriminate).
    apply (nested_fine n sub f t _ inp off _ _ _ HS E); auto.
    - destruct vs as [|v vs]; [apply fresh_ok|]. inversion Ov as [|? ? ? Hv _]; subst. inversion Hv; subst; try congruence. cbn [current]. congruence.
    - intros m o Hm Ho. apply fine_ret; [lia|]. destruct (negb (is_nil vs) || touched m); [|exact NoneOk]. apply Single; [assumption|]. now apply (VO_msg _ _ _ t). }
  destruct (f_label f) eqn:Ef.
  - pose proof (fine_dsafe _ _ _ _ _ (dsafe_peek (f_number f) e) B O) as P. unfold dbind at 1. unfold fine in P.
    destruct (d_peekType (f_number f) e inp off) as [[pk o]|x] eqn:Pk; [|exact P]. destruct P as [P1 [-> _]]. destruct pk; [apply Body; discriminate|].
    apply fine_ret; [lia|auto].
  - unfold dbind at 1, dret at 1. apply Body. discriminate.
  - eapply fine_weaken; [apply (repeat_fine f e _ inp off)|]; auto; [lia| |lia| |].
    + intros off1 O1 Pk. destruct (f_type f) eqn:E.
      { apply (nested_fine n sub f t _ inp off1 _ _ _ HS E (fresh_ok _ _) B ltac:(lia) ltac:(lia)). intros m o Hm Ho. apply fine_ret; [lia|].
        split; [now apply (VO_msg _ _ _ t)|lia]. }
      all: assert (NM : forall t, f_type f <> TMessage t) by (rewrite E; intros; discriminate);
        eapply fine_weaken; [apply (value_fine f e inp off1 Kf NM B); lia|]; intros v o Ho [Hv Lo]; split; auto.
    + unfold zlen in *. lia.
    + intros vs' o Ho Hv. split; [|assumption]. unfold label_ok. now rewrite Ef.
Qed.

Lemma list_fine : forall n sub fs m e inp off, sub_fine n sub -> Forall known fs -> msg_ok false sch fs m ->
  bytes_ok inp -> 0 <= off <= zlen inp -> zlen inp - off < Z.of_nat (S n) ->
  fine (fun m' _ => msg_ok false sch fs m') inp off (dec_list sub sch fs m e inp off).
Proof.
  intros n sub fs. induction fs as [|f fs IH]; intros m e inp off HS K O B Ho L; cbn [dec_list].
  - apply fine_ret; [lia|constructor].
  - inversion O as [|? vs ? m' Lb Ov Om]; subst. inversion K as [|? ? Kf Kfs]; subst. cbn [hd tl].
    eapply fine_bind; [apply (field_fine n sub f vs e inp off HS Kf Lb Ov B Ho L)|]. intros vs' o Ho1 [L1 O1].
    eapply fine_bind; [apply (IH m' e inp o HS Kfs Om B); lia|]. intros m2 o2 Ho2 Om2. apply fine_ret; [lia|]. now constructor.
Qed.

Lemma fields_fine : forall n, sub_fine n (dec_fields n sch).
Proof.
  induction n as [|n IH]; intros t m e inp off O B Ho L; [lia|]. cbn [dec_fields]. now apply (list_fine n).
Qed.
End Safe.

Theorem C90_decode_safe : forall sch t had input, schema_ok sch -> msg_ok false sch (sch t) had -> bytes_ok input ->
  match pt_decode sch t had input with
  | Ok m => msg_ok false sch (sch t) m
  | Err e => e = ValueError \/ e = RuntimeError
  end.
Proof.
  intros sch t had input S O B. unfold pt_decode.
  pose proof (fields_fine sch (fun t => proj2 (S t)) (Datatypes.S (length input)) t had (zlen input) input 0 O B) as F.
  assert (L : zlen input = Z.of_nat (length input)) by reflexivity. specialize (F ltac:(lia) ltac:(lia)). unfold fine in F.
  destruct (dec_fields (Datatypes.S (length input)) sch (sch t) had (zlen input) input 0) as [[m o]|e]; [exact (proj2 F)|exact F].
Qed.

(** ** Names. A message "repeated bytes component = 8" in a field number 7 is encoded as the Name
    that toName gives for it. *)
Theorem C90_name_field : forall sch t l cs bs, sch t = [Field 8 LRepeated TBytes] ->
  name_ok (pt_toName cs) ->
  (enc_val sch (Field 7 l (TMessage t)) (VMsg [map VBytes cs]) [] = Ok bs <-> fst (enc_name (pt_toName cs) []) = bs) /\
  map c_value (pt_toName cs) = cs /\ Forall (fun c => c_isGeneric c = true) (pt_toName cs).
Proof.
  intros sch t l cs bs E N. split.
  - rewrite (enc_msg sch (Field 7 l (TMessage t)) t) by reflexivity. rewrite E. cbn [enc_fields rbind].
    assert (X : forall out, enc_values sch (Field 8 LRepeated TBytes) (map VBytes cs) out = Ok (elems (map comp_el (pt_toName cs)) ++ out)).
    { intros out. unfold pt_toName. induction cs as [|c cs IH]; [reflexivity|]. cbn [map enc_values].
      rewrite IH by (now inversion N). cbn [rbind enc_val f_type f_number]. unfold e_writeBlobTlv, e_writeBuffer.
      rewrite wtl by (try lia; apply zlen_nonneg). change (comp_el (c_generic c)) with (8, c). rewrite elems_cons. unfold tlv. rewrite <- !app_assoc. reflexivity. }
    rewrite X. cbn [rbind f_number]. rewrite (enc_name_ok _ [] N). cbn [fst]. rewrite !app_nil_r, zlen_nil, Z.sub_0_r.
    rewrite wtl by (try lia; apply zlen_nonneg). unfold name_el. rewrite elems_cons, elems_nil, app_nil_r. unfold tlv.
    split; intros H; [now injection H|now rewrite H].
  - unfold pt_toName. split.
    + rewrite map_map. cbn [c_generic c_value]. apply map_id.
    + apply Forall_forall. intros c Hc. apply in_map_iff in Hc. destruct Hc as (b & <- & _). reflexivity.
Qed.

(** ** What does not hold. *)
(** Message 0: an optional string 8, an optional bool 9, an optional sub-message 10 of type 1, a
    repeated uint32 11. Message 1: an optional enum 8, a required bool 9. *)
Definition ex_sch : schema := fun t =>
  if t =? 0 then [Field 8 LOptional TString; Field 9 LOptional TBool; Field 10 LOptional (TMessage 1); Field 11 LRepeated TUint32]
  else if t =? 1 then [Field 8 LOptional (TEnum [0; 5; 300]); Field 40 LOptional (TMessage 1)]
  else [].

Lemma ex_sch_ok : schema_ok ex_sch.
Proof.
  assert (K : forall n l ty, ty <> TOther -> 0 < n < 2 ^ 29 -> (forall d, ty <> TEnum d) -> known (Field n l ty)).
  { intros n l ty H1 H2 H3. split; [exact H1|]. split; [exact H2|]. cbn [f_type]. intros d x E. now specialize (H3 d). }
  intros t. unfold ex_sch. destruct (t =? 0); [|destruct (t =? 1)].
  - split; [cbn [map f_number]; repeat constructor; cbn [In]; lia|].
    repeat (apply Forall_cons; [apply K; [discriminate|lia|intros; discriminate]|]). constructor.
  - split; [cbn [map f_number]; repeat constructor; cbn [In]; lia|].
    apply Forall_cons; [|apply Forall_cons; [apply K; [discriminate|lia|intros; discriminate]|constructor]].
    split; [discriminate|]. split; [cbn [f_number]; lia|]. cbn [f_type]. intros l n E. injection E as <-. cbn [In]. lia.
  - split; constructor.
Qed.

(** Text outside ASCII comes back as other text. *)
Theorem C90_text_refuted : exists m bs m', msg_ok true ex_sch (ex_sch 0) m /\ pt_encode ex_sch 0 m = Ok bs /\
  pt_decode ex_sch 0 (fresh (ex_sch 0)) bs = Ok m' /\ hd [] m = [VStr [233]] /\ hd [] m' = [VStr [195; 169]].
Proof.
  exists [[VStr [233]]; []; []; []]. eexists. eexists.
  split; [|split; [vm_compute; reflexivity|split; [vm_compute; reflexivity|split; reflexivity]]].
  change (ex_sch 0) with [Field 8 LOptional TString; Field 9 LOptional TBool; Field 10 LOptional (TMessage 1); Field 11 LRepeated TUint32].
  apply MO_cons; [cbn; lia|apply VS_cons; [apply VO_str; [reflexivity|apply Forall_cons; [unfold scalar; lia|apply Forall_nil]]|apply VS_nil]|].
  do 3 (apply MO_cons; [cbn; lia|apply VS_nil|]). apply MO_nil.
Qed.

(** Sending false over a true leaves the true: an optional bool can be set but not reset. *)
Theorem C90_false_refuted : exists m had bs m', pt_encode ex_sch 0 m = Ok bs /\
  pt_decode ex_sch 0 had bs = Ok m' /\ nth 1 m [] = [VBool false] /\ nth 1 m' [] = [VBool true].
Proof.
  exists [[]; [VBool false]; []; []], [[]; [VBool true]; []; []]. eexists. eexists.
  split; [vm_compute; reflexivity|split; [vm_compute; reflexivity|split; reflexivity]].
Qed.

(** The order of the elements matters, unlike in Protobuf: an element of an earlier field after one
    of a later field is dropped, without an error. *)
Theorem C90_order_refuted : exists a b,
  pt_decode ex_sch 0 (fresh (ex_sch 0)) (a ++ b) = Ok [[VStr [104; 105]]; []; []; [VInt 7]] /\
  pt_decode ex_sch 0 (fresh (ex_sch 0)) (b ++ a) = Ok [[]; []; []; [VInt 7]].
Proof. exists [8; 2; 104; 105], [11; 1; 7]. split; vm_compute; reflexivity. Qed.

(** An empty sub-message is lost, and with it, when its field is required, the message: what was
    encoded cannot be encoded again. *)
Definition ex_req : schema := fun t => if t =? 0 then [Field 8 LRequired (TMessage 1)] else if t =? 1 then [Field 9 LOptional TBool] else [].
Theorem C90_empty_refuted : exists m bs m', pt_encode ex_req 0 m = Ok bs /\
  pt_decode ex_req 0 (fresh (ex_req 0)) bs = Ok m' /\ pt_encode ex_req 0 m' = Err RuntimeError.
Proof.
  exists [[VMsg [[]]]]. eexists. eexists. split; [vm_compute; reflexivity|split; [vm_compute; reflexivity|vm_compute; reflexivity]].
Qed.

(** ** Examples: a plain nested message meets the hypotheses. *)
Definition ex_msg : pmsg := [[VStr [104; 105]]; [VBool true]; [VMsg [[VInt 300]; [VMsg [[VInt 5]; []]]]]; [VInt 1; VInt 70000]].

Example ex_msg_ok : msg_ok true ex_sch (ex_sch 0) ex_msg.
Proof.
  change (ex_sch 0) with [Field 8 LOptional TString; Field 9 LOptional TBool; Field 10 LOptional (TMessage 1); Field 11 LRepeated TUint32].
  unfold ex_msg.
  apply MO_cons; [cbn; lia|apply VS_cons; [apply VO_str; [reflexivity|repeat (apply Forall_cons; [unfold scalar; lia|]); apply Forall_nil]|apply VS_nil]|].
  apply MO_cons; [cbn; lia|apply VS_cons; [apply VO_bool; reflexivity|apply VS_nil]|].
  apply MO_cons; [cbn; lia|apply VS_cons; [|apply VS_nil]|].
  - apply (VO_msg _ _ _ 1); [reflexivity|]. change (ex_sch 1) with [Field 8 LOptional (TEnum [0; 5; 300]); Field 40 LOptional (TMessage 1)].
    apply MO_cons; [cbn; lia|apply VS_cons; [apply (VO_enum _ _ _ [0; 5; 300]); [reflexivity|cbn; lia|lia]|apply VS_nil]|].
    apply MO_cons; [cbn; lia|apply VS_cons; [|apply VS_nil]|apply MO_nil].
    apply (VO_msg _ _ _ 1); [reflexivity|]. change (ex_sch 1) with [Field 8 LOptional (TEnum [0; 5; 300]); Field 40 LOptional (TMessage 1)].
    apply MO_cons; [cbn; lia|apply VS_cons; [apply (VO_enum _ _ _ [0; 5; 300]); [reflexivity|cbn; lia|lia]|apply VS_nil]|].
    apply MO_cons; [cbn; lia|apply VS_nil|apply MO_nil].
  - apply MO_cons; [exact Logic.I|apply VS_cons; [apply VO_u32; [reflexivity|lia]|apply VS_cons; [apply VO_u32; [reflexivity|lia]|apply VS_nil]]|apply MO_nil].
Qed.

Example ex_msg_plain : msg_plain ex_sch (ex_sch 0) ex_msg.
Proof.
  destruct (plain_iff ex_sch) as (_ & _ & P). apply (P _ _ ex_msg_ok). vm_compute. reflexivity.
Qed.

Example ex_msg_trip : exists bs, pt_encode ex_sch 0 ex_msg = Ok bs /\ zlen bs < 2 ^ 64 /\
  pt_decode ex_sch 0 (fresh (ex_sch 0)) bs = Ok ex_msg.
Proof. eexists. split; [vm_compute; reflexivity|split; vm_compute; reflexivity]. Qed.

(** An old reader: it does not know field 40 of message 1 (40 is even and above 31) nor anything in it. *)
Definition ex_old : schema := fun t =>
  if t =? 0 then ex_sch 0 else if t =? 1 then [Field 8 LOptional (TEnum [0; 5; 300])] else [].
Example ex_versions : versions ex_sch ex_old ex_old.
Proof.
  intros t. pose proof (ex_sch_ok t) as [ND K]. unfold ex_old, ex_sch in *. destruct (t =? 0) eqn:E0; [|destruct (t =? 1) eqn:E1].
  - exists [], []. cbn [app] in *. split; [reflexivity|]. split; [reflexivity|]. split; [exact ND|]. split; [exact K|]. split; constructor.
  - exists [Field 40 LOptional (TMessage 1)], []. cbn [app] in *. split; [reflexivity|]. split; [reflexivity|]. split; [exact ND|]. split; [exact K|].
    split; [|constructor]. constructor; [|constructor]. unfold critical. cbn [f_number]. intros [X|X]; [lia|discriminate X].
  - exists [], []. cbn [app]. split; [reflexivity|]. split; [reflexivity|]. split; [constructor|]. split; [constructor|]. split; constructor.
Qed.
Example ex_old_reads : exists bs, pt_encode ex_sch 0 ex_msg = Ok bs /\
  pt_decode ex_old 0 (fresh (ex_old 0)) bs = Ok [[VStr [104; 105]]; [VBool true]; [VMsg [[VInt 300]]]; [VInt 1; VInt 70000]].
Proof. eexists. split; [vm_compute; reflexivity|vm_compute; reflexivity]. Qed.

Print Assumptions C90_encode.
Print Assumptions C90_versions.
Print Assumptions C90_round_trip.
Print Assumptions C90_faithful.
Print Assumptions C90_injective.
Print Assumptions C90_decode_safe.
Print Assumptions C90_name_field.
Print Assumptions C90_text_refuted.
Print Assumptions C90_false_refuted.
Print Assumptions C90_order_refuted.
Print Assumptions C90_empty_refuted.
