(** * C24, C25, C26: the cached wire encodings, the cached full name and the nonce follow
    every history of calls. The wire formats are arbitrary. *)
From Verif Require Import Base BaseLemmas TlvModel NameModel WireModel HeapModel HeapSpec HeapProofs HeapProofs2 HeapProofs3 HeapProofs4.

Section Formats.
Variable encD : Z -> data -> res wire.
Variable decD : Z -> data -> bytes -> res (data * (Z * Z)).
Variable partD : Z -> data -> bytes -> option data.
Variable encI : Z -> list Z -> interest -> res wire.
Variable decI : Z -> interest -> bytes -> res (interest * (Z * Z)).
Variable partI : Z -> interest -> bytes -> option (interest * bool).
Variable sha256 : bytes -> bytes.
Notation exec' := (exec encD decD partD encI decI partI sha256).
Notation run' := (run encD decD partD encI decI partI sha256).
Notation history := (seen_history encD decD partD encI decI partI sha256).

(** ** C24 *)
(** After any history, Data.wireEncode returns bytes of the current field values (they encode
    to these bytes, or were decoded from them), raises only what the encoder raises on the
    current values, and changes no field of any object. *)
Theorem C24_data : forall f0 os i f, history (init f0) os -> let s := run' (init f0) os in is_data (s_heap s) i ->
  let r := exec' s (DEncode i f) in
  match snd r with
  | Ok (RWire w) => describesD encD decD f (data_value (s_heap s) i) w
  | Ok _ => False
  | Err e => encD f (data_value (s_heap s) i) = Err e
  end /\
  (forall j, data_value (s_heap (fst r)) j = data_value (s_heap s) j) /\ (forall j n, int_value (s_heap (fst r)) j n = int_value (s_heap s) j n).
Proof.
  intros f0 os i f H s D r. destruct (run_good encD decD partD encI decI partI sha256 os _ (init_good _ _ _ _ f0) H) as [Gd _]. fold s in Gd.
  unfold r. cbn [exec]. unfold is_data in D. unfold is_class. rewrite D. cbn [guard]. unfold wire_op. cbn [fst snd].
  destruct (data_wireEncode encD s i f) as [s' q] eqn:E. destruct (data_encode_spec encD decD encI decI s i f Gd D s' q E) as (_ & _ & Vs & _ & Hr & _). cbn [fst snd].
  split; [|split; intros; [apply data_value_V; auto|apply int_value_V; auto]].
  destruct Hr as [-> |(w & -> & Hw)]; [|exact Hw]. destruct (encD f (data_value (s_heap s) i)) eqn:En; auto. left; auto.
Qed.
Theorem C24_interest : forall f0 os i f rnd, history (init f0) os -> let s := run' (init f0) os in is_int (s_heap s) i ->
  let r := exec' s (IEncode i f rnd) in
  match snd r with
  | Ok (RWire w) => describesI encI decI f (int_now (s_heap s) i) w
  | Ok _ => False
  | Err e => encI f rnd (int_now (s_heap s) i) = Err e
  end /\
  (forall j, data_value (s_heap (fst r)) j = data_value (s_heap s) j) /\ (forall j n, int_value (s_heap (fst r)) j n = int_value (s_heap s) j n) /\
  int_now (s_heap (fst r)) i = int_now (s_heap s) i.
Proof.
  intros f0 os i f rnd H s D r. destruct (run_good encD decD partD encI decI partI sha256 os _ (init_good _ _ _ _ f0) H) as [Gd _]. fold s in Gd.
  unfold r. cbn [exec]. unfold is_int in D. unfold is_class. rewrite D. cbn [guard]. unfold wire_op. cbn [fst snd].
  destruct (int_wireEncode encI s i f rnd) as [s' q] eqn:E. destruct (int_encode_spec encD decD encI decI s i f rnd Gd D s' q E) as (_ & _ & Vs & _ & Hr & _ & Hn). cbn [fst snd].
  split; [|split; [|split]]; intros; [|apply data_value_V; auto|apply int_value_V; auto|unfold int_now; rewrite Hn; apply int_value_V; auto].
  destruct Hr as [-> |(w & -> & Hw)]; [|exact Hw]. destruct (encI f rnd (int_now (s_heap s) i)) eqn:En; auto. left; eauto.
Qed.
(** With the default format, a second wireEncode returns the same bytes (also the random
    nonce bytes of an Interest without a nonce). *)
Theorem C24_interest_again : forall f0 os i rnd rnd' w, history (init f0) os -> let s := run' (init f0) os in
  let r := exec' s (IEncode i (s_default s) rnd) in snd r = Ok (RWire w) -> snd (exec' (fst r) (IEncode i (s_default s) rnd')) = Ok (RWire w).
Proof.
  intros f0 os i rnd rnd' w H s r. destruct (run_good encD decD partD encI decI partI sha256 os _ (init_good _ _ _ _ f0) H) as [Gd _]. fold s in Gd.
  unfold r. cbn [exec]. destruct (is_class (s_heap s) i CInt) eqn:D; cbn [guard snd]; [|discriminate]. apply is_class_true in D. unfold wire_op. cbn [fst snd].
  destruct (int_wireEncode encI s i (s_default s) rnd) as [s' q] eqn:E. destruct (int_encode_spec encD decD encI decI s i _ rnd Gd D s' q E) as (G1 & S1 & Vs & Ed & Hr & Hc & Hn). cbn [fst snd].
  intros Hq. assert (q = Ok w) by (destruct q; congruence). subst q. specialize (Hc w eq_refl eq_refl).
  destruct (cached_gdwe (s_heap s') i w (s_default s) (proj1 G1) Hc) as (h2 & Eg & _). pose proof (step_class _ _ _ _ S1 D) as D1.
  unfold is_class. rewrite D1. cbn [guard snd]. unfold int_wireEncode. rewrite Eg. cbn [fmt_eqb]. rewrite Z.eqb_refl. reflexivity.
Qed.
(** The copy constructors: the copy has the same field values, and (its history being
    another one) all of the above holds for the copy. *)
Theorem C24_copy : forall f0 os i, history (init f0) os -> let s := run' (init f0) os in
  (is_data (s_heap s) i -> exists j, snd (exec' s (DCopy i)) = Ok (RName j) /\ (length (s_heap s) <= j)%nat /\
     is_data (s_heap (fst (exec' s (DCopy i)))) j /\ data_value (s_heap (fst (exec' s (DCopy i)))) j = data_value (s_heap s) i) /\
  (is_int (s_heap s) i -> exists j, snd (exec' s (ICopy i)) = Ok (RName j) /\ (length (s_heap s) <= j)%nat /\
     is_int (s_heap (fst (exec' s (ICopy i)))) j /\ int_now (s_heap (fst (exec' s (ICopy i)))) j = int_now (s_heap s) i).
Proof.
  intros f0 os i H s. destruct (run_good encD decD partD encI decI partI sha256 os _ (init_good _ _ _ _ f0) H) as [Gd _]. fold s in Gd.
  split; intros D; cbn [exec]; unfold is_class; [unfold is_data in D|unfold is_int in D]; rewrite D; cbn [guard]; unfold new_op; cbn [fst snd s_heap].
  - destruct (data_copy_good encD decD encI decI _ i Gd D) as (_ & _ & A & B). exists (snd (data_copy (s_heap s) i)). repeat (split; auto).
    destruct (class_data _ _ D) as (o & E & _). unfold data_copy. destruct (getDefaultWireEncoding (s_heap s) i) as [[h1 w] wf] eqn:Eg.
    pose proof (gdwe_spec encD decD encI decI (s_heap s) i o Gd E h1 w wf Eg) as (G1 & S1 & _). pose proof (step_len _ _ S1) as L1.
    pose proof (n_len _ _ _ (proj1 (alloc_data_spec h1 (data_value (s_heap s) i) (proj1 G1)))) as L2. destruct (alloc_data h1 _) as [h2 k]. cbn [snd fst] in *.
    destruct (match nth_error h1 i with Some o => ca_full (o_cache o) | None => None end); cbn [snd]; [destruct (alloc _ _ _)|]; cbn; lia.
  - destruct (int_copy_good encD decD encI decI _ i Gd D) as (_ & _ & A & B). exists (snd (int_copy (s_heap s) i)). repeat (split; auto).
    destruct (class_int _ _ D) as (o & E & _). unfold int_copy. destruct (int_getNonce (s_heap s) i) as [h0 n] eqn:En.
    destruct (getNonce_spec encD decD encI decI (s_heap s) i o Gd E h0 n En) as (G0 & S0 & _). destruct (S0 i o E) as (o0 & E0 & _). pose proof (step_len _ _ S0) as L0.
    destruct (getDefaultWireEncoding h0 i) as [[h1 w] wf] eqn:Eg.
    pose proof (gdwe_spec encD decD encI decI h0 i o0 G0 E0 h1 w wf Eg) as (G1 & S1 & _). pose proof (step_len _ _ S1) as L1.
    pose proof (n_len _ _ _ (proj1 (alloc_int_spec h1 (int_value h0 i n) (proj1 G1)))) as L2. destruct (alloc_int h1 _) as [h2 k]. cbn [snd fst] in *. lia.
Qed.

Lemma history_app : forall os o s, history s (os ++ [o]) -> history s os /\ seen_call (run' s os) o.
Proof. induction os as [|a os IH]; intros o s; cbn; [tauto|]. intros [H1 H2]. apply IH in H2. tauto. Qed.
Lemma history_app2 : forall os os' s, history s (os ++ os') -> history s os /\ history (run' s os) os'.
Proof. induction os as [|a os IH]; intros os' s; cbn; [tauto|]. intros [H1 H2]. apply IH in H2. tauto. Qed.

(** ** C25 *)
(** getFullName gives the current name plus the digest of what wireEncode returns now, when
    getFullName was not called before; *)
Definition no_full (h : heap) : Prop := forall i o, nth_error h i = Some o -> ca_full (o_cache o) = None.
Definition full_ok (s : state) (i : nat) (f : Z) : Prop :=
  let r := exec' s (DFullName i f) in
  match snd r with
  | Ok (RName n) => exists w c, snd (exec' s (DEncode i f)) = Ok (RWire w) /\ c_fromImplicitSha256Digest (sha256 (fst w)) = Ok c /\
      name_at (s_heap (fst r)) n = d_name (data_value (s_heap s) i) ++ [c]
  | Ok _ => False
  | Err e => snd (exec' s (DEncode i f)) = Err e \/ exists w, snd (exec' s (DEncode i f)) = Ok (RWire w) /\ c_fromImplicitSha256Digest (sha256 (fst w)) = Err e
  end.
Lemma compute_ok : forall s i f, Good encD decD encI decI (s_heap s) -> is_data (s_heap s) i ->
  (let '(h1, w, wf) := getDefaultWireEncoding (s_heap s) i in
   data_getFullName encD sha256 s i f = compute_fullName encD sha256 (State h1 (s_default s)) i f) -> full_ok s i f.
Proof.
  intros s i f Gd D Hc. destruct (class_data _ _ D) as (o & E & _). destruct (getDefaultWireEncoding (s_heap s) i) as [[h1 w] wf] eqn:Eg.
  pose proof (gdwe_spec encD decD encI decI (s_heap s) i o Gd E h1 w wf Eg) as (G1 & S1 & Vs & _). pose proof (step_class _ _ _ _ S1 D) as D1.
  assert (W : snd (data_wireEncode encD (State h1 (s_default s)) i f) = snd (data_wireEncode encD s i f)).
  { assert (X : exists h2, getDefaultWireEncoding h1 i = (h2, w, wf) /\ data_value h2 i = data_value h1 i).
    { revert Eg. unfold getDefaultWireEncoding. destruct (gcc_post_of (s_heap s) i o (proj1 Gd) E) as (GSx & Cx & (o2 & E2 & Ec2) & _).
      destruct (getChangeCount (s_heap s) i) as [ha c]. cbn [fst snd] in *. rewrite E2. destruct (Z.eqb_spec (ca_seen (o_cache o2)) c) as [Eq|Ne]; cbn [negb].
      - intros Eg. inversion Eg; subst ha w wf. pose proof (gcc_clean_id h1 i o2 (proj1 G1) Cx E2) as X. pose proof (V_gcc h1 i) as Vg. destruct (getChangeCount h1 i) as [h2 c2]. destruct X as [X1 X2]. cbn in X1, X2, Vg. subst c2.
        rewrite X1. replace (ca_seen (o_cache o2) =? o_count o2) with true by (symmetry; apply Z.eqb_eq; lia). cbn [negb]. eexists. split; [reflexivity|]. apply data_value_V. intros; apply Vg, G1.
      - intros Eg. inversion Eg; subst h1 w wf. set (ca := Cache None None c (ca_full (o_cache o2)) (ca_nonce (o_cache o2)) (ca_nonceSeen (o_cache o2))) in *.
        destruct (set_cache_props ha i o2 ca (gs_inv _ _ GSx) E2) as (I3 & S3 & S3' & V3 & N3 & _ & C3). specialize (C3 i Cx).
        pose proof (gcc_clean_id _ i _ I3 C3 N3) as X. pose proof (V_gcc (set_cache ha i ca) i) as Vg. destruct (getChangeCount (set_cache ha i ca) i) as [h2 c2]. destruct X as [X1 X2]. cbn in X1, X2, Vg. subst c2.
        rewrite X1. cbn [o_cache ca ca_seen ca_wire ca_fmt]. replace (c =? o_count o2) with true by (symmetry; apply Z.eqb_eq; lia). cbn [negb]. eexists. split; [reflexivity|]. apply data_value_V. intros; apply Vg, I3. }
    destruct X as (h2 & X1 & X2). unfold data_wireEncode. cbn [s_heap s_default]. rewrite X1, Eg. rewrite X2.
    destruct w as [w|]; [destruct (fmt_eqb wf f)|]; auto; destruct (encD f (data_value h1 i)); auto. }
  unfold full_ok. cbn [exec]. unfold is_data in D. unfold is_class. rewrite D. cbn [guard fst snd]. unfold name_op, wire_op. cbn [fst snd]. rewrite Hc, <- W.
  destruct (compute_fullName encD sha256 (State h1 (s_default s)) i f) as [s' r] eqn:Ec. cbn [fst snd].
  pose proof (compute_spec encD decD encI decI sha256 (State h1 (s_default s)) i f G1 D1 s' r Ec) as (_ & _ & _ & _ & Hr).
  destruct r as [n|e].
  - destruct (Hr n eq_refl) as (w2 & c & A1 & A2 & A3 & _). exists w2, c. rewrite A1. split; auto. split; auto.
    unfold V in A3. unfold name_at. destruct (nth_error (s_heap s') n) as [on|] eqn:En; [|discriminate]. cbn in A3. destruct on as [ow ks ct ca]. cbn in *. injection A3 as A4 A5. subst ow.
    rewrite (data_value_V (s_heap s) h1 i Vs). reflexivity.
  - revert Ec. unfold compute_fullName. destruct (data_wireEncode encD (State h1 (s_default s)) i f) as [s2 q]. cbn [snd]. destruct q as [w2|e2].
    + destruct (c_fromImplicitSha256Digest _) as [c|e3] eqn:E3; [destruct (alloc _ _ _); discriminate|]. intros Hq. right. exists w2. split; auto. congruence.
    + intros Hq. left. congruence.
Qed.
Lemma no_full_fill : forall s i f, Good encD decD encI decI (s_heap s) -> is_data (s_heap s) i ->
  (forall o, nth_error (s_heap s) i = Some o -> ca_full (o_cache o) = None) -> full_ok s i f.
Proof.
  intros s i f Gd D Hn. destruct (class_data _ _ D) as (o & E & _). apply compute_ok; auto. unfold data_getFullName.
  destruct (getDefaultWireEncoding (s_heap s) i) as [[h1 w] wf] eqn:Eg.
  pose proof (gdwe_spec encD decD encI decI (s_heap s) i o Gd E h1 w wf Eg) as X.
  assert (F : match nth_error h1 i with Some o => ca_full (o_cache o) | None => None end = None).
  { revert Eg. unfold getDefaultWireEncoding. destruct (gcc_post_of (s_heap s) i o (proj1 Gd) E) as (GSx & Cx & (o2 & E2 & Ec2) & _).
    destruct (getChangeCount (s_heap s) i) as [ha c]. cbn [fst snd] in *. destruct (gs_shape _ _ GSx) as [_ Sh]. destruct (Sh i o E) as (o3 & E3 & _ & _ & Eca).
    assert (o3 = o2) by congruence. subst o3. rewrite E2. destruct (negb _); intros Eg; inversion Eg; subst.
    - unfold set_cache. rewrite E2. rewrite (nth_upd_eq _ _ _ _ E2). cbn. rewrite Eca. auto.
    - rewrite E2, Eca. auto. }
  rewrite F. destruct w; auto.
Qed.
(** ... or when a setter of the Data or of one of its sub-objects was called since; any other
    history, see [C25_stale_refuted]. *)
Theorem C25_after_change_partial : forall f0 os o i k f, history (init f0) (os ++ [o]) -> let s := run' (init f0) os in
  is_data (s_heap s) i -> below (s_heap s) i k -> sets o k -> is_ok (snd (exec' s o)) = true -> full_ok (fst (exec' s o)) i f.
Proof.
  intros f0 os o i k f H s D B St Ok.
  assert (H12 : history (init f0) os /\ seen_call s o) by (apply history_app; auto).
  destruct H12 as [H1 H2]. destruct (run_good encD decD partD encI decI partI sha256 os _ (init_good _ _ _ _ f0) H1) as [Gd _]. fold s in Gd.
  destruct (class_data _ _ D) as (oi & Ei & Cl).
  pose proof (exec_good encD decD partD encI decI partI sha256 s o Gd H2) as [G1 S1]. set (s1 := fst (exec' s o)) in *. pose proof (step_class _ _ _ _ S1 D) as D1.
  destruct (S1 i oi Ei) as (o1 & E1 & L1 & _). apply compute_ok; auto. unfold data_getFullName.
  destruct (getDefaultWireEncoding (s_heap s1) i) as [[h1 w] wf] eqn:Eg. destruct w as [w|]; [|reflexivity]. exfalso.
  revert Eg. unfold getDefaultWireEncoding. destruct (gcc_post_of (s_heap s1) i o1 (proj1 G1) E1) as (GSx & Cx & (o2 & E2 & Ec2) & _).
  pose proof (setter_count encD decD partD encI decI partI sha256 s o i k oi Gd H2 St Ok B Ei _ (gs_inv _ _ GSx) (gs_step _ _ GSx) Cx o2 E2) as Lt.
  destruct (gs_shape _ _ GSx) as [_ Sh]. destruct (Sh i o1 E1) as (o3 & E3 & Eo & _ & Eca). assert (o3 = o2) by congruence. subst o3.
  destruct (getChangeCount (s_heap s1) i) as [ha c]. cbn [fst snd] in *. rewrite E2. destruct (Z.eqb_spec (ca_seen (o_cache o2)) c) as [Eq|Ne]; cbn [negb]; [|intros X; inversion X].
  intros X. inversion X as [[X1 X2 X3]]. clear X.
  assert (Kc : o_cache o1 = o_cache oi).
  { destruct (setter_keep encD decD partD encI decI partI sha256 s o k Gd St i o1 E1) as [(o' & E' & Q)|[E' _]]; congruence. }
  destruct (proj2 Gd i oi Ei) as [Hd _]. destruct (Hd Cl w) as (ff & _ & (h0 & oo & _ & S0 & E0 & Ec0 & _)); [congruence|].
  destruct (S0 i oo E0) as (oi' & Ei' & Li & _). assert (oi' = oi) by congruence. subst oi'. rewrite Eca, Kc in Eq. lia.
Qed.

Theorem C25_first_partial : forall f0 os i f, history (init f0) os -> Forall (fun o => match o with DFullName _ _ => False | _ => True end) os ->
  let s := run' (init f0) os in is_data (s_heap s) i -> full_ok s i f.
Proof.
  intros f0 os i f H F s D. destruct (run_good encD decD partD encI decI partI sha256 os _ (init_good _ _ _ _ f0) H) as [Gd _].
  apply no_full_fill; auto. intros o E. refine (run_nf encD decD partD encI decI partI sha256 os _ (init_good _ _ _ _ f0) H F _ i o E).
  intros j oj Ej. destruct j; discriminate.
Qed.

(** ** C26 *)
(** After setNonce, whatever is called except calls that set this nonce: getNonce returns
    nothing, or the nonce that was set, and then every field still has its value. *)
Theorem C26_value : forall f0 os1 i n os2, history (init f0) (os1 ++ ISetNonce i n :: os2) -> Forall (not_nonce_call i) os2 ->
  let s1 := run' (init f0) (os1 ++ [ISetNonce i n]) in let s2 := run' s1 os2 in is_int (s_heap s1) i ->
  nonce_now (s_heap s1) i = n /\
  (nonce_now (s_heap s2) i = None \/ nonce_now (s_heap s2) i = n /\ forall m, int_value (s_heap s2) i m = int_value (s_heap s1) i m).
Proof.
  intros f0 os1 i n os2 H F s1 s2 D. apply history_app2 in H as [H1 [H2 H3]]. set (s0 := run' (init f0) os1) in *.
  destruct (run_good encD decD partD encI decI partI sha256 os1 _ (init_good _ _ _ _ f0) H1) as [Gd _]. fold s0 in Gd.
  assert (Es1 : s1 = fst (exec' s0 (ISetNonce i n))). { unfold s1, s0, run. rewrite fold_left_app. reflexivity. }
  pose proof (exec_good encD decD partD encI decI partI sha256 s0 (ISetNonce i n) Gd I) as [G1 S1]. rewrite <- Es1 in *.
  assert (D0 : is_class (s_heap s0) i CInt = true).
  { destruct (is_class (s_heap s0) i CInt) eqn:X; auto. rewrite Es1 in D. cbn [exec] in D. rewrite X in D. cbn [guard fst] in D.
    unfold is_int in D. unfold is_class in X. rewrite D in X. discriminate. }
  pose proof D0 as C0. apply is_class_true in C0. destruct (class_obj _ _ _ C0) as (o0 & E0 & _).
  pose proof (setNonce_spec encD decD encI decI (s_heap s0) i o0 n Gd E0) as X. cbn zeta in X. destruct X as (_ & _ & _ & Cl & o1 & E1 & _ & _ & Hn & Hs).
  assert (Eh : s_heap s1 = int_setNonce (s_heap s0) i n). { rewrite Es1. cbn [exec]. rewrite D0. reflexivity. }
  rewrite <- Eh in *. split; [rewrite (clean_nonce (s_heap s1) i o1 (proj1 G1) Cl E1 Hs); auto|].
  destruct (run_good encD decD partD encI decI partI sha256 os2 s1 G1 H3) as [G2 S2]. fold s2 in G2, S2.
  pose proof (run_nk encD decD partD encI decI partI sha256 i os2 s1 G1 H3 F) as K. fold s2 in K.
  destruct (nonce_now (s_heap s2) i) as [b|] eqn:Eb; [right|left; auto].
  destruct (nonce_kept_or_none encD decD encI decI (s_heap s1) (s_heap s2) i o1 n G1 E1 Cl Hn Hs G2 S2 K b Eb) as (A1 & A2 & o2 & E2 & A3).
  split; auto. intros m. unfold int_value. f_equal. symmetry. eapply clean_back; eauto. apply G1.
Qed.
(** After any accepted call of a setter of the Interest or of one of its sub-objects, getNonce
    returns nothing, until the nonce is set again. *)
Theorem C26_change : forall f0 os1 i n os2 o k os3, history (init f0) (os1 ++ ISetNonce i n :: os2 ++ o :: os3) ->
  Forall (not_nonce_call i) (os2 ++ o :: os3) ->
  let s1 := run' (init f0) (os1 ++ [ISetNonce i n]) in let s2 := run' s1 os2 in
  is_int (s_heap s1) i -> below (s_heap s2) i k -> sets o k -> is_ok (snd (exec' s2 o)) = true ->
  nonce_now (s_heap (run' s2 (o :: os3))) i = None.
Proof.
  intros f0 os1 i n os2 o k os3 H F s1 s2 D B St Ok. apply history_app2 in H as [H1 [H2 H3]]. set (s0 := run' (init f0) os1) in *.
  destruct (run_good encD decD partD encI decI partI sha256 os1 _ (init_good _ _ _ _ f0) H1) as [Gd _]. fold s0 in Gd.
  assert (Es1 : s1 = fst (exec' s0 (ISetNonce i n))). { unfold s1, s0, run. rewrite fold_left_app. reflexivity. }
  pose proof (exec_good encD decD partD encI decI partI sha256 s0 (ISetNonce i n) Gd I) as [G1 S1]. rewrite <- Es1 in *.
  assert (D0 : is_class (s_heap s0) i CInt = true).
  { destruct (is_class (s_heap s0) i CInt) eqn:X; auto. rewrite Es1 in D. cbn [exec] in D. rewrite X in D. cbn [guard fst] in D.
    unfold is_int in D. unfold is_class in X. rewrite D in X. discriminate. }
  pose proof D0 as C0. apply is_class_true in C0. destruct (class_obj _ _ _ C0) as (o0 & E0 & _).
  pose proof (setNonce_spec encD decD encI decI (s_heap s0) i o0 n Gd E0) as X. cbn zeta in X. destruct X as (_ & _ & _ & Cl & o1 & E1 & _ & _ & Hn & Hs).
  assert (Eh : s_heap s1 = int_setNonce (s_heap s0) i n). { rewrite Es1. cbn [exec]. rewrite D0. reflexivity. }
  rewrite <- Eh in *. pose proof (run_nk encD decD partD encI decI partI sha256 i _ s1 G1 H3 F) as K.
  pose proof (run_good encD decD partD encI decI partI sha256 _ s1 G1 H3) as X. cbn zeta in X. destruct X as [G4 S4].
  assert (Er : run' s1 (os2 ++ o :: os3) = run' s2 (o :: os3)) by (unfold run, s2; rewrite fold_left_app; reflexivity). rewrite Er in *.
  apply history_app2 in H3 as [H3 [H4 H5]]. pose proof (run_good encD decD partD encI decI partI sha256 os2 s1 G1 H3) as X. cbn zeta in X. destruct X as [G2 S2]. fold s2 in G2, S2, H4, H5.
  pose proof (exec_good encD decD partD encI decI partI sha256 s2 o G2 H4) as [G3 S3].
  pose proof (run_good encD decD partD encI decI partI sha256 os3 _ G3 H5) as X. cbn zeta in X. destruct X as [_ S5].
  destruct (nonce_now (s_heap (run' s2 (o :: os3))) i) as [b|] eqn:Eb; auto. exfalso.
  destruct (nonce_kept_or_none encD decD encI decI _ _ i o1 n G1 E1 Cl Hn Hs G4 S4 K b Eb) as (A1 & A2 & o4 & E4 & A3).
  destruct (S2 i o1 E1) as (o2 & E2 & L2 & _).
  pose proof (setter_count encD decD partD encI decI partI sha256 s2 o i k o2 G2 H4 St Ok B E2 _ (proj1 G4) S5 A2 o4 E4) as Lt. lia.
Qed.
(** Calls that only read (also wireEncode, getNonce, copies, new objects) keep the nonce. *)
Theorem C26_reads : forall f0 os1 i b os2, history (init f0) os1 -> Forall only_reads os2 ->
  let s1 := run' (init f0) os1 in is_int (s_heap s1) i -> nonce_now (s_heap s1) i = Some b -> nonce_now (s_heap (run' s1 os2)) i = Some b.
Proof.
  intros f0 os1 i b os2 H F s1 D Hb. destruct (run_good encD decD partD encI decI partI sha256 os1 _ (init_good _ _ _ _ f0) H) as [Gd _]. fold s1 in Gd.
  destruct (class_int _ _ D) as (o & E & _). destruct (nonce_clean encD decD encI decI _ i o b Gd E Hb) as (C & A1 & A2).
  pose proof (run_ro encD decD partD encI decI partI sha256 os2 s1 Gd F) as R.
  pose proof (run_good encD decD partD encI decI partI sha256 os2 s1 Gd (reads_history encD decD partD encI decI partI sha256 os2 s1 F)) as X. cbn zeta in X. destruct X as [G2 _].
  destruct (R i o C E) as (o' & E' & _ & _ & B1 & B2). destruct (B2 A2) as [B3 B4]. rewrite (clean_nonce _ i o' (proj1 G2) (RO_clean _ _ R i C) E'); congruence.
Qed.
(** getNonce returns [nonce_now]; refreshNonce changes the nonce to another one of the same
    length and nothing else; without a nonce it does nothing. *)
Theorem C26_refresh : forall f0 os i draws, history (init f0) os -> let s := run' (init f0) os in is_int (s_heap s) i ->
  snd (exec' s (IGetNonce i)) = Ok (RNonce (nonce_now (s_heap s) i)) /\
  let r := exec' s (IRefreshNonce i draws) in
  (forall j, data_value (s_heap (fst r)) j = data_value (s_heap s) j) /\ (forall j m, int_value (s_heap (fst r)) j m = int_value (s_heap s) j m) /\
  match nonce_now (s_heap s) i with
  | Some b => if zlen b =? 0 then snd r = Ok RUnit /\ nonce_now (s_heap (fst r)) i = Some b else
      (snd r = Ok RUnit /\ exists b', In b' draws /\ nonce_now (s_heap (fst r)) i = Some b' /\ b' <> b /\ zlen b' = zlen b) \/
      (snd r = Err OutOfFuel /\ forall d, In d draws -> zlen d = zlen b -> d = b)
  | None => snd r = Ok RUnit /\ nonce_now (s_heap (fst r)) i = None
  end.
Proof.
  intros f0 os i draws H s D. destruct (run_good encD decD partD encI decI partI sha256 os _ (init_good _ _ _ _ f0) H) as [Gd _]. fold s in Gd.
  destruct (class_int _ _ D) as (o & E & _). cbn [exec]. unfold is_int in D. unfold is_class. rewrite D. cbn [guard].
  split. { unfold nonce_now. destruct (int_getNonce (s_heap s) i); reflexivity. }
  unfold int_refreshNonce. destruct (int_getNonce (s_heap s) i) as [h1 c] eqn:En.
  destruct (getNonce_spec encD decD encI decI (s_heap s) i o Gd E h1 c En) as (G1 & S1 & V1 & C1 & o1 & E1 & _ & Hn & Hs & _).
  pose proof (nonce_now_eq (s_heap s) i o h1 c (proj1 Gd) E En) as Hc. rewrite Hc.
  assert (N1 : nonce_now h1 i = c) by (rewrite (clean_nonce h1 i o1 (proj1 G1) C1 E1 Hs); auto).
  assert (R1 : (forall j, data_value h1 j = data_value (s_heap s) j) /\ (forall j m, int_value h1 j m = int_value (s_heap s) j m)) by (split; intros; [apply data_value_V|apply int_value_V]; auto).
  destruct c as [b|]; cbn [fst snd s_heap]; [|destruct R1; auto]. destruct (zlen b =? 0) eqn:Z0; cbn [fst snd s_heap]; [destruct R1; auto|].
  assert (NN : forall ds, match next_nonce b ds with Some d => In d ds /\ d <> b | None => forall d, In d ds -> d = b end).
  { induction ds as [|d ds IH]; cbn; [tauto|]. destruct (zlist_eqb d b) eqn:Eq.
    - apply zlist_eqb_eq in Eq. subst. destruct (next_nonce b ds); [tauto|]. intros d [->|]; auto.
    - split; auto. intros ->. assert (zlist_eqb b b = true) by (apply zlist_eqb_eq; auto). congruence. }
  specialize (NN (filter (fun d => zlen d =? zlen b) draws)). destruct (next_nonce b _) as [d|]; cbn [fst snd s_heap].
  - destruct NN as [N2 N3]. apply filter_In in N2 as [N2 N4]. apply Z.eqb_eq in N4.
    pose proof (setNonce_spec encD decD encI decI h1 i o1 (Some d) G1 E1) as X. cbn zeta in X. destruct X as (G2 & _ & V2 & C2 & o2 & E2 & _ & _ & Hn2 & Hs2).
    assert (V3 : forall j, V (int_setNonce h1 i (Some d)) j = V (s_heap s) j) by (intros; rewrite V2; auto).
    split; [intros; apply data_value_V; auto|]. split; [intros; apply int_value_V; auto|]. left. split; auto. exists d. repeat (split; auto).
    rewrite (clean_nonce _ i o2 (proj1 G2) C2 E2 Hs2). auto.
  - destruct R1. split; auto. split; auto. right. split; auto. intros d Hd Hl. apply NN. apply filter_In. split; auto. apply Z.eqb_eq. auto.
Qed.
End Formats.

(** Without wireDecode, wireEncode is exactly the encoder on the current values. *)
Section NoDecode.
Variable encD : Z -> data -> res wire.
Variable decD : Z -> data -> bytes -> res (data * (Z * Z)).
Variable partD : Z -> data -> bytes -> option data.
Variable encI : Z -> list Z -> interest -> res wire.
Variable decI : Z -> interest -> bytes -> res (interest * (Z * Z)).
Variable partI : Z -> interest -> bytes -> option (interest * bool).
Variable sha256 : bytes -> bytes.
Definition no_decode (o : op) : Prop := match o with DDecode _ _ _ | IDecode _ _ _ => False | _ => True end.
Let decD0 : Z -> data -> bytes -> res (data * (Z * Z)) := fun _ _ _ => Err OtherError.
Let decI0 : Z -> interest -> bytes -> res (interest * (Z * Z)) := fun _ _ _ => Err OtherError.
Lemma exec_nodec : forall s o, no_decode o -> exec encD decD partD encI decI partI sha256 s o = exec encD decD0 partD encI decI0 partI sha256 s o.
Proof. intros s []; cbn; intros; try contradiction; reflexivity. Qed.
Lemma run_nodec : forall os s, Forall no_decode os -> run encD decD partD encI decI partI sha256 s os = run encD decD0 partD encI decI0 partI sha256 s os.
Proof. induction os as [|o os IH]; intros s F; auto. inversion F; subst. cbn [run fold_left]. unfold run in IH. rewrite exec_nodec by auto. apply IH; auto. Qed.
Lemma history_nodec : forall os s, Forall no_decode os -> seen_history encD decD partD encI decI partI sha256 s os -> seen_history encD decD0 partD encI decI0 partI sha256 s os.
Proof. induction os as [|o os IH]; intros s F; auto. inversion F; subst. cbn [seen_history]. intros [A B]. split; auto. rewrite <- exec_nodec by auto. auto. Qed.
Theorem C24_data_exact : forall f0 os i f, seen_history encD decD partD encI decI partI sha256 (init f0) os -> Forall no_decode os ->
  let s := run encD decD partD encI decI partI sha256 (init f0) os in is_data (s_heap s) i ->
  snd (exec encD decD partD encI decI partI sha256 s (DEncode i f)) =
    match encD f (data_value (s_heap s) i) with Ok w => Ok (RWire w) | Err e => Err e end.
Proof.
  intros f0 os i f H F s D. pose proof (history_nodec os _ F H) as H0. subst s. rewrite run_nodec in D |- * by auto. rewrite exec_nodec by exact I.
  pose proof (C24_data encD decD0 partD encI decI0 partI sha256 f0 os i f H0 D) as [X _].
  destruct (snd (exec encD decD0 partD encI decI0 partI sha256 _ (DEncode i f))) as [[]|e]; try contradiction.
  - destruct X as [X|(d0 & X)]; [rewrite X; auto|discriminate X].
  - rewrite X; auto.
Qed.
End NoDecode.

(** ** Examples, and the histories in which the claims fail. The TLV wire format is format 0. *)
Definition r_encD (f : Z) (d : data) : res wire := encodeData d.
Definition r_decD (f : Z) (prev : data) (b : bytes) : res (data * (Z * Z)) := decodeData prev b.
Definition r_encI (f : Z) (rnd : list Z) (i : interest) : res wire := encodeInterest rnd i.
Definition r_decI (f : Z) (prev : interest) (b : bytes) : res (interest * (Z * Z)) := decodeInterest prev b.
Definition r_sha (b : bytes) : bytes := repeat (fold_left (fun a x => (a * 7 + x) mod 251) b 1) 32.
Notation x_exec := (exec r_encD r_decD (fun _ _ _ => None) r_encI r_decI (fun _ _ _ => None) r_sha).
Notation x_run := (run r_encD r_decD (fun _ _ _ => None) r_encI r_decI (fun _ _ _ => None) r_sha).
Notation x_history := (seen_history r_encD r_decD (fun _ _ _ => None) r_encI r_decI (fun _ _ _ => None) r_sha).
Definition nA : name := [c_generic [65]].
Definition nB : name := [c_generic [66]].
Definition kl0 : keyLocator := KL (Some 1) [c_generic [75]] None.
Definition d0 : data := Data nA mi_empty (Some [1; 2]) (SigRsa kl0 vp_none (Some [9])).
Definition i0 : interest := Interest nA None None kl_empty [] None false None None [] None None None.
(** new Data (object 6: name 0, meta info 1, key name 2, key locator 3, validity 4, signature
    5); encode, change the key locator's name through the sub-object, encode; decode; ... *)
Definition h24 : list op := [NewData d0; DEncode 6 0; SetName 2 nB; DEncode 6 0; DSetContent 6 (Some [3]); DCopy 6].
Example C24_example : x_history (init 0) h24 /\ is_data (s_heap (x_run (init 0) h24)) 6 /\ Forall no_decode h24 /\
  below (s_heap (x_run (init 0) [NewData d0; DEncode 6 0])) 6 2 /\
  snd (x_exec (x_run (init 0) [NewData d0; DEncode 6 0]) (DEncode 6 0)) <> snd (x_exec (x_run (init 0) [NewData d0; DEncode 6 0; SetName 2 nB]) (DEncode 6 0)).
Proof.
  split; [cbn; tauto|]. split; [reflexivity|]. split; [repeat (constructor; [exact I|]); constructor|].
  split; [apply (below_kid _ 6 5 2 2%nat); [reflexivity|]; apply (below_kid _ 5 3 2 0%nat); [reflexivity|]; apply (below_kid _ 3 2 2 0%nat); [reflexivity|constructor]|].
  vm_compute. discriminate.
Qed.
(** new Interest (object 5: name 0, key name 1, key locator 2, exclude 3, hint 4) with a nonce,
    then the exclude is changed. *)
Definition h26 : list op := [NewInt i0; ISetNonce 5 (Some [1; 2; 3; 4]); IEncode 5 0 [0; 0; 0; 0]; SetExcl 3 [ExAny]; IGetNonce 5].
Example C26_example : x_history (init 0) h26 /\ is_int (s_heap (x_run (init 0) h26)) 5 /\
  nonce_now (s_heap (x_run (init 0) (firstn 3 h26))) 5 = Some [1; 2; 3; 4] /\ nonce_now (s_heap (x_run (init 0) h26)) 5 = None /\
  below (s_heap (x_run (init 0) (firstn 3 h26))) 5 3 /\ is_ok (snd (x_exec (x_run (init 0) (firstn 3 h26)) (SetExcl 3 [ExAny]))) = true.
Proof.
  split; [cbn; tauto|]. split; [reflexivity|]. split; [reflexivity|]. split; [reflexivity|]. split; [|reflexivity].
  apply (below_kid _ 5 3 3 2%nat); [reflexivity|constructor].
Qed.

(** The current values encode to other bytes, whatever the random bytes, and these bytes decode
    to other values. *)
Definition stale (v : interest) (w : wire) : Prop :=
  (forall rnd, encodeInterest rnd v <> Ok w) /\ exists v', decodeInterest i_empty (fst w) = Ok (v', snd w) /\ v' <> v.
Definition some4 (n : option bytes) : bool := match n with Some [_; _; _; _] => true | _ => false end.
Definition res_bytes {A} (r : res (bytes * A)) : bytes := match r with Ok (b, _) => b | Err _ => [] end.
Definition int_key (i : interest) : bytes := res_bytes (encodeInterest [0; 0; 0; 0] i).
Lemma enc_rnd : forall v rnd rnd', some4 (i_nonce v) = true -> i_params v = None -> encodeInterest rnd v = encodeInterest rnd' v.
Proof.
  intros v rnd rnd' H P. unfold encodeInterest. rewrite P. cbn [blob_size]. destruct (i_nonce v) as [[|a [|b [|c [|d []]]]]|] eqn:E; try discriminate.
  unfold encodeInterestV02. rewrite E. reflexivity.
Qed.
Lemma stale_i : forall v w, some4 (i_nonce v) = true -> i_params v = None -> zlist_eqb (int_key v) (fst w) = false ->
  match decodeInterest i_empty (fst w) with Ok (v', offs) => (fst offs =? fst (snd w)) && (snd offs =? snd (snd w)) && negb (zlist_eqb (int_key v') (int_key v)) | Err _ => false end = true ->
  stale v w.
Proof.
  intros v [b [o1 o2]] H P N D. cbn [fst snd] in *. split.
  - intros rnd X. rewrite (enc_rnd v rnd [0; 0; 0; 0] H P) in X. unfold int_key in N. rewrite X in N. cbn [res_bytes] in N.
    assert (zlist_eqb b b = true) by (apply zlist_eqb_eq; auto). congruence.
  - destruct (decodeInterest i_empty b) as [[v' [p1 p2]]|] eqn:X; [|discriminate]. cbn [fst snd] in D. apply andb_prop in D as [D D3]. apply andb_prop in D as [D1 D2].
    apply Z.eqb_eq in D1, D2. subst. exists v'. split; [exact X|]. intros ->. assert (zlist_eqb (int_key v) (int_key v) = true) by (apply zlist_eqb_eq; auto). rewrite H0 in D3. discriminate.
Qed.

(** A change made to the Name of a Delegation obtained from the forwarding hint, or to the Link
    obtained with getLink, is not seen: wireEncode returns the old bytes, which do not
    describe the current values. *)
Theorem C24_delegation_refuted : exists os i w, let s := x_run (init 0) os in
  is_int (s_heap s) i /\ snd (x_exec s (IEncode i 0 [0; 0; 0; 0])) = Ok (RWire w) /\ stale (int_now (s_heap s) i) w.
Proof.
  set (iA := Interest nA None None kl_empty [] None false (Some [1; 2; 3; 4]) None [(1, nA)] None None None).
  exists [NewInt iA; IEncode 5 0 [0; 0; 0; 0]; DelegationTouch 4 [(1, nB)]], 5%nat.
  eexists. cbn zeta. split; [reflexivity|]. split; [vm_compute; reflexivity|].
  apply stale_i; vm_compute; reflexivity.
Qed.
Theorem C24_link_refuted : exists os i w, let s := x_run (init 0) os in
  is_int (s_heap s) i /\ snd (x_exec s (IEncode i 0 [0; 0; 0; 0])) = Ok (RWire w) /\ stale (int_now (s_heap s) i) w.
Proof.
  set (iA := Interest nA None None kl_empty [] None false (Some [1; 2; 3; 4]) None [] None (Some [6; 0]) None).
  exists [NewInt iA; IEncode 5 0 [0; 0; 0; 0]; LinkTouch 5 (Some [6; 1; 0])], 5%nat.
  eexists. cbn zeta. split; [reflexivity|]. split; [vm_compute; reflexivity|].
  apply stale_i; vm_compute; reflexivity.
Qed.

(** When the Interest and its key locator share one Name object, wireDecode writes the key name
    over the interest name, and the bytes stay cached for values they do not describe. *)
Theorem C24_shared_name_refuted : exists os i w, let s := x_run (init 0) os in
  is_int (s_heap s) i /\ snd (x_exec s (IEncode i 0 [0; 0; 0; 0])) = Ok (RWire w) /\ stale (int_now (s_heap s) i) w.
Proof.
  exists [NewInt i0; KlSetName 2 0; IDecode 5 0 [5; 21; 7; 3; 8; 1; 66; 9; 8; 15; 6; 7; 4; 8; 2; 75; 75; 10; 4; 1; 2; 3; 4]], 5%nat.
  eexists. cbn zeta. split; [reflexivity|]. split; [vm_compute; reflexivity|].
  apply stale_i; vm_compute; reflexivity.
Qed.

Definition name_digest (n : name) : bytes := match rev n with c :: _ => c_value c | [] => [] end.
(** C25 in general: the cached full name survives a change, a wireEncode makes the cached
    encoding valid again, and getFullName returns the full name of the old packet. *)
Theorem C25_stale_refuted : exists os i n w, let s := x_run (init 0) os in
  is_data (s_heap s) i /\ snd (x_exec s (DFullName i 0)) = Ok (RName n) /\ snd (x_exec s (DEncode i 0)) = Ok (RWire w) /\
  zlist_eqb (name_digest (name_at (s_heap (fst (x_exec s (DFullName i 0)))) n)) (r_sha (fst w)) = false.
Proof.
  exists [NewData d0; DFullName 6 0; DSetContent 6 (Some [3]); DEncode 6 0], 6%nat.
  eexists. eexists. cbn zeta. split; [reflexivity|]. split; [vm_compute; reflexivity|]. split; vm_compute; reflexivity.
Qed.
(** The same when another packet is decoded into the object (no setter is called). *)
Theorem C25_decode_refuted : exists os i n w, let s := x_run (init 0) os in
  is_data (s_heap s) i /\ snd (x_exec s (DFullName i 0)) = Ok (RName n) /\ snd (x_exec s (DEncode i 0)) = Ok (RWire w) /\
  n_match (d_name (data_value (s_heap s) i)) (name_at (s_heap (fst (x_exec s (DFullName i 0)))) n) = false.
Proof.
  exists [NewData d0; DFullName 6 0; NewData (Data nB mi_empty (Some [7]) (SigDigest (Some [1])));
          DDecode 6 0 (res_bytes (encodeData (Data nB mi_empty (Some [7]) (SigDigest (Some [1])))))], 6%nat.
  eexists. eexists. cbn zeta. split; [reflexivity|]. split; [vm_compute; reflexivity|]. split; vm_compute; reflexivity.
Qed.
(** The returned Name is the cached object: changing it changes what getFullName returns. *)
Theorem C25_alias_refuted : exists os i n, let s := x_run (init 0) os in
  is_data (s_heap s) i /\ snd (x_exec s (DFullName i 0)) = Ok (RName n) /\ name_at (s_heap (fst (x_exec s (DFullName i 0)))) n = nB.
Proof.
  exists [NewData d0; DFullName 6 0; SetName 7 nB], 6%nat. eexists. cbn zeta. split; [reflexivity|]. split; vm_compute; reflexivity.
Qed.
Example C25_example : is_data (s_heap (x_run (init 0) [NewData d0])) 6 /\ x_history (init 0) [NewData d0] /\
  is_ok (snd (x_exec (x_run (init 0) [NewData d0]) (DFullName 6 0))) = true /\
  below (s_heap (x_run (init 0) [NewData d0; DFullName 6 0])) 6 6 /\ is_ok (snd (x_exec (x_run (init 0) [NewData d0; DFullName 6 0]) (DSetContent 6 None))) = true.
Proof. split; [reflexivity|]. split; [cbn; tauto|]. split; [vm_compute; reflexivity|]. split; [constructor|vm_compute; reflexivity]. Qed.
Print Assumptions C24_data. Print Assumptions C24_interest. Print Assumptions C24_interest_again. Print Assumptions C24_copy. Print Assumptions C24_data_exact.
Print Assumptions C25_after_change_partial. Print Assumptions C25_first_partial. Print Assumptions C26_value. Print Assumptions C26_change. Print Assumptions C26_reads. Print Assumptions C26_refresh.
