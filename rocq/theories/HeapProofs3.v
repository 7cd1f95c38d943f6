(** * Proofs about the cached wire encodings: the invariant of every history. *)
From Verif Require Import Base BaseLemmas TlvModel NameModel WireModel HeapModel HeapSpec HeapProofs HeapProofs2.

Section Formats.
Variable encD : Z -> data -> res wire.
Variable decD : Z -> data -> bytes -> res (data * (Z * Z)).
Variable partD : Z -> data -> bytes -> option data.
Variable encI : Z -> list Z -> interest -> res wire.
Variable decI : Z -> interest -> bytes -> res (interest * (Z * Z)).
Variable partI : Z -> interest -> bytes -> option (interest * bool).
Variable sha256 : bytes -> bytes.

Local Notation cohD := (describesD encD decD).
Local Notation cohI := (describesI encI decI).
Definition was (h : heap) (i : nat) (seen : Z) (P : heap -> Prop) : Prop :=
  exists h0 o0, Inv h0 /\ step h0 h /\ nth_error h0 i = Some o0 /\ o_count o0 = seen /\ P h0.
Definition okD (h : heap) (i : nat) (o : obj) : Prop := forall w, ca_wire (o_cache o) = Some w ->
  exists f, ca_fmt (o_cache o) = Some f /\ was h i (ca_seen (o_cache o)) (fun h0 => cohD f (data_value h0 i) w).
Definition okI (h : heap) (i : nat) (o : obj) : Prop := forall w, ca_wire (o_cache o) = Some w ->
  exists f n, ca_fmt (o_cache o) = Some f /\ ca_seen (o_cache o) <= ca_nonceSeen (o_cache o) <= o_count o /\
    (ca_nonceSeen (o_cache o) = ca_seen (o_cache o) -> ca_nonce (o_cache o) = n) /\
    was h i (ca_seen (o_cache o)) (fun h0 => cohI f (int_value h0 i n) w).
Definition okC (h : heap) (i : nat) (o : obj) : Prop :=
  (class_of (o_own o) = CData -> okD h i o) /\ (class_of (o_own o) = CInt -> okI h i o) /\ ca_nonceSeen (o_cache o) <= o_count o.
Definition CInv (h : heap) : Prop := forall i o, nth_error h i = Some o -> okC h i o.
Definition Good (h : heap) : Prop := Inv h /\ CInv h.

Lemma was_step : forall h h' i c P, step h h' -> was h i c P -> was h' i c P.
Proof. intros h h' i c P S (h0 & o0 & A & B & C). exists h0, o0. split; auto. split; auto. eapply step_trans; eauto. Qed.
Lemma okC_step : forall h h' i o o', step h h' -> class_of (o_own o') = class_of (o_own o) -> o_cache o' = o_cache o -> o_count o <= o_count o' ->
  okC h i o -> okC h' i o'.
Proof.
  intros h h' i o o' S C E L (D & N & B). split; [|split]; [rewrite C; intros K; specialize (D K)|rewrite C; intros K; specialize (N K)|rewrite E; lia].
  - intros w. rewrite E. intros W. destruct (D w W) as (f & F & Wa). exists f. eauto using was_step.
  - intros w. rewrite E. intros W. destruct (N w W) as (f & n & F & Bd & Eq & Wa). exists f, n. repeat (split; auto); try lia. eauto using was_step.
Qed.
Lemma CInv_G : forall h h', G h h' -> CInv h -> CInv h'.
Proof.
  intros h h' [I S K] C i o' E'. destruct (K i o' E') as [(o & E & Ca)|(_ & Ca & Cn)].
  - destruct (S i o E) as (o2 & E2 & Lc & Cl & _). assert (o2 = o') by congruence. subst o2.
    apply (okC_step h h' i o); auto.
  - split; [intros _ w; rewrite Ca; discriminate|]. split; [intros _ w; rewrite Ca; discriminate|rewrite Ca; auto].
Qed.
Lemma Good_G : forall h h', G h h' -> Good h -> Good h'.
Proof. intros h h' Gh [I C]. split; [apply Gh|eapply CInv_G; eauto]. Qed.

(** ** Replacing the cache of an object *)
Lemma set_cache_props : forall h i o ca, Inv h -> nth_error h i = Some o ->
  let h' := set_cache h i ca in
  Inv h' /\ step h h' /\ step h' h /\ (forall j, V h' j = V h j) /\ nth_error h' i = Some (Obj (o_own o) (o_kids o) (o_count o) ca) /\
  (forall j, j <> i -> nth_error h' j = nth_error h j) /\ (forall j, clean h j -> clean h' j).
Proof.
  intros h i o ca I E h'. subst h'. unfold set_cache. rewrite E. set (o' := Obj _ _ _ _).
  assert (L : le_obj o o') by (split; [cbn; lia|]; split; auto).
  assert (L' : le_obj o' o) by (split; [cbn; lia|]; split; auto).
  assert (S1 : step h (upd h i o')).
  { intros j q Hq. destruct (Nat.eq_dec i j) as [<- |N].
    - exists o'. split; [eapply nth_upd_eq; eauto|]. congruence.
    - exists q. rewrite nth_upd_ne; auto using le_obj_refl. }
  assert (SP : forall j q, nth_error (upd h i o') j = Some q -> exists q0, nth_error h j = Some q0 /\ o_kids q = o_kids q0 /\ o_own q = o_own q0 /\ o_count q = o_count q0).
  { intros j q Hq. destruct (Nat.eq_dec i j) as [<- |N].
    - rewrite (nth_upd_eq _ _ _ _ E) in Hq. injection Hq as <-. exists o. auto.
    - rewrite nth_upd_ne in Hq; eauto. }
  split; [|split; [|split; [|split; [|split; [|split]]]]]; auto.
  - intros j q Hq. destruct (SP j q Hq) as (q0 & H0 & K0 & O0 & _). destruct (I j q0 H0) as [K1 K2]. split.
    + rewrite K0, O0, <- K1. apply map_ext. intros a. eapply class_at_upd; eauto.
    + rewrite K0. intros k s Hin. destruct (K2 k s Hin) as (ok & Hk & Sk). destruct (S1 k ok Hk) as (ok' & Hk' & Lc & _). exists ok'. split; auto; lia.
  - intros j q Hq. destruct (SP j q Hq) as (q0 & H0 & K0 & O0 & C0). exists q0. split; auto. split; [lia|]. split; [congruence|]. auto.
  - intros j. erewrite V_upd by eauto. destruct (Nat.eqb_spec j i) as [-> |N]; auto. unfold V. rewrite E. auto.
  - eapply nth_upd_eq; eauto.
  - intros j N. rewrite nth_upd_ne; auto.
  - intros j C. induction C as [j q Hq HC IH HS]. destruct (S1 j q Hq) as (q' & Hq' & Lq).
    destruct (SP j q' Hq') as (q0 & H0 & K0 & O0 & C0). assert (q0 = q) by congruence. subst q0.
    apply (clean_i _ j q'); auto; rewrite K0; auto. intros k s Hin. destruct (HS k s Hin) as (ok & Hk & Sk).
    destruct (S1 k ok Hk) as (ok' & Hk' & _). exists ok'. split; auto. destruct (SP k ok' Hk') as (q1 & H1 & _ & _ & C1). congruence.
Qed.
Lemma Good_set_cache : forall h i o ca, Good h -> nth_error h i = Some o -> okC h i (Obj (o_own o) (o_kids o) (o_count o) ca) -> Good (set_cache h i ca).
Proof.
  intros h i o ca [I C] E K. destruct (set_cache_props h i o ca I E) as (I' & S & _ & _ & E' & N & _). split; auto.
  intros j q Hq. destruct (Nat.eq_dec j i) as [-> |Nj].
  - eapply okC_step; [apply S| | | |apply K]; rewrite E' in Hq; injection Hq as <-; auto; cbn; lia.
  - rewrite N in Hq by auto. eapply okC_step; [apply S| | | |apply (C j q Hq)]; auto; lia.
Qed.

(** ** Reading the cached encoding *)
Lemma data_value_V : forall h h' i, (forall j, V h' j = V h j) -> data_value h' i = data_value h i.
Proof. intros h h' i E. unfold data_value. rewrite (deep_ext 4 h h' E). auto. Qed.
Lemma int_value_V : forall h h' i n, (forall j, V h' j = V h j) -> int_value h' i n = int_value h i n.
Proof. intros h h' i n E. unfold int_value. rewrite (deep_ext 4 h h' E). auto. Qed.

Lemma was_now : forall h i o c P, Inv h -> clean h i -> nth_error h i = Some o -> o_count o = c -> was h i c P -> exists h0, P h0 /\ deep 4 h0 i = deep 4 h i.
Proof.
  intros h i o c P I C E N (h0 & o0 & I0 & S0 & E0 & N0 & P0). exists h0. split; auto.
  eapply clean_back; eauto. congruence.
Qed.

(* everything about getChangeCount of an existing object *)
Lemma gcc_good : forall h i o, Good h -> nth_error h i = Some o ->
  let h1 := fst (getChangeCount h i) in
  Good h1 /\ G h h1 /\ (forall j, V h1 j = V h j) /\ clean h1 i /\
  exists o1, nth_error h1 i = Some o1 /\ o_count o1 = snd (getChangeCount h i) /\ o_cache o1 = o_cache o /\ o_own o1 = o_own o /\ o_count o <= o_count o1.
Proof.
  intros h i o Gd E. pose proof (proj1 Gd) as I. pose proof (G_gcc h i I) as Gh. pose proof (fun j => V_gcc h i j I) as Vh.
  pose proof (gcc_post_of h i o I E) as (GS1 & C1 & (o1 & E1 & N1) & _). cbn zeta.
  split; [eapply Good_G; eauto|]. split; auto. split; auto. split; auto.
  exists o1. split; auto. split; auto. destruct (gs_shape _ _ GS1) as [_ Sh]. destruct (Sh i o E) as (o2 & E2 & O2 & _ & Ca2).
  assert (o2 = o1) by congruence. subst o2. split; auto. split; auto. destruct (gs_step _ _ GS1 i o E) as (o3 & E3 & L & _). congruence.
Qed.
Lemma gcc_clean_id : forall h i o, Inv h -> clean h i -> nth_error h i = Some o ->
  nth_error (fst (getChangeCount h i)) i = Some o /\ snd (getChangeCount h i) = o_count o.
Proof.
  intros h i o I C E. pose proof (gcc_post_of h i o I E) as (GS1 & C1 & (o1 & E1 & N1) & _).
  pose proof (gs_clean _ _ GS1 i C) as K. split; congruence.
Qed.


(* after getDefaultWireEncoding *)
Lemma gdwe_spec : forall h i o, Good h -> nth_error h i = Some o -> forall h1 w wf, getDefaultWireEncoding h i = (h1, w, wf) ->
  Good h1 /\ step h h1 /\ (forall j, V h1 j = V h j) /\ clean h1 i /\
  exists o1, nth_error h1 i = Some o1 /\ o_own o1 = o_own o /\ ca_wire (o_cache o1) = w /\ ca_fmt (o_cache o1) = wf /\ ca_seen (o_cache o1) = o_count o1 /\
    o_count o1 = snd (getChangeCount h i) /\
    ca_nonce (o_cache o1) = ca_nonce (o_cache o) /\ ca_nonceSeen (o_cache o1) = ca_nonceSeen (o_cache o) /\ ca_full (o_cache o1) = ca_full (o_cache o).
Proof.
  intros h i o Gd E h1 w wf. unfold getDefaultWireEncoding. pose proof (gcc_good h i o Gd E) as P.
  destruct (getChangeCount h i) as [h2 c]. cbn zeta in P. cbn [fst snd] in P. destruct P as (G2 & Gh & V2 & C2 & (o2 & E2 & N2 & Ca2 & O2 & L2)).
  rewrite E2. destruct (Z.eqb_spec (ca_seen (o_cache o2)) c) as [Ec|Nc]; cbn [negb].
  - intros [= <- <- <-]. split; auto. split; [apply Gh|]. split; auto. split; auto. exists o2. cbn. repeat (split; auto); congruence.
  - set (ca := Cache None None c _ _ _). intros [= <- <- <-].
    destruct (set_cache_props h2 i o2 ca (proj1 G2) E2) as (I' & S & _ & V' & E' & N' & CL).
    split; [|split; [|split; [|split]]].
    + apply (Good_set_cache h2 i o2); auto. destruct (proj2 G2 i o2 E2) as (_ & _ & B). split; [intros _ w; cbn; discriminate|]. split; [intros _ w; cbn; discriminate|auto].
    + eapply step_trans; [apply Gh|apply S].
    + intros j. rewrite V'. auto.
    + auto.
    + eexists. split; [apply E'|]. cbn. repeat (split; auto); congruence.
Qed.
Lemma gdwe_data : forall h i, Good h -> is_data h i -> forall h1 w f, getDefaultWireEncoding h i = (h1, Some w, Some f) -> cohD f (data_value h i) w.
Proof.
  intros h i Gd D h1 w f E. unfold is_data, class_at in D. destruct (nth_error h i) as [o|] eqn:Eo; [|discriminate].
  destruct (gdwe_spec h i o Gd Eo _ _ _ E) as (G1 & S1 & V1 & C1 & o1 & E1 & O1 & W1 & F1 & Sn & _).
  destruct (proj2 G1 i o1 E1) as (OD & _). rewrite O1 in OD. injection D as D. destruct (OD D w W1) as (f' & F' & Wa).
  assert (f' = f) by congruence. subst f'. destruct (was_now h1 i o1 _ _ (proj1 G1) C1 E1 (eq_sym Sn) Wa) as (h0 & P0 & Dp).
  rewrite <- (data_value_V h h1 i V1). unfold data_value in *. rewrite <- Dp. auto.
Qed.

Lemma nonce_now_spec : forall h i o, nth_error h i = Some o -> Inv h ->
  nonce_now h i = if ca_nonceSeen (o_cache o) =? snd (getChangeCount h i) then ca_nonce (o_cache o) else None.
Proof.
  intros h i o E I. unfold nonce_now, int_getNonce. pose proof (gcc_post_of h i o I E) as (GS1 & _ & (o1 & E1 & N1) & _).
  destruct (gs_shape _ _ GS1) as [_ Sh]. destruct (Sh i o E) as (o2 & E2 & O2 & _ & Ca2). assert (o2 = o1) by congruence. subst o2.
  destruct (getChangeCount h i) as [h1 c]. cbn [fst snd] in *. rewrite E1, Ca2. destruct (ca_nonceSeen (o_cache o) =? c); auto.
Qed.
Lemma gdwe_int : forall h i, Good h -> is_int h i -> forall h1 w f, getDefaultWireEncoding h i = (h1, Some w, Some f) -> cohI f (int_now h i) w.
Proof.
  intros h i Gd D h1 w f E. unfold is_int, class_at in D. destruct (nth_error h i) as [o|] eqn:Eo; [|discriminate].
  destruct (gdwe_spec h i o Gd Eo _ _ _ E) as (G1 & S1 & V1 & C1 & o1 & E1 & O1 & W1 & F1 & Sn & Nc & Nn & Ns & _).
  destruct (proj2 G1 i o1 E1) as (_ & OI & _). rewrite O1 in OI. injection D as D. destruct (OI D w W1) as (f' & n & F' & Bd & Eq & Wa).
  assert (f' = f) by congruence. subst f'. destruct (was_now h1 i o1 _ _ (proj1 G1) C1 E1 (eq_sym Sn) Wa) as (h0 & P0 & Dp).
  unfold int_now. rewrite (nonce_now_spec h i o Eo (proj1 Gd)). rewrite <- Ns, <- Nn, <- Nc.
  assert (Eqn : ca_nonceSeen (o_cache o1) = o_count o1) by lia.
  rewrite Eqn, Z.eqb_refl, Eq by congruence.
  rewrite <- (int_value_V h h1 i n V1). unfold int_value in *. rewrite <- Dp. auto.
Qed.

(* storing an encoding *)
Lemma sdwe_props : forall h i o w f, Good h -> nth_error h i = Some o ->
  (class_of (o_own o) = CData -> forall w', w = Some w' -> exists f', f = Some f' /\ cohD f' (data_value h i) w') ->
  (class_of (o_own o) = CInt -> forall w', w = Some w' -> exists f', f = Some f' /\ cohI f' (int_now h i) w' /\ clean h i /\ ca_nonceSeen (o_cache o) = o_count o) ->
  let h1 := setDefaultWireEncoding h i w f in
  Good h1 /\ step h h1 /\ (forall j, V h1 j = V h j) /\ clean h1 i /\
  exists o1, nth_error h1 i = Some o1 /\ ca_wire (o_cache o1) = w /\ ca_fmt (o_cache o1) = f /\ ca_seen (o_cache o1) = o_count o1 /\
    ca_nonce (o_cache o1) = ca_nonce (o_cache o) /\ ca_nonceSeen (o_cache o1) = ca_nonceSeen (o_cache o) /\ ca_full (o_cache o1) = ca_full (o_cache o).
Proof.
  intros h i o w f Gd E HD HI. unfold setDefaultWireEncoding. pose proof (gcc_good h i o Gd E) as P.
  assert (ID : clean h i -> nth_error (fst (getChangeCount h i)) i = Some o /\ snd (getChangeCount h i) = o_count o) by (intros C; apply gcc_clean_id; auto; apply Gd).
  assert (NN := nonce_now_spec h i o E (proj1 Gd)).
  destruct (getChangeCount h i) as [h2 c]. cbn zeta in P. cbn [fst snd] in P, ID, NN. destruct P as (G2 & Gh & V2 & C2 & (o2 & E2 & N2 & Ca2 & O2 & L2)).
  rewrite E2. set (ca := Cache w f c _ _ _). cbn zeta.
  destruct (set_cache_props h2 i o2 ca (proj1 G2) E2) as (I' & S & _ & V' & E' & N' & CL).
  split; [|split; [|split; [|split]]].
  - apply (Good_set_cache h2 i o2); auto. destruct (proj2 G2 i o2 E2) as (_ & _ & B). split; [|split; [|auto]]; cbn [o_own]; rewrite O2; intros K w' Hw; cbn in Hw.
    + destruct (HD K w' Hw) as (f' & Hf & Co). exists f'. split; [exact Hf|]. exists h2, o2. split; [apply G2|]. split; [apply step_refl|].
      split; auto. split; auto. rewrite (data_value_V h h2 i V2). auto.
    + destruct (HI K w' Hw) as (f' & Hf & Co & Cl & Ns). destruct (ID Cl) as [E3 Ec]. rewrite E2 in E3. injection E3 as ->.
      exists f', (nonce_now h i). cbn. rewrite Ns, Ec. split; auto. split; [lia|]. split.
      * intros _. rewrite NN, Ns, Ec, Z.eqb_refl. auto.
      * exists h2, o. split; [apply G2|]. split; [apply step_refl|]. split; auto. split; auto. unfold int_now in Co.
        rewrite (int_value_V h h2 i _ V2). auto.
  - eapply step_trans; [apply Gh|apply S].
  - intros j. rewrite V'. auto.
  - auto.
  - eexists. split; [apply E'|]. cbn. rewrite Ca2. repeat (split; auto).
Qed.

(** The encoding [w] is stored and up to date. *)
Definition cached (h : heap) (i : nat) (w : wire) (f : Z) : Prop := clean h i /\ exists o, nth_error h i = Some o /\
  ca_wire (o_cache o) = Some w /\ ca_fmt (o_cache o) = Some f /\ ca_seen (o_cache o) = o_count o.
Lemma cached_gdwe : forall h i w f, Inv h -> cached h i w f -> exists h2, getDefaultWireEncoding h i = (h2, Some w, Some f) /\ cached h2 i w f.
Proof.
  intros h i w f I (C & o & E & W & F & S). unfold getDefaultWireEncoding. destruct (gcc_clean_id h i o I C E) as [A B].
  pose proof (gcc_post_of h i o I E) as (_ & CC & _).
  destruct (getChangeCount h i) as [h2 c]. cbn [fst snd] in A, B, CC. rewrite A, S, B, Z.eqb_refl. cbn. rewrite W, F. exists h2. split; auto.
  split; auto. exists o. auto.
Qed.

(** ** Data.wireEncode *)
Lemma class_data : forall h i, is_data h i -> exists o, nth_error h i = Some o /\ class_of (o_own o) = CData.
Proof. intros h i D. unfold is_data, class_at in D. destruct (nth_error h i) as [o|]; [|discriminate]. injection D as D. eauto. Qed.
Lemma class_int : forall h i, is_int h i -> exists o, nth_error h i = Some o /\ class_of (o_own o) = CInt.
Proof. intros h i D. unfold is_int, class_at in D. destruct (nth_error h i) as [o|]; [|discriminate]. injection D as D. eauto. Qed.

Lemma data_encode_spec : forall s i f, Good (s_heap s) -> is_data (s_heap s) i -> forall s' r, data_wireEncode encD s i f = (s', r) ->
  Good (s_heap s') /\ step (s_heap s) (s_heap s') /\ (forall j, V (s_heap s') j = V (s_heap s) j) /\ s_default s' = s_default s /\
  (r = encD f (data_value (s_heap s) i) \/ exists w, r = Ok w /\ cohD f (data_value (s_heap s) i) w) /\
  (forall w, r = Ok w -> f = s_default s -> cached (s_heap s') i w f) /\
  (forall o, nth_error (s_heap s) i = Some o -> exists o', nth_error (s_heap s') i = Some o' /\ ca_full (o_cache o') = ca_full (o_cache o)).
Proof.
  intros s i f Gd D s' r. unfold data_wireEncode. destruct (class_data _ _ D) as (o & Eo & K).
  destruct (getDefaultWireEncoding (s_heap s) i) as [[h1 w] wf] eqn:Eg.
  destruct (gdwe_spec _ i o Gd Eo _ _ _ Eg) as (G1 & S1 & V1 & C1 & o1 & E1 & O1 & W1 & F1 & Sn & Nc & _ & _ & Fu).
  assert (ENC : forall s' r, match encD f (data_value h1 i) with
      | Ok w' => (State (if f =? s_default s then setDefaultWireEncoding h1 i (Some w') (Some f) else h1) (s_default s), Ok w')
      | Err e => (State h1 (s_default s), Err e) end = (s', r) ->
    Good (s_heap s') /\ step (s_heap s) (s_heap s') /\ (forall j, V (s_heap s') j = V (s_heap s) j) /\ s_default s' = s_default s /\
    (r = encD f (data_value (s_heap s) i) \/ exists w, r = Ok w /\ cohD f (data_value (s_heap s) i) w) /\
    (forall w, r = Ok w -> f = s_default s -> cached (s_heap s') i w f) /\
    (forall o, nth_error (s_heap s) i = Some o -> exists o', nth_error (s_heap s') i = Some o' /\ ca_full (o_cache o') = ca_full (o_cache o))).
  { intros s'' r''. destruct (encD f (data_value h1 i)) as [w'|e] eqn:Ee.
    - destruct (Z.eqb_spec f (s_default s)) as [Ef|Nf].
      + destruct (sdwe_props h1 i o1 (Some w') (Some f) G1 E1) as (G2 & S2 & V2 & C2 & o2 & E2 & W2 & F2 & Sn2 & _ & _ & Fu2).
        * intros _ w0 [= <-]. exists f. split; auto. left; auto.
        * rewrite O1, K. discriminate.
        * intros [= <- <-]. cbn [s_heap s_default]. split; auto. split; [eapply step_trans; eauto|]. split; [intros; rewrite V2; auto|]. split; auto. split; [|split].
          -- left. rewrite <- Ee. f_equal. apply data_value_V; auto.
          -- intros w0 [= <-] _. split; eauto 10.
          -- intros q Eq. exists o2. split; auto. congruence.
      + intros [= <- <-]. cbn [s_heap s_default]. split; auto. split; auto. split; auto. split; auto. split; [|split].
        * left. rewrite <- Ee. f_equal. apply data_value_V; auto.
        * intros; congruence.
        * intros q Eq. exists o1. split; auto. congruence.
    - intros [= <- <-]. cbn [s_heap s_default]. split; auto. split; auto. split; auto. split; auto. split; [|split].
      + left. rewrite <- Ee. f_equal. apply data_value_V; auto.
      + intros; congruence.
      + intros q Eq. exists o1. split; auto. congruence. }
  destruct w as [w|]; [|destruct (fmt_eqb wf f); intros H; apply ENC; exact H].
  destruct (fmt_eqb wf f) eqn:Ef; [|intros H; apply ENC; exact H].
  intros [= <- <-]. cbn [s_heap s_default]. destruct wf as [g|]; [|discriminate]. cbn in Ef. apply Z.eqb_eq in Ef. subst g.
  split; auto. split; auto. split; auto. split; auto. split; [|split].
  - right. exists w. split; auto. eapply gdwe_data; eauto.
  - intros w0 [= <-] _. split; eauto 10.
  - intros q Eq. exists o1. split; auto. congruence.
Qed.

(** ** Interest.wireEncode and the nonce *)
Lemma set_nonce_good : forall h i o n c, Good h -> nth_error h i = Some o -> o_count o = c -> (ca_nonceSeen (o_cache o) < c \/ ca_wire (o_cache o) = None) ->
  let h' := set_nonce h i n c in
  Good h' /\ step h h' /\ (forall j, V h' j = V h j) /\ (forall j, clean h j -> clean h' j) /\
  exists o', nth_error h' i = Some o' /\ o_own o' = o_own o /\ o_count o' = c /\ ca_nonce (o_cache o') = n /\ ca_nonceSeen (o_cache o') = c /\
    ca_wire (o_cache o') = ca_wire (o_cache o) /\ ca_fmt (o_cache o') = ca_fmt (o_cache o) /\ ca_seen (o_cache o') = ca_seen (o_cache o).
Proof.
  intros h i o n c Gd E N L. unfold set_nonce. rewrite E. cbn zeta. set (ca := Cache _ _ _ _ n c).
  destruct (set_cache_props h i o ca (proj1 Gd) E) as (I' & S & _ & V' & E' & N' & CL).
  split; [|split; [|split; [|split]]]; auto.
  - apply (Good_set_cache h i o); auto. destruct (proj2 Gd i o E) as (OD & OI & _). split; [|split; [|cbn; lia]]; cbn [o_own]; intros K w Hw; cbn in Hw.
    + destruct (OD K w Hw) as (f & F & Wa). exists f. auto.
    + destruct (OI K w Hw) as (f & m & F & Bd & Eq & Wa). exists f, m. cbn. destruct L as [L|L]; [|congruence].
      split; auto. split; [lia|]. split; auto. intros; lia.
  - eexists. split; [apply E'|]. cbn. repeat (split; auto).
Qed.

Lemma getNonce_spec : forall h i o, Good h -> nth_error h i = Some o ->
  forall h1 n, int_getNonce h i = (h1, n) ->
  Good h1 /\ step h h1 /\ (forall j, V h1 j = V h j) /\ clean h1 i /\
  exists o1, nth_error h1 i = Some o1 /\ o_own o1 = o_own o /\ ca_nonce (o_cache o1) = n /\ ca_nonceSeen (o_cache o1) = o_count o1 /\
    ca_wire (o_cache o1) = ca_wire (o_cache o) /\ ca_fmt (o_cache o1) = ca_fmt (o_cache o) /\ ca_seen (o_cache o1) = ca_seen (o_cache o) /\
    o_count o1 = snd (getChangeCount h i).
Proof.
  intros h i o Gd E h1 n. pose proof (proj2 (proj2 (proj2 Gd i o E))) as Ns. unfold int_getNonce. pose proof (gcc_good h i o Gd E) as P.
  destruct (getChangeCount h i) as [h2 c]. cbn zeta in P. cbn [fst snd] in P. destruct P as (G2 & Gh & V2 & C2 & (o2 & E2 & N2 & Ca2 & O2 & L2)).
  rewrite E2. destruct (Z.eqb_spec (ca_nonceSeen (o_cache o2)) c) as [Ec|Nc]; cbn [negb].
  - intros [= <- <-]. split; auto. split; [apply Gh|]. split; auto. split; auto. exists o2. rewrite <- Ca2. repeat (split; auto); congruence.
  - intros [= <- <-]. destruct (set_nonce_good h2 i o2 None c G2 E2 N2) as (G3 & S3 & V3 & C3 & o3 & E3 & O3 & N3 & A & B & W & F & Sn).
    { left. rewrite Ca2 in *. lia. }
    split; auto. split; [eapply step_trans; [apply Gh|auto]|]. split; [intros; rewrite V3; auto|]. split; auto.
    exists o3. rewrite <- Ca2. repeat (split; auto); congruence.
Qed.

Lemma nonce_now_eq : forall h i o h1 n, Inv h -> nth_error h i = Some o -> int_getNonce h i = (h1, n) -> nonce_now h i = n.
Proof. intros h i o h1 n I E H. unfold nonce_now. rewrite H. auto. Qed.
(* the nonce does not change when the encoding is looked up *)
Lemma nonce_now_gdwe : forall h i o h1 w wf, Good h -> nth_error h i = Some o -> getDefaultWireEncoding h i = (h1, w, wf) -> nonce_now h1 i = nonce_now h i.
Proof.
  intros h i o h1 w wf Gd E Eg.
  destruct (gdwe_spec h i o Gd E _ _ _ Eg) as (G1 & S1 & V1 & C1 & o1 & E1 & O1 & W1 & F1 & Sn & Nc & Nn & Ns & Fu).
  rewrite (nonce_now_spec h i o E (proj1 Gd)), (nonce_now_spec h1 i o1 E1 (proj1 G1)).
  destruct (gcc_clean_id h1 i o1 (proj1 G1) C1 E1) as [_ ->]. rewrite Nn, Ns, Nc. auto.
Qed.
Lemma nonce_now_idem : forall h i o h1 n, Good h -> nth_error h i = Some o -> int_getNonce h i = (h1, n) -> nonce_now h1 i = n.
Proof.
  intros h i o h1 n Gd E Eg. destruct (getNonce_spec h i o Gd E _ _ Eg) as (G1 & S1 & V1 & C1 & o1 & E1 & O1 & N1 & Ns & _).
  rewrite (nonce_now_spec h1 i o1 E1 (proj1 G1)). destruct (gcc_clean_id h1 i o1 (proj1 G1) C1 E1) as [_ ->]. rewrite Ns, Z.eqb_refl. auto.
Qed.

Lemma int_encode_spec : forall s i f rnd, Good (s_heap s) -> is_int (s_heap s) i -> forall s' r, int_wireEncode encI s i f rnd = (s', r) ->
  Good (s_heap s') /\ step (s_heap s) (s_heap s') /\ (forall j, V (s_heap s') j = V (s_heap s) j) /\ s_default s' = s_default s /\
  (r = encI f rnd (int_now (s_heap s) i) \/ exists w, r = Ok w /\ cohI f (int_now (s_heap s) i) w) /\
  (forall w, r = Ok w -> f = s_default s -> cached (s_heap s') i w f) /\
  nonce_now (s_heap s') i = nonce_now (s_heap s) i.
Proof.
  intros s i f rnd Gd D s' r. unfold int_wireEncode. destruct (class_int _ _ D) as (o & Eo & K).
  destruct (getDefaultWireEncoding (s_heap s) i) as [[h1 w] wf] eqn:Eg.
  destruct (gdwe_spec _ i o Gd Eo _ _ _ Eg) as (G1 & S1 & V1 & C1 & o1 & E1 & O1 & W1 & F1 & Sn & Nc & _ & _ & Fu).
  pose proof (nonce_now_gdwe _ i o _ _ _ Gd Eo Eg) as NN1.
  assert (ENC : forall s' r, (let '(h2, n) := int_getNonce h1 i in match encI f rnd (int_value h2 i n) with
      | Ok w' => (State (if f =? s_default s then setDefaultWireEncoding h2 i (Some w') (Some f) else h2) (s_default s), Ok w')
      | Err e => (State h2 (s_default s), Err e) end) = (s', r) ->
    Good (s_heap s') /\ step (s_heap s) (s_heap s') /\ (forall j, V (s_heap s') j = V (s_heap s) j) /\ s_default s' = s_default s /\
    (r = encI f rnd (int_now (s_heap s) i) \/ exists w, r = Ok w /\ cohI f (int_now (s_heap s) i) w) /\
    (forall w, r = Ok w -> f = s_default s -> cached (s_heap s') i w f) /\
    nonce_now (s_heap s') i = nonce_now (s_heap s) i).
  { intros s'' r''. destruct (int_getNonce h1 i) as [h2 n] eqn:En.
    destruct (getNonce_spec h1 i o1 G1 E1 _ _ En) as (G2 & S2 & V2 & C2 & o2 & E2 & O2 & N2 & Ns2 & W2 & F2 & Sn2 & Nc2).
    pose proof (nonce_now_eq h1 i o1 h2 n (proj1 G1) E1 En) as NN2. rewrite NN1 in NN2.
    pose proof (nonce_now_idem h1 i o1 h2 n G1 E1 En) as NN3.
    assert (VAL : int_value h2 i n = int_now (s_heap s) i).
    { unfold int_now. rewrite NN2. apply int_value_V. intros j. rewrite V2. auto. }
    rewrite VAL. destruct (encI f rnd (int_now (s_heap s) i)) as [w'|e] eqn:Ee.
    - destruct (Z.eqb_spec f (s_default s)) as [Ef|Nf].
      + destruct (sdwe_props h2 i o2 (Some w') (Some f) G2 E2) as (G3 & S3 & V3 & C3 & o3 & E3 & W3 & F3 & Sn3 & Nn3 & Ns3 & Fu3).
        * rewrite O2, O1, K. discriminate.
        * intros _ w0 [= <-]. exists f. split; auto. split; [|auto]. left. exists rnd. rewrite <- Ee. f_equal. unfold int_now. rewrite NN3, NN2. apply int_value_V. intros j. rewrite V2. auto.
        * intros [= <- <-]. cbn [s_heap s_default]. split; auto. split; [eapply step_trans; [|eauto]; eapply step_trans; eauto|]. split; [intros; rewrite V3, V2; auto|]. split; auto. split; [|split].
          -- left. auto.
          -- intros w0 [= <-] _. split; eauto 10.
          -- rewrite (nonce_now_spec _ i o3 E3 (proj1 G3)). destruct (gcc_clean_id _ i o3 (proj1 G3) C3 E3) as [_ ->].
             rewrite Ns3, Ns2, Nn3, N2. rewrite NN2.
             assert (LC : o_count o3 = o_count o2).
             { revert E3. unfold setDefaultWireEncoding. destruct (gcc_clean_id h2 i o2 (proj1 G2) C2 E2) as [A B].
               pose proof (G_gcc h2 i (proj1 G2)) as GG.
               destruct (getChangeCount h2 i) as [h2' c]. cbn [fst snd] in A, B, GG. rewrite A.
               destruct (set_cache_props h2' i o2 (Cache (Some w') (Some f) c (ca_full (o_cache o2)) (ca_nonce (o_cache o2)) (ca_nonceSeen (o_cache o2))) (g_inv _ _ GG) A) as (_ & _ & _ & _ & X & _).
               rewrite X. intros [= <-]. auto. }
             rewrite LC, Z.eqb_refl. auto.
      + intros [= <- <-]. cbn [s_heap s_default]. split; auto. split; [eapply step_trans; eauto|]. split; [intros; rewrite V2; auto|]. split; auto. split; [left; auto|]. split; [intros; congruence|]. congruence.
    - intros [= <- <-]. cbn [s_heap s_default]. split; auto. split; [eapply step_trans; eauto|]. split; [intros; rewrite V2; auto|]. split; auto. split; [left; auto|]. split; [intros; congruence|]. congruence. }
  destruct w as [w|]; [|destruct (fmt_eqb wf f); intros H; apply ENC; exact H].
  destruct (fmt_eqb wf f) eqn:Ef; [|intros H; apply ENC; exact H].
  intros [= <- <-]. cbn [s_heap s_default]. destruct wf as [g|]; [|discriminate]. cbn in Ef. apply Z.eqb_eq in Ef. subst g.
  split; auto. split; auto. split; auto. split; auto. split; [|split]; auto.
  - right. exists w. split; auto. eapply gdwe_int; eauto.
  - intros w0 [= <-] _. split; eauto 10.
Qed.

(** ** setNonce *)
Lemma set_own_at : forall h i o v, nth_error h i = Some o -> nth_error (set_own h i v) i = Some (Obj v (o_kids o) (o_count o + 1) (o_cache o)).
Proof. intros h i o v E. unfold set_own. rewrite E. eapply nth_upd_eq; eauto. Qed.
Lemma setNonce_spec : forall h i o n, Good h -> nth_error h i = Some o ->
  let h' := int_setNonce h i n in
  Good h' /\ step h h' /\ (forall j, V h' j = V h j) /\ clean h' i /\
  exists o', nth_error h' i = Some o' /\ o_own o' = o_own o /\ o_count o < o_count o' /\ ca_nonce (o_cache o') = n /\ ca_nonceSeen (o_cache o') = o_count o'.
Proof.
  intros h i o n Gd E. unfold int_setNonce. rewrite E. cbn zeta.
  pose proof (G_set_own h i o (o_own o) (proj1 Gd) E eq_refl eq_refl) as G1.
  pose proof (set_own_at h i o (o_own o) E) as E1. set (h1 := set_own h i (o_own o)) in *. pose proof (Good_G _ _ G1 Gd) as Gd1.
  assert (V1 : forall j, V h1 j = V h j).
  { intros j. unfold h1. erewrite V_set_own by (apply V_nth; eauto). destruct (Nat.eqb_spec j i) as [-> |]; auto. symmetry. apply V_nth; auto. }
  pose proof (gcc_good h1 i _ Gd1 E1) as P.
  destruct (getChangeCount h1 i) as [h2 c]. cbn zeta in P. cbn [fst snd] in P. destruct P as (G2 & Gh & V2 & C2 & (o2 & E2 & N2 & Ca2 & O2 & L2)).
  cbn in Ca2, O2, L2. pose proof (proj2 (proj2 (proj2 Gd i o E))) as Ns.
  destruct (set_nonce_good h2 i o2 n c G2 E2 N2) as (G3 & S3 & V3 & C3 & o3 & E3 & O3 & N3 & A & B & _).
  { left. rewrite Ca2. lia. }
  split; auto. split; [eapply step_trans; [apply G1|eapply step_trans; [apply Gh|auto]]|]. split; [intros j; rewrite V3, V2; auto|]. split; auto.
  exists o3. repeat split; auto; try congruence. lia.
Qed.
Lemma nonce_now_set : forall h i o n, Good h -> nth_error h i = Some o -> nonce_now (int_setNonce h i n) i = n.
Proof.
  intros h i o n Gd E. destruct (setNonce_spec h i o n Gd E) as (G1 & S1 & V1 & C1 & o1 & E1 & O1 & L1 & N1 & Ns1).
  rewrite (nonce_now_spec _ i o1 E1 (proj1 G1)). destruct (gcc_clean_id _ i o1 (proj1 G1) C1 E1) as [_ ->]. rewrite Ns1, Z.eqb_refl. auto.
Qed.

(** ** Decoding *)
Lemma V_kids : forall h i v ks, Inv h -> V h i = Some (v, ks) -> map (class_at h) ks = map Some (kid_classes v).
Proof.
  intros h i v ks I E. unfold V in E. destruct (nth_error h i) as [o|] eqn:Eo; [|discriminate]. injection E as <- <-.
  destruct (I i o Eo) as [K _]. rewrite <- K, map_map. auto.
Qed.
Lemma kid_V : forall h i p, kid h i p = match V h i with Some (_, ks) => nth_error ks p | None => None end.
Proof.
  intros h i p. unfold kid, V. destruct (nth_error h i) as [o|]; auto. cbn.
  rewrite nth_error_map. destruct (nth_error (o_kids o) p) as [[k s]|]; auto.
Qed.
Lemma V_exists : forall h i p, V h i = Some p -> exists o, nth_error h i = Some o /\ o_own o = fst p /\ map fst (o_kids o) = snd p.
Proof. intros h i p E. unfold V in E. destruct (nth_error h i) as [o|]; [|discriminate]. injection E as <-. exists o. auto. Qed.
Lemma class_V : forall h i c, class_at h i = Some c -> exists v ks, V h i = Some (v, ks) /\ class_of v = c.
Proof. intros h i c E. rewrite V_class in E. destruct (V h i) as [[v ks]|]; [|discriminate]. injection E as E. eauto. Qed.
(* an assignment to an object of the same class (same sub-objects) *)
Lemma assign_spec : forall h i w ks v, Good h -> V h i = Some (w, ks) -> class_of v = class_of w -> kid_classes v = kid_classes w ->
  Good (set_own h i v) /\ step h (set_own h i v) /\ (forall j, V (set_own h i v) j = if Nat.eqb j i then Some (v, ks) else V h j) /\
  G h (set_own h i v).
Proof.
  intros h i w ks v Gd E C K. destruct (V_exists _ _ _ E) as (o & Eo & O & M). cbn in O, M. subst w ks.
  pose proof (G_set_own h i o v (proj1 Gd) Eo C K) as G1. split; [eapply Good_G; eauto|]. split; [apply G1|]. split; auto.
  intros j. apply (V_set_own h i v _ (o_own o)); auto.
Qed.
Lemma leaf_kids : forall h i v ks, Inv h -> V h i = Some (v, ks) -> kid_classes v = [] -> ks = [].
Proof. intros h i v ks I E K. apply (V_kids h i v ks I) in E. rewrite K in E. destruct ks; auto; discriminate. Qed.
Lemma data_V : forall h i, Inv h -> is_data h i -> exists c n m s, V h i = Some (OData c, [n; m; s]) /\
  (exists nm, V h n = Some (OName nm, [])) /\ (exists mi, V h m = Some (OMeta mi, [])) /\ class_at h s = Some CSig.
Proof.
  intros h i I D. destruct (class_V _ _ _ D) as (v & ks & E & C). destruct v; try discriminate.
  pose proof (V_kids h i _ _ I E) as K. cbn in K. destruct ks as [|n [|m [|s [|]]]]; try discriminate. injection K as K1 K2 K3.
  exists content, n, m, s. split; auto. split; [|split; auto].
  - destruct (class_V _ _ _ K1) as (v & ks & Ev & Cv). destruct v; try discriminate. rewrite (leaf_kids _ _ _ _ I Ev eq_refl) in Ev. eauto.
  - destruct (class_V _ _ _ K2) as (v & ks & Ev & Cv). destruct v; try discriminate. rewrite (leaf_kids _ _ _ _ I Ev eq_refl) in Ev. eauto.
Qed.

Lemma data_assign_spec : forall h i d, Good h -> is_data h i ->
  Good (data_assign h i d) /\ step h (data_assign h i d) /\ G h (data_assign h i d) /\ data_value (data_assign h i d) i = d.
Proof.
  intros h i d Gd D. destruct (data_V h i (proj1 Gd) D) as (c & n & m & s0 & Vi & (nm & Vn) & (mi & Vm) & Cs).
  unfold data_assign. rewrite !kid_V, Vi. cbn [nth_error].
  assert (Nmn : m <> n) by (intros ->; congruence). assert (Nin : i <> n) by (intros ->; congruence). assert (Nim : i <> m) by (intros ->; congruence).
  destruct (assign_spec h n _ _ (OName (d_name d)) Gd Vn eq_refl eq_refl) as (G1 & S1 & V1 & GG1). set (h1 := set_own h n _) in *.
  assert (Vm1 : V h1 m = Some (OMeta mi, [])). { rewrite V1. destruct (Nat.eqb_spec m n); auto; congruence. }
  destruct (assign_spec h1 m _ _ (OMeta (d_meta d)) G1 Vm1 eq_refl eq_refl) as (G2 & S2 & V2 & GG2). set (h2 := set_own h1 m _) in *.
  assert (Vi2 : V h2 i = Some (OData c, [n; m; s0])).
  { rewrite V2. destruct (Nat.eqb_spec i m); [congruence|]. rewrite V1. destruct (Nat.eqb_spec i n); [congruence|]. auto. }
  destruct (assign_spec h2 i _ _ (OData (d_content d)) G2 Vi2 eq_refl eq_refl) as (G3 & S3 & V3 & GG3). set (h3 := set_own h2 i _) in *.
  destruct (alloc_sig_spec h3 (d_sig d) (proj1 G3)) as [N4 D4]. destruct (alloc_sig h3 (d_sig d)) as [h4 s].
  pose proof (n_G _ _ _ N4) as GG4. pose proof (Good_G _ _ GG4 G3) as G4. pose proof (n_len _ _ _ N4) as L4. pose proof (n_V _ _ _ N4) as V4. pose proof (n_class _ _ _ N4) as C4.
  cbn [fst snd] in *.
  assert (Vi3 : V h3 i = Some (OData (d_content d), [n; m; s0])). { rewrite V3, Nat.eqb_refl. auto. }
  assert (Vi4 : V h4 i = Some (OData (d_content d), [n; m; s0])). { rewrite V4; auto. eapply V_lt; eauto. }
  destruct (V_exists _ _ _ Vi4) as (o4 & E4 & O4 & K4). cbn in O4, K4.
  destruct (G_set_kid h4 i 2 s o4 CSig (proj1 G4) E4) as [GG5 V5]; auto.
  { rewrite O4. auto. }
  assert (GT : G h (set_kid h4 i 2 s)).
  { eapply G_trans; [apply GG1|]. eapply G_trans; [apply GG2|]. eapply G_trans; [apply GG3|]. eapply G_trans; [apply GG4|apply GG5]. }
  split; [eapply Good_G; eauto|]. split; [apply GT|]. split; auto.
  unfold data_value. rewrite deep_V, V5, Nat.eqb_refl, O4, K4. cbn [replace_nth firstn skipn app map t_data].
  assert (Vn5 : V (set_kid h4 i 2 s) n = Some (OName (d_name d), [])).
  { rewrite V5. destruct (Nat.eqb_spec n i); [congruence|]. rewrite V4.
    - rewrite V3. destruct (Nat.eqb_spec n i); [congruence|]. rewrite V2. destruct (Nat.eqb_spec n m); [congruence|]. rewrite V1, Nat.eqb_refl. auto.
    - eapply class_lt. eapply step_class; [eapply step_trans; [apply S1|eapply step_trans; eauto]|]. rewrite V_class, Vn. reflexivity. }
  assert (Vm5 : V (set_kid h4 i 2 s) m = Some (OMeta (d_meta d), [])).
  { rewrite V5. destruct (Nat.eqb_spec m i); [congruence|]. rewrite V4.
    - rewrite V3. destruct (Nat.eqb_spec m i); [congruence|]. rewrite V2, Nat.eqb_refl. auto.
    - eapply class_lt. eapply step_class; [eapply step_trans; [apply S2|eauto]|]. rewrite V_class, Vm1. reflexivity. }
  rewrite !(deep_V 2), Vn5, Vm5. cbn [t_name t_meta map]. rewrite <- (deep_V 2). rewrite D4; [destruct d; auto|].
  intros j Hj. rewrite V5. destruct (Nat.eqb_spec j i); auto. subst j. pose proof (V_lt _ _ _ Vi3). lia.
Qed.

Lemma data_decode_spec : forall s i f input, Good (s_heap s) -> is_data (s_heap s) i -> forall s' r, data_wireDecode decD partD s i f input = (s', r) ->
  Good (s_heap s') /\ step (s_heap s) (s_heap s').
Proof.
  intros s i f input Gd D s' r. unfold data_wireDecode. destruct (decD f (data_value (s_heap s) i) input) as [[d offs]|e] eqn:Ed.
  - destruct (data_assign_spec (s_heap s) i d Gd D) as (G1 & S1 & GG1 & D1). set (h1 := data_assign _ _ _) in *.
    pose proof (step_class _ _ _ _ S1 D) as C1. destruct (class_data h1 i C1) as (o1 & E1 & K1).
    destruct (Z.eqb_spec f (s_default s)) as [Ef|Nf]; intros [= <- <-]; cbn [s_heap].
    + destruct (sdwe_props h1 i o1 (Some (input, offs)) (Some f) G1 E1) as (G2 & S2 & _).
      * intros _ w' [= <-]. exists f. split; auto. right. exists (data_value (s_heap s) i). cbn. rewrite D1. auto.
      * rewrite K1. discriminate.
      * split; auto. eapply step_trans; eauto.
    + destruct (sdwe_props h1 i o1 None None G1 E1) as (G2 & S2 & _).
      * discriminate.
      * discriminate.
      * split; auto. eapply step_trans; eauto.
  - destruct (partD f (data_value (s_heap s) i) input) as [d|]; intros [= <- <-]; cbn [s_heap].
    + destruct (data_assign_spec (s_heap s) i d Gd D) as (G1 & S1 & _). auto.
    + auto using step_refl.
Qed.

Lemma int_V : forall h i, Inv h -> is_int h i -> exists v n kl ex ds kn t b, V h i = Some (OInt v, [n; kl; ex; ds]) /\
  (exists nm, V h n = Some (OName nm, [])) /\ V h kl = Some (OKl t b, [kn]) /\ (exists nm, V h kn = Some (OName nm, [])) /\
  (exists es, V h ex = Some (OExcl es, [])) /\ (exists l, V h ds = Some (ODel l, [])).
Proof.
  intros h i I D. destruct (class_V _ _ _ D) as (v & ks & E & C). destruct v; try discriminate.
  pose proof (V_kids h i _ _ I E) as K. cbn in K. destruct ks as [|n [|kl [|ex [|ds [|]]]]]; try discriminate. injection K as K1 K2 K3 K4.
  destruct (class_V _ _ _ K2) as (v2 & ks2 & E2 & C2). destruct v2 as [| | |t b| | | | |]; try discriminate.
  pose proof (V_kids h kl _ _ I E2) as K5. cbn in K5. destruct ks2 as [|kn [|]]; try discriminate. injection K5 as K5.
  exists i0, n, kl, ex, ds, kn, t, b. split; auto.
  assert (LF : forall j c, class_at h j = Some c -> (c = CName -> exists nm, V h j = Some (OName nm, [])) /\
     (c = CExcl -> exists es, V h j = Some (OExcl es, [])) /\ (c = CDel -> exists l, V h j = Some (ODel l, []))).
  { intros j c Cj. destruct (class_V _ _ _ Cj) as (w & ks & Ew & Cw).
    split; [|split]; intros ->; destruct w; try discriminate; rewrite (leaf_kids _ _ _ _ I Ew eq_refl) in Ew; eauto. }
  split; [apply (LF _ _ K1); auto|]. split; auto. split; [apply (LF _ _ K5); auto|]. split; [apply (LF _ _ K3); auto|apply (LF _ _ K4); auto].
Qed.


Lemma int_assign_spec : forall h i v b, Good h -> is_int h i ->
  let h' := int_assign h i v b in
  Good h' /\ step h h' /\ (unshared h i -> forall n, int_value h' i n = Interest (i_name v) (i_min v) (i_max v) (i_keyLocator v) (i_exclude v) (i_child v) (i_mustBeFresh v) n (i_lifetime v) (i_hint v) (i_params v) (i_link v) (i_selected v)) /\
  (b = true -> nonce_now h' i = i_nonce v /\ clean h' i /\ exists o', nth_error h' i = Some o' /\ ca_nonceSeen (o_cache o') = o_count o').
Proof.
  intros h i v b Gd D. destruct (int_V h i (proj1 Gd) D) as (v0 & n & kl & ex & ds & kn & t & kb & Vi & (nm & Vn) & Vkl & (knm & Vkn) & (es & Vex) & (l & Vds)).
  cbn zeta. unfold int_assign. rewrite !kid_V, Vi. cbn [nth_error].
  assert (Ndif : forall a a' p p', V h a = Some p -> V h a' = Some p' -> class_of (fst p) <> class_of (fst p') -> a <> a') by (intros; congruence).
  assert (kl <> n) by (apply (Ndif _ _ _ _ Vkl Vn); cbn; congruence).
  assert (kl <> kn) by (apply (Ndif _ _ _ _ Vkl Vkn); cbn; congruence).
  assert (ex <> n) by (apply (Ndif _ _ _ _ Vex Vn); cbn; congruence).
  assert (ex <> kn) by (apply (Ndif _ _ _ _ Vex Vkn); cbn; congruence).
  assert (ex <> kl) by (apply (Ndif _ _ _ _ Vex Vkl); cbn; congruence).
  assert (ds <> n) by (apply (Ndif _ _ _ _ Vds Vn); cbn; congruence).
  assert (ds <> kn) by (apply (Ndif _ _ _ _ Vds Vkn); cbn; congruence).
  assert (ds <> kl) by (apply (Ndif _ _ _ _ Vds Vkl); cbn; congruence).
  assert (ds <> ex) by (apply (Ndif _ _ _ _ Vds Vex); cbn; congruence).
  assert (i <> n) by (apply (Ndif _ _ _ _ Vi Vn); cbn; congruence).
  assert (i <> kn) by (apply (Ndif _ _ _ _ Vi Vkn); cbn; congruence).
  assert (i <> kl) by (apply (Ndif _ _ _ _ Vi Vkl); cbn; congruence).
  assert (i <> ex) by (apply (Ndif _ _ _ _ Vi Vex); cbn; congruence).
  assert (i <> ds) by (apply (Ndif _ _ _ _ Vi Vds); cbn; congruence).
  clear Ndif.
  destruct (assign_spec h n _ _ (OName (i_name v)) Gd Vn eq_refl eq_refl) as (G1 & S1 & V1 & GG1). set (h1 := set_own h n _) in *.
  assert (Vkl1 : V h1 kl = Some (OKl t kb, [kn])). { rewrite V1. destruct (Nat.eqb_spec kl n); auto; congruence. }
  rewrite kid_V, Vkl1. cbn [nth_error].
  assert (exists nm', V h1 kn = Some (OName nm', [])) as (nm' & Vkn1).
  { rewrite V1. destruct (Nat.eqb_spec kn n); eauto. }
  destruct (assign_spec h1 kn _ _ (OName (kl_name (i_keyLocator v))) G1 Vkn1 eq_refl eq_refl) as (G2 & S2 & V2 & GG2). set (h2 := set_own h1 kn _) in *.
  assert (Vkl2 : V h2 kl = Some (OKl t kb, [kn])). { rewrite V2. destruct (Nat.eqb_spec kl kn); auto; congruence. }
  destruct (assign_spec h2 kl _ _ (OKl (kl_type (i_keyLocator v)) (kl_data (i_keyLocator v))) G2 Vkl2 eq_refl eq_refl) as (G3 & S3 & V3 & GG3). set (h3 := set_own h2 kl _) in *.
  assert (Vex3 : V h3 ex = Some (OExcl es, [])).
  { rewrite V3. destruct (Nat.eqb_spec ex kl); [congruence|]. rewrite V2. destruct (Nat.eqb_spec ex kn); [congruence|]. rewrite V1. destruct (Nat.eqb_spec ex n); [congruence|]. auto. }
  destruct (assign_spec h3 ex _ _ (OExcl (i_exclude v)) G3 Vex3 eq_refl eq_refl) as (G4 & S4 & V4 & GG4). set (h4 := set_own h3 ex _) in *.
  assert (Vds4 : V h4 ds = Some (ODel l, [])).
  { rewrite V4. destruct (Nat.eqb_spec ds ex); [congruence|]. rewrite V3. destruct (Nat.eqb_spec ds kl); [congruence|]. rewrite V2. destruct (Nat.eqb_spec ds kn); [congruence|]. rewrite V1. destruct (Nat.eqb_spec ds n); [congruence|]. auto. }
  destruct (assign_spec h4 ds _ _ (ODel (i_hint v)) G4 Vds4 eq_refl eq_refl) as (G5 & S5 & V5 & GG5). set (h5 := set_own h4 ds _) in *.
  assert (Vi5 : V h5 i = Some (OInt v0, [n; kl; ex; ds])).
  { rewrite V5. destruct (Nat.eqb_spec i ds); [congruence|]. rewrite V4. destruct (Nat.eqb_spec i ex); [congruence|]. rewrite V3. destruct (Nat.eqb_spec i kl); [congruence|]. rewrite V2. destruct (Nat.eqb_spec i kn); [congruence|]. rewrite V1. destruct (Nat.eqb_spec i n); [congruence|]. auto. }
  destruct (assign_spec h5 i _ _ (OInt v) G5 Vi5 eq_refl eq_refl) as (G6 & S6 & V6 & GG6). set (h6 := set_own h5 i _) in *.
  assert (S06 : step h h6).
  { eapply step_trans; [apply S1|]. eapply step_trans; [apply S2|]. eapply step_trans; [apply S3|]. eapply step_trans; [apply S4|]. eapply step_trans; [apply S5|apply S6]. }
  assert (VAL : unshared h i -> forall nn, int_value h6 i nn = Interest (i_name v) (i_min v) (i_max v) (i_keyLocator v) (i_exclude v) (i_child v) (i_mustBeFresh v) nn (i_lifetime v) (i_hint v) (i_params v) (i_link v) (i_selected v)).
  { intros US nn. specialize (US kl n kn). rewrite !kid_V, Vi, Vkl in US. specialize (US eq_refl eq_refl eq_refl).
    assert (Vi6 : V h6 i = Some (OInt v, [n; kl; ex; ds])) by (rewrite V6, Nat.eqb_refl; auto).
    assert (W : forall a, a <> i -> V h6 a = V h5 a) by (intros a Ha; rewrite V6; destruct (Nat.eqb_spec a i); congruence).
    assert (Vds6 : V h6 ds = Some (ODel (i_hint v), [])) by (rewrite W by auto; rewrite V5, Nat.eqb_refl; auto).
    assert (Vex6 : V h6 ex = Some (OExcl (i_exclude v), [])).
    { rewrite W by auto. rewrite V5. destruct (Nat.eqb_spec ex ds); [congruence|]. rewrite V4, Nat.eqb_refl. auto. }
    assert (Vkl6 : V h6 kl = Some (OKl (kl_type (i_keyLocator v)) (kl_data (i_keyLocator v)), [kn])).
    { rewrite W by auto. rewrite V5. destruct (Nat.eqb_spec kl ds); [congruence|]. rewrite V4. destruct (Nat.eqb_spec kl ex); [congruence|]. rewrite V3, Nat.eqb_refl. auto. }
    assert (Vkn6 : V h6 kn = Some (OName (kl_name (i_keyLocator v)), [])).
    { rewrite W by auto. rewrite V5. destruct (Nat.eqb_spec kn ds); [congruence|]. rewrite V4. destruct (Nat.eqb_spec kn ex); [congruence|]. rewrite V3. destruct (Nat.eqb_spec kn kl); [congruence|]. rewrite V2, Nat.eqb_refl. auto. }
    assert (Vn6 : V h6 n = Some (OName (i_name v), [])).
    { rewrite W by auto. rewrite V5. destruct (Nat.eqb_spec n ds); [congruence|]. rewrite V4. destruct (Nat.eqb_spec n ex); [congruence|]. rewrite V3. destruct (Nat.eqb_spec n kl); [congruence|]. rewrite V2. destruct (Nat.eqb_spec n kn); [congruence|]. rewrite V1, Nat.eqb_refl. auto. }
    unfold int_value. rewrite deep_V, Vi6. cbn [map t_int]. rewrite !(deep_V 2), Vn6, Vkl6, Vex6, Vds6. cbn [map t_name t_excl t_del].
    rewrite (deep_V 1), Vkn6. cbn. destruct (i_keyLocator v); auto. }
  destruct b.
  - destruct (V_exists h6 i (OInt v, [n; kl; ex; ds])) as (o6 & E6 & _); [rewrite V6, Nat.eqb_refl; auto|].
    destruct (setNonce_spec h6 i o6 (i_nonce v) G6 E6) as (G7 & S7 & V7 & C7 & o7 & E7 & O7 & L7 & N7 & Ns7).
    split; auto. split; [eapply step_trans; eauto|]. split.
    + intros US nn. rewrite <- (VAL US nn). apply int_value_V. auto.
    + intros _. split; [|split; eauto]. eapply nonce_now_set; eauto.
  - split; auto. split; auto. split; auto. discriminate.
Qed.
Lemma int_decode_spec : forall s i f input, Good (s_heap s) -> is_int (s_heap s) i -> unshared (s_heap s) i -> forall s' r, int_wireDecode decI partI s i f input = (s', r) ->
  Good (s_heap s') /\ step (s_heap s) (s_heap s').
Proof.
  intros s i f input Gd D US s' r. unfold int_wireDecode. destruct (int_getNonce (s_heap s) i) as [h0 n0].
  destruct (decI f (int_value h0 i n0) input) as [[v offs]|e] eqn:Ed.
  - destruct (int_assign_spec (s_heap s) i v true Gd D) as (G1 & S1 & VAL & NN). set (h1 := int_assign _ _ _ _) in *.
    destruct (NN eq_refl) as (NN1 & C1 & o1 & E1 & Ns1).
    assert (IV : int_now h1 i = v). { unfold int_now. rewrite NN1, (VAL US). destruct v; auto. }
    destruct (Z.eqb_spec f (s_default s)) as [Ef|Nf]; intros [= <- <-]; cbn [s_heap].
    + destruct (sdwe_props h1 i o1 (Some (input, offs)) (Some f) G1 E1) as (G2 & S2 & _).
      * pose proof (step_class _ _ _ _ S1 D) as CI. unfold class_at in CI. rewrite E1 in CI. injection CI as ->. discriminate.
      * intros _ w' [= <-]. exists f. split; auto. split; [|split]; auto. right. eexists. cbn. rewrite IV. eauto.
      * split; auto. eapply step_trans; eauto.
    + destruct (sdwe_props h1 i o1 None None G1 E1) as (G2 & S2 & _).
      * discriminate.
      * discriminate.
      * split; auto. eapply step_trans; eauto.
  - destruct (partI f (int_value h0 i n0) input) as [[v b]|]; intros [= <- <-]; cbn [s_heap].
    + destruct (int_assign_spec (s_heap s) i v b Gd D) as (G1 & S1 & _). auto.
    + auto using step_refl.
Qed.

(** ** The full name *)
Lemma set_full_spec : forall h i fn o, Good h -> nth_error h i = Some o ->
  Good (set_full h i fn) /\ step h (set_full h i fn) /\ (forall j, V (set_full h i fn) j = V h j) /\ (forall j, clean h j -> clean (set_full h i fn) j) /\
  exists o', nth_error (set_full h i fn) i = Some o' /\ ca_full (o_cache o') = Some fn /\ ca_wire (o_cache o') = ca_wire (o_cache o) /\
    ca_fmt (o_cache o') = ca_fmt (o_cache o) /\ ca_seen (o_cache o') = ca_seen (o_cache o) /\ o_count o' = o_count o.
Proof.
  intros h i fn o Gd E. unfold set_full. rewrite E. set (ca := Cache _ _ _ (Some fn) _ _).
  destruct (set_cache_props h i o ca (proj1 Gd) E) as (I' & S & _ & V' & E' & N' & CL).
  split; [|split; [|split; [|split]]]; auto.
  - apply (Good_set_cache h i o); auto. destruct (proj2 Gd i o E) as (A & B & C). split; [|split]; auto.
  - eexists. split; [apply E'|]. cbn. auto 10.
Qed.
Lemma leaf_good : forall h v, Good h -> kid_classes v = [] -> Good (fst (alloc h v [])) /\ step h (fst (alloc h v [])) /\ snd (alloc h v []) = length h /\
  (forall j o, nth_error h j = Some o -> nth_error (fst (alloc h v [])) j = Some o) /\ V (fst (alloc h v [])) (length h) = Some (v, []) /\
  (forall j, (j < length h)%nat -> V (fst (alloc h v [])) j = V h j).
Proof.
  intros h v Gd K. destruct (alloc_leaf h v (proj1 Gd) K) as [N D]. split; [eapply Good_G; [apply (n_G _ _ _ N)|auto]|].
  split; [apply (n_G _ _ _ N)|]. split; auto. split; [|split; [|apply (n_V _ _ _ N)]].
  - intros j o E. cbn. rewrite nth_error_app1; auto. apply nth_error_Some. congruence.
  - unfold V. cbn. rewrite nth_error_app2, Nat.sub_diag by lia. auto.
Qed.


Lemma cached_alloc : forall h i w f v, cached h i w f -> cached (fst (alloc h v [])) i w f.
Proof.
  intros h i w f v (C & o & E & R).
  assert (P : forall j q, nth_error h j = Some q -> nth_error (fst (alloc h v [])) j = Some q).
  { intros j q Q. cbn. rewrite nth_error_app1; auto. apply nth_error_Some. congruence. }
  split; [|eauto]. apply (clean_keep h); auto. intros j Cj. destruct Cj as [q Q _ _]. rewrite Q. auto.
Qed.
Lemma cached_full : forall h i w f fn, Good h -> cached h i w f -> cached (set_full h i fn) i w f.
Proof.
  intros h i w f fn Gd (C & o & E & W & F & S). destruct (set_full_spec h i fn o Gd E) as (_ & _ & _ & CL & o' & E' & _ & W' & F' & S' & Ct').
  split; auto. exists o'. repeat split; auto; congruence.
Qed.

Lemma compute_spec : forall s i f, Good (s_heap s) -> is_data (s_heap s) i -> forall s' r, compute_fullName encD sha256 s i f = (s', r) ->
  Good (s_heap s') /\ step (s_heap s) (s_heap s') /\ s_default s' = s_default s /\
  (forall j, (j < length (s_heap s))%nat -> V (s_heap s') j = V (s_heap s) j) /\
  forall n, r = Ok n -> exists w c, snd (data_wireEncode encD s i f) = Ok w /\
    c_fromImplicitSha256Digest (sha256 (fst w)) = Ok c /\ V (s_heap s') n = Some (OName (d_name (data_value (s_heap s) i) ++ [c]), []) /\
    (f = s_default s -> cached (s_heap s') i w f /\ exists o, nth_error (s_heap s') i = Some o /\ ca_full (o_cache o) = Some n).
Proof.
  intros s i f Gd D s' r. unfold compute_fullName. destruct (data_wireEncode encD s i f) as [s2 r2] eqn:Ew.
  destruct (data_encode_spec s i f Gd D s2 r2 Ew) as (G2 & S2 & V2 & Df & Coh & Again & Fu). cbn [snd].
  destruct r2 as [w|e]; [|intros [= <- <-]; split; auto; split; auto; split; auto; split; auto; discriminate].
  destruct (c_fromImplicitSha256Digest (sha256 (fst w))) as [c|e] eqn:Ec; [|intros [= <- <-]; split; auto; split; auto; split; auto; split; auto; discriminate].
  pose proof (step_class _ _ _ _ S2 D) as D2. destruct (class_data _ _ D2) as (o2 & E2 & K2).
  set (nm := OName (d_name (data_value (s_heap s) i) ++ [c])).
  assert (LL : length (s_heap s2) = length (s_heap s)).
  { destruct (Nat.lt_trichotomy (length (s_heap s2)) (length (s_heap s))) as [L|[L|L]]; auto; exfalso.
    - pose proof (V2 (length (s_heap s2))) as X. unfold V in X. rewrite (proj2 (nth_error_None (s_heap s2) _)) in X by lia.
      destruct (nth_error (s_heap s) (length (s_heap s2))) eqn:Q; [discriminate|]. apply nth_error_None in Q. lia.
    - pose proof (V2 (length (s_heap s))) as X. unfold V in X. rewrite (proj2 (nth_error_None (s_heap s) _)) in X by lia.
      destruct (nth_error (s_heap s2) (length (s_heap s))) eqn:Q; [discriminate|]. apply nth_error_None in Q. lia. }
  destruct (leaf_good (s_heap s2) nm G2 eq_refl) as (G3 & S3 & L3 & P3 & V3 & W3).
  pose proof (fun w => cached_alloc (s_heap s2) i w f nm) as CA.
  destruct (alloc (s_heap s2) nm []) as [h3 fn]. cbn [fst snd] in *. pose proof (P3 _ _ E2) as E3.
  destruct (Z.eqb_spec f (s_default s)) as [Ef|Nf]; intros [= <- <-]; cbn [s_heap s_default].
  - destruct (set_full_spec h3 i fn o2 G3 E3) as (G4 & S4 & V4 & C4 & o4 & E4 & F4 & _).
    split; auto. split; [eapply step_trans; [apply S2|eapply step_trans; eauto]|]. split; auto. split.
    { intros j Hj. rewrite V4, W3, V2; auto. lia. }
    intros n [= <-]. exists w, c. split; auto. split; auto. split; [rewrite V4, L3; auto|].
    intros _. split; eauto. apply cached_full; auto.
  - split; auto. split; [eapply step_trans; eauto|]. split; auto. split.
    { intros j Hj. rewrite W3, V2; auto. lia. }
    intros n [= <-]. exists w, c. split; auto. split; auto. split; [rewrite L3; auto|]. intros; congruence.
Qed.
Lemma fullName_good : forall s i f, Good (s_heap s) -> is_data (s_heap s) i -> forall s' r, data_getFullName encD sha256 s i f = (s', r) ->
  Good (s_heap s') /\ step (s_heap s) (s_heap s').
Proof.
  intros s i f Gd D s' r. unfold data_getFullName. destruct (class_data _ _ D) as (o & Eo & K).
  destruct (getDefaultWireEncoding (s_heap s) i) as [[h1 w] wf] eqn:Eg.
  destruct (gdwe_spec _ i o Gd Eo _ _ _ Eg) as (G1 & S1 & _).
  assert (X : forall s' r, compute_fullName encD sha256 (State h1 (s_default s)) i f = (s', r) -> Good (s_heap s') /\ step (s_heap s) (s_heap s')).
  { intros s'' r'' H. destruct (compute_spec (State h1 (s_default s)) i f G1 (step_class _ _ _ _ S1 D) _ _ H) as (G2 & S2 & _). cbn [s_heap] in *. split; auto. eapply step_trans; eauto. }
  destruct w as [w|]; [|intros H; eapply X; eauto].
  destruct (nth_error h1 i) as [o1|]; [|intros H; eapply X; eauto].
  destruct (ca_full (o_cache o1)) as [n|]; [|intros H; eapply X; eauto].
  destruct ((0 <? zlen (name_at h1 n)) && fmt_eqb wf f); [intros [= <- <-]; auto|intros H; eapply X; eauto].
Qed.

(** ** Copies *)
Lemma alloc_count : forall h v ks, exists o, nth_error (fst (alloc h v ks)) (snd (alloc h v ks)) = Some o /\ o_count o = 0 /\ o_own o = v.
Proof. intros h v ks. cbn. eexists. rewrite nth_error_app2, Nat.sub_diag by lia. cbn. eauto. Qed.
Lemma alloc_data_count : forall h d, exists o, nth_error (fst (alloc_data h d)) (snd (alloc_data h d)) = Some o /\ o_count o = 0 /\ class_of (o_own o) = CData.
Proof.
  intros h d. unfold alloc_data. destruct (alloc h _ []) as [h1 n]. destruct (alloc h1 _ []) as [h2 m]. destruct (alloc_sig h2 _) as [h3 s].
  destruct (alloc_count h3 (OData (d_content d)) [n; m; s]) as (o & A & B & C). exists o. rewrite C. auto.
Qed.
Lemma alloc_int_count : forall h v, exists o, nth_error (fst (alloc_int h v)) (snd (alloc_int h v)) = Some o /\ o_count o = 0 /\ class_of (o_own o) = CInt.
Proof.
  intros h v. unfold alloc_int. destruct (alloc h _ []) as [h1 n]. destruct (alloc_kl h1 _) as [h2 m]. destruct (alloc h2 _ []) as [h3 s]. destruct (alloc h3 _ []) as [h4 s4].
  destruct (alloc_count h4 (OInt v) [n; m; s; s4]) as (o & A & B & C). exists o. rewrite C. auto.
Qed.
Lemma data_copy_good : forall h i, Good h -> is_data h i -> Good (fst (data_copy h i)) /\ step h (fst (data_copy h i)) /\
  is_data (fst (data_copy h i)) (snd (data_copy h i)) /\ data_value (fst (data_copy h i)) (snd (data_copy h i)) = data_value h i.
Proof.
  intros h i Gd D. unfold data_copy. destruct (class_data _ _ D) as (o & Eo & K).
  destruct (getDefaultWireEncoding h i) as [[h1 w] wf] eqn:Eg.
  destruct (gdwe_spec _ i o Gd Eo _ _ _ Eg) as (G1 & S1 & V1 & C1 & o1 & E1 & O1 & W1 & F1 & _).
  assert (COH : forall w', w = Some w' -> exists f, wf = Some f /\ cohD f (data_value h i) w').
  { intros w' ->. destruct (proj2 G1 i o1 E1) as (OD & _). rewrite O1 in OD. destruct (OD K w' W1) as (f & Ff & _). exists f.
    rewrite <- F1. split; auto. eapply gdwe_data; eauto. rewrite Eg, <- F1, Ff. auto. }
  destruct (alloc_data_spec h1 (data_value h i) (proj1 G1)) as [N2 D2]. destruct (alloc_data_count h1 (data_value h i)) as (o2 & E2 & Ct2 & K2).
  destruct (alloc_data h1 (data_value h i)) as [h2 j]. cbn [fst snd] in *. pose proof (Good_G _ _ (n_G _ _ _ N2) G1) as G2. cbn [fst] in G2.
  assert (FIN : forall h3 fn, Good h3 -> step h2 h3 -> nth_error h3 j = Some o2 -> has_new (length h1) h2 h3 ->
    Good (set_cache h3 j (Cache w wf 0 fn None 0)) /\ step h (set_cache h3 j (Cache w wf 0 fn None 0)) /\ is_data (set_cache h3 j (Cache w wf 0 fn None 0)) j /\
    data_value (set_cache h3 j (Cache w wf 0 fn None 0)) j = data_value h i).
  { intros h3 fn G3 S3 E3 HN. destruct (set_cache_props h3 j o2 (Cache w wf 0 fn None 0) (proj1 G3) E3) as (I' & S & _ & V' & E' & N' & CL).
    split; [|split; [|split]].
    - apply (Good_set_cache h3 j o2); auto. cbn. split; [|split]; cbn; [|congruence|lia].
      intros _ w' Hw. cbn in Hw. destruct (COH w' Hw) as (f & Hf & Co). exists f. split; auto. exists h3, o2.
      split; [apply G3|]. split; [apply step_refl|]. split; auto. split; auto. rewrite D2; auto.
    - eapply step_trans; [apply S1|]. eapply step_trans; [apply (g_step _ _ (n_G _ _ _ N2))|]. eapply step_trans; eauto.
    - unfold is_data, class_at. rewrite E'. cbn. congruence.
    - rewrite (data_value_V h3 _ j V'). auto. }
  destruct (match nth_error h1 i with Some o => ca_full (o_cache o) | None => None end) as [n|].
  - destruct (leaf_good h2 (OName (name_at h2 n)) G2 eq_refl) as (G3 & S3 & L3 & P3 & V3 & W3).
    destruct (alloc h2 _ []) as [h3 m]. cbn [fst snd] in *. apply FIN; auto. intros q Hq. apply W3. lia.
  - cbn [fst snd]. apply FIN; auto using step_refl. intros q Hq. auto.
Qed.
Lemma int_copy_good : forall h i, Good h -> is_int h i -> Good (fst (int_copy h i)) /\ step h (fst (int_copy h i)) /\
  is_int (fst (int_copy h i)) (snd (int_copy h i)) /\ int_now (fst (int_copy h i)) (snd (int_copy h i)) = int_now h i.
Proof.
  intros h i Gd D. unfold int_copy. destruct (class_int _ _ D) as (o & Eo & K).
  destruct (int_getNonce h i) as [h0 n] eqn:En.
  destruct (getNonce_spec h i o Gd Eo _ _ En) as (G0 & S0 & V0 & C0 & o0 & E0 & O0 & Nn0 & Ns0 & _).
  pose proof (nonce_now_idem h i o h0 n Gd Eo En) as NN0. pose proof (nonce_now_eq h i o h0 n (proj1 Gd) Eo En) as NN.
  destruct (getDefaultWireEncoding h0 i) as [[h1 w] wf] eqn:Eg.
  destruct (gdwe_spec _ i o0 G0 E0 _ _ _ Eg) as (G1 & S1 & V1 & C1 & o1 & E1 & O1 & W1 & F1 & _).
  assert (VN : int_value h0 i n = int_now h i) by (unfold int_now; rewrite NN; apply int_value_V; auto).
  assert (VN0 : int_now h0 i = int_now h i) by (rewrite <- VN; unfold int_now; rewrite NN0; auto).
  assert (COH : forall w', w = Some w' -> exists f, wf = Some f /\ cohI f (int_now h i) w').
  { intros w' ->. destruct (proj2 G1 i o1 E1) as (_ & OI & _). rewrite O1, O0 in OI. destruct (OI K w' W1) as (f & m & Ff & _). exists f.
    rewrite <- F1. split; auto. rewrite <- VN0. eapply gdwe_int; eauto. eapply step_class; eauto. rewrite Eg, <- F1, Ff. auto. }
  set (v := int_value h0 i n) in *.
  assert (NV : i_nonce v = n).
  { unfold v. assert (Di0 : is_int h0 i) by (eapply step_class; eauto). destruct (int_V h0 i (proj1 G0) Di0) as (v1 & a & b & c & d & _ & _ & _ & Vi & _).
    unfold int_value. rewrite deep_V, Vi. reflexivity. }
  destruct (alloc_int_spec h1 v (proj1 G1)) as [N2 D2]. destruct (alloc_int_count h1 v) as (o2 & E2 & Ct2 & K2).
  destruct (alloc_int h1 v) as [h2 j]. cbn [fst snd] in *. pose proof (Good_G _ _ (n_G _ _ _ N2) G1) as G2. cbn [fst] in G2.
  rewrite NV in D2. specialize (D2 h2 (fun q _ => eq_refl)).
  destruct (set_cache_props h2 j o2 (Cache w wf 0 None n 0) (proj1 G2) E2) as (I' & S & _ & V' & E' & N' & CL).
  assert (GF : Good (set_cache h2 j (Cache w wf 0 None n 0))).
  { apply (Good_set_cache h2 j o2); auto. cbn. split; [|split]; cbn; [congruence| |lia].
    intros _ w' Hw. cbn in Hw. destruct (COH w' Hw) as (f & Hf & Co). exists f, n. cbn. split; auto. split; [lia|]. split; auto. exists h2, o2.
    split; [apply G2|]. split; [apply step_refl|]. split; auto. split; auto. rewrite D2, VN. auto. }
  split; [auto|]. split; [|split].
  - eapply step_trans; [apply S0|]. eapply step_trans; [apply S1|]. eapply step_trans; [apply (g_step _ _ (n_G _ _ _ N2))|exact S].
  - unfold is_int, class_at. rewrite E'. cbn. congruence.
  - unfold int_now at 1. rewrite (int_value_V h2 _ j _ V'). rewrite (nonce_now_spec _ j _ E' (proj1 GF)). cbn [o_cache ca_nonceSeen ca_nonce].
    assert (CLN : clean (set_cache h2 j (Cache w wf 0 None n 0)) j) by (apply CL; apply (n_clean _ _ _ N2)).
    destruct (gcc_clean_id _ j _ (proj1 GF) CLN E') as [_ ->]. cbn. rewrite Ct2. cbn. congruence.
Qed.

(** ** Every call keeps the invariant *)
Notation exec' := (exec encD decD partD encI decI partI sha256).
Lemma is_class_true : forall h i c, is_class h i c = true -> class_at h i = Some c.
Proof. intros h i c. unfold is_class. destruct (class_at h i) as [k|]; [|discriminate]. destruct k, c; try discriminate; auto. Qed.
Lemma guard_case : forall b s r (P : state * res out -> Prop), (b = false -> P (s, Err AttributeError)) -> (b = true -> P r) -> P (guard b s r).
Proof. intros [] s r P A B; cbn; auto. Qed.

Lemma good_own : forall h i o v, Good h -> nth_error h i = Some o -> class_of v = class_of (o_own o) -> kid_classes v = kid_classes (o_own o) ->
  Good (set_own h i v) /\ step h (set_own h i v).
Proof. intros h i o v Gd E C K. pose proof (G_set_own h i o v (proj1 Gd) E C K) as G1. split; [eapply Good_G; eauto|apply G1]. Qed.
Lemma class_obj : forall h i c, class_at h i = Some c -> exists o, nth_error h i = Some o /\ class_of (o_own o) = c.
Proof. intros h i c E. unfold class_at in E. destruct (nth_error h i) as [o|]; [|discriminate]. injection E as E. eauto. Qed.
Lemma good_own_class : forall h i v, Good h -> class_at h i = Some (class_of v) -> (forall w, class_of w = class_of v -> kid_classes v = kid_classes w) ->
  Good (set_own h i v) /\ step h (set_own h i v).
Proof. intros h i v Gd E K. destruct (class_obj h i _ E) as (o & Eo & C). eapply good_own; eauto. Qed.
Lemma good_new : forall h r c, Good h -> new_obj h r c -> Good (fst r) /\ step h (fst r).
Proof. intros h r c Gd N. split; [eapply Good_G; [apply (n_G _ _ _ N)|auto]|apply (n_G _ _ _ N)]. Qed.
Lemma good_kid : forall h i p k o c, Good h -> nth_error h i = Some o -> nth_error (kid_classes (o_own o)) p = Some c -> class_at h k = Some c ->
  Good (set_kid h i p k) /\ step h (set_kid h i p k).
Proof. intros h i p k o c Gd E P C. destruct (G_set_kid h i p k o c (proj1 Gd) E P C) as [G1 _]. split; [eapply Good_G; eauto|apply G1]. Qed.
Lemma good_new_kid : forall h r i p o c, Good h -> new_obj h r c -> nth_error h i = Some o -> nth_error (kid_classes (o_own o)) p = Some c ->
  Good (set_kid (fst r) i p (snd r)) /\ step h (set_kid (fst r) i p (snd r)).
Proof.
  intros h r i p o c Gd N E P. destruct (good_new h r c Gd N) as [G1 S1].
  destruct (good_kid (fst r) i p (snd r) o c G1 (n_nth _ _ _ N _ _ E) P (n_class _ _ _ N)) as [G2 S2]. split; auto. eapply step_trans; eauto.
Qed.

Definition fine (s : state) (r : state * res out) : Prop := Good (s_heap (fst r)) /\ step (s_heap s) (s_heap (fst r)).
Lemma fine_err : forall s e, Good (s_heap s) -> fine s (s, Err e).
Proof. intros s e G. split; auto using step_refl. Qed.
Ltac gd := apply guard_case; [intros _; apply fine_err; assumption|intros Hb; try (apply andb_prop in Hb as [Hb Hb2]; apply is_class_true in Hb2); apply is_class_true in Hb].

Lemma exec_good : forall s o, Good (s_heap s) -> seen_call s o -> fine s (exec' s o).
Proof.
  intros s o Gd Sc. pose proof (proj1 Gd) as I.
  destruct o; cbn [exec seen_call] in *; try contradiction.
  (* New... *)
  - apply (good_new (s_heap s) (alloc (s_heap s) (OName n) []) CName); auto. apply (alloc_leaf (s_heap s) (OName n) I eq_refl).
  - apply (good_new (s_heap s) (alloc (s_heap s) (OMeta m) []) CMeta); auto. apply (alloc_leaf (s_heap s) (OMeta m) I eq_refl).
  - apply (good_new (s_heap s) (alloc (s_heap s) (OVal v) []) CVal); auto. apply (alloc_leaf (s_heap s) (OVal v) I eq_refl).
  - apply (good_new (s_heap s) (alloc_kl (s_heap s) kl) CKl); auto. apply alloc_kl_spec; auto.
  - apply (good_new (s_heap s) (alloc_sig (s_heap s) s0) CSig); auto. apply alloc_sig_spec; auto.
  - apply (good_new (s_heap s) (alloc_data (s_heap s) d) CData); auto. apply alloc_data_spec; auto.
  - destruct (alloc_int_spec (s_heap s) i I) as [N _]. destruct (alloc_int_count (s_heap s) i) as (o & E & Ct & K).
    destruct (good_new _ _ _ Gd N) as [G1 S1].
    assert (Ca : ca_wire (o_cache o) = None).
    { destruct (g_keep _ _ (n_G _ _ _ N) _ _ E) as [(o0 & E0 & _)|(_ & -> & _)]; auto.
      pose proof (n_len _ _ _ N). assert (snd (alloc_int (s_heap s) i) < length (s_heap s))%nat by (apply nth_error_Some; congruence). lia. }
    destruct (alloc_int (s_heap s) i) as [h1 j]. cbn [fst snd] in *.
    destruct (set_nonce_good h1 j o (i_nonce i) 0 G1 E Ct (or_intror Ca)) as (G2 & S2 & _). split; cbn; auto. eapply step_trans; eauto.
  (* setters of leaves *)
  - gd. apply (good_own_class (s_heap s) i (OName n)); auto. intros w; destruct w; try discriminate; auto.
  - gd. apply (good_own_class (s_heap s) i (OMeta m)); auto. intros w; destruct w; try discriminate; auto.
  - gd. apply (good_own_class (s_heap s) i (OVal v)); auto. intros w; destruct w; try discriminate; auto.
  - gd. apply (good_own_class (s_heap s) i (OExcl es)); auto. intros w; destruct w; try discriminate; auto.
  - gd. apply (good_own_class (s_heap s) i (ODel ds)); auto. intros w; destruct w; try discriminate; auto.
  (* key locator *)
  - gd. apply (good_own_class (s_heap s) i (OKl t d)); auto. intros w; destruct w; try discriminate; auto.
  - gd. destruct (class_obj _ _ _ Hb) as (o & E & C). apply (good_kid (s_heap s) i 0 n o CName); auto.
    destruct (o_own o); try discriminate. auto.
  - gd. rewrite kid_V. destruct (class_V _ _ _ Hb) as (v & ks & E & C). destruct v; try discriminate. rewrite E.
    pose proof (V_kids _ _ _ _ I E) as K. cbn in K. destruct ks as [|n [|]]; try discriminate. injection K as K. cbn [nth_error].
    destruct (good_own_class (s_heap s) n (OName []) Gd K) as [G1 S1]. { intros w; destruct w; try discriminate; auto. }
    destruct (good_own_class (set_own (s_heap s) n (OName [])) i (OKl None None) G1) as [G2 S2]. { eapply step_class; eauto. } { intros w; destruct w; try discriminate; auto. }
    split; cbn; auto. eapply step_trans; eauto.
  (* signatures *)
  - destruct (nth_error (s_heap s) i) as [[[] ks c ca]|] eqn:E; try (apply fine_err; assumption).
    eapply good_own; eauto; cbn; auto.
  - destruct (nth_error (s_heap s) i) as [[[| | | |[] b| | | |] ks c ca]|] eqn:E; try (apply fine_err; assumption);
      gd; pose proof (proj1 (alloc_kl_spec (s_heap s) (t_kl (deep 4 (s_heap s) kl)) I)) as N;
      pose proof (good_new_kid _ _ i 0 _ _ Gd N E eq_refl) as R; destruct (alloc_kl (s_heap s) _); exact R.
  - destruct (nth_error (s_heap s) i) as [[[| | | |[] b| | | |] ks c ca]|] eqn:E; try (apply fine_err; assumption);
      gd; pose proof (proj1 (alloc_leaf (s_heap s) (OVal (t_val (deep 4 (s_heap s) vp))) I eq_refl)) as N;
      pose proof (good_new_kid _ _ i 1 _ _ Gd N E eq_refl) as R; destruct (alloc (s_heap s) _ _); exact R.
  - destruct (nth_error (s_heap s) i) as [[[| | | |[] b| | | |] ks c ca]|] eqn:E; try (apply fine_err; assumption).
    eapply good_own; eauto; cbn; auto.
  (* data *)
  - gd. destruct (class_obj _ _ _ Hb) as (o & E & C). apply (good_kid (s_heap s) i 0 n o CName); auto.
    destruct (o_own o); try discriminate. auto.
  - gd. destruct (class_obj _ _ _ Hb) as (o & E & C). pose proof (proj1 (alloc_leaf (s_heap s) (OMeta (t_meta (deep 4 (s_heap s) m))) I eq_refl)) as N.
    assert (P : nth_error (kid_classes (o_own o)) 1 = Some CMeta) by (destruct (o_own o); try discriminate; auto).
    pose proof (good_new_kid _ _ i 1 _ _ Gd N E P) as R; destruct (alloc (s_heap s) _ _); exact R.
  - gd. destruct (class_obj _ _ _ Hb) as (o & E & C). pose proof (proj1 (alloc_sig_spec (s_heap s) (t_sig (deep 4 (s_heap s) s0)) I)) as N.
    assert (P : nth_error (kid_classes (o_own o)) 2 = Some CSig) by (destruct (o_own o); try discriminate; auto).
    pose proof (good_new_kid _ _ i 2 _ _ Gd N E P) as R; destruct (alloc_sig (s_heap s) _); exact R.
  - gd. apply (good_own_class (s_heap s) i (OData c)); auto. intros w; destruct w; try discriminate; auto.
  (* interest *)
  - gd. destruct (class_obj _ _ _ Hb) as (o & E & C). apply (good_kid (s_heap s) i 0 n o CName); auto.
    destruct (o_own o); try discriminate. auto.
  - gd. destruct (class_obj _ _ _ Hb) as (o & E & C). pose proof (proj1 (alloc_kl_spec (s_heap s) (t_kl (deep 4 (s_heap s) kl)) I)) as N.
    assert (P : nth_error (kid_classes (o_own o)) 1 = Some CKl) by (destruct (o_own o); try discriminate; auto).
    pose proof (good_new_kid _ _ i 1 _ _ Gd N E P) as R; destruct (alloc_kl (s_heap s) _); exact R.
  - gd. destruct (class_obj _ _ _ Hb) as (o & E & C). pose proof (proj1 (alloc_leaf (s_heap s) (OExcl (t_excl (deep 4 (s_heap s) e))) I eq_refl)) as N.
    assert (P : nth_error (kid_classes (o_own o)) 2 = Some CExcl) by (destruct (o_own o); try discriminate; auto).
    pose proof (good_new_kid _ _ i 2 _ _ Gd N E P) as R; destruct (alloc (s_heap s) _ _); exact R.
  - gd. destruct (class_obj _ _ _ Hb) as (o & E & C). pose proof (proj1 (alloc_leaf (s_heap s) (ODel (t_del (deep 4 (s_heap s) d))) I eq_refl)) as N.
    assert (P : nth_error (kid_classes (o_own o)) 3 = Some CDel) by (destruct (o_own o); try discriminate; auto).
    pose proof (good_new_kid _ _ i 3 _ _ Gd N E P) as R; destruct (alloc (s_heap s) _ _); exact R.
  - gd. apply (good_own_class (s_heap s) i (OInt f)); auto. intros w; destruct w; try discriminate; auto.
  - gd. destruct (class_obj _ _ _ Hb) as (o & E & C). destruct (setNonce_spec (s_heap s) i o n Gd E) as (G1 & S1 & _). split; auto.
  - gd. destruct (class_obj _ _ _ Hb) as (o & E & C). destruct (int_getNonce (s_heap s) i) as [h1 n] eqn:En.
    destruct (getNonce_spec (s_heap s) i o Gd E _ _ En) as (G1 & S1 & _). split; auto.
  - gd. destruct (class_obj _ _ _ Hb) as (o & E & C). unfold int_refreshNonce. destruct (int_getNonce (s_heap s) i) as [h1 n] eqn:En.
    destruct (getNonce_spec (s_heap s) i o Gd E _ _ En) as (G1 & S1 & V1 & C1 & o1 & E1 & _).
    destruct n as [c|]; [|split; auto]. destruct (zlen c =? 0); [split; auto|]. destruct (next_nonce c _) as [m|]; [|split; auto].
    destruct (setNonce_spec h1 i o1 (Some m) G1 E1) as (G2 & S2 & _). split; cbn; auto. eapply step_trans; eauto.
  - pose proof (G_gcc (s_heap s) i I) as G1. destruct (getChangeCount (s_heap s) i) as [h1 c]. cbn [fst] in G1. split; cbn; [eapply Good_G; eauto|apply G1].
  - gd. destruct (data_wireEncode encD s i f) as [s' r] eqn:Ew. destruct (data_encode_spec s i f Gd Hb _ _ Ew) as (G1 & S1 & _). split; auto.
  - gd. destruct (data_wireDecode decD partD s i f input) as [s' r] eqn:Ew. destruct (data_decode_spec s i f input Gd Hb _ _ Ew) as (G1 & S1). split; auto.
  - gd. destruct (data_getFullName encD sha256 s i f) as [s' r] eqn:Ew. destruct (fullName_good s i f Gd Hb _ _ Ew) as (G1 & S1). split; auto.
  - gd. destruct (data_copy_good (s_heap s) i Gd Hb) as (G1 & S1 & _). split; auto.
  - gd. destruct (int_wireEncode encI s i f rnd) as [s' r] eqn:Ew. destruct (int_encode_spec s i f rnd Gd Hb _ _ Ew) as (G1 & S1 & _). split; auto.
  - gd. destruct (int_wireDecode decI partI s i f input) as [s' r] eqn:Ew. destruct (int_decode_spec s i f input Gd Hb Sc _ _ Ew) as (G1 & S1). split; auto.
  - gd. destruct (int_copy_good (s_heap s) i Gd Hb) as (G1 & S1 & _). split; auto.
  - split; auto using step_refl.
Qed.
Lemma run_good : forall os s, Good (s_heap s) -> seen_history encD decD partD encI decI partI sha256 s os ->
  let s' := run encD decD partD encI decI partI sha256 s os in Good (s_heap s') /\ step (s_heap s) (s_heap s').
Proof.
  induction os as [|o os IH]; intros s Gd H; cbn in *; [split; auto using step_refl|]. destruct H as [H1 H2].
  destruct (exec_good s o Gd H1) as [G1 S1]. destruct (IH _ G1 H2) as [G2 S2]. split; auto. eapply step_trans; eauto.
Qed.
Lemma init_good : forall f, Good (s_heap (init f)).
Proof. intros f. split; intros [|i] o E; discriminate. Qed.

(** ** The stored nonce of an Interest *)
Section Nonce.
Variable i : nat.
Definition NK (h h' : heap) : Prop := forall o, nth_error h i = Some o -> exists o', nth_error h' i = Some o' /\
  ((ca_nonce (o_cache o') = ca_nonce (o_cache o) /\ ca_nonceSeen (o_cache o') = ca_nonceSeen (o_cache o)) \/ ca_nonce (o_cache o') = None).
Lemma NK_refl : forall h, NK h h.
Proof. intros h o E. eauto. Qed.
Lemma NK_trans : forall a b c, NK a b -> NK b c -> NK a c.
Proof.
  intros a b c A B o E. destruct (A o E) as (o1 & E1 & R1). destruct (B o1 E1) as (o2 & E2 & R2). exists o2. split; auto.
  destruct R2 as [[R2 R3]|R2]; auto. destruct R1 as [[R4 R5]|R1]; [left; split; congruence|right; congruence].
Qed.
Lemma NK_G : forall h h', G h h' -> NK h h'.
Proof.
  intros h h' [I S K] o E. destruct (S i o E) as (o' & E' & _). exists o'. split; auto. left.
  destruct (K i o' E') as [(o2 & E2 & ->)|(N & _)]; [|congruence]. assert (o2 = o) by congruence. subst. auto.
Qed.
Lemma NK_cache : forall h j ca, (forall o, nth_error h j = Some o -> j = i -> (ca_nonce ca = ca_nonce (o_cache o) /\ ca_nonceSeen ca = ca_nonceSeen (o_cache o)) \/ ca_nonce ca = None) -> NK h (set_cache h j ca).
Proof.
  intros h j ca H o E. unfold set_cache. destruct (nth_error h j) as [oj|] eqn:Ej; [|eauto].
  destruct (Nat.eq_dec j i) as [-> |N].
  - rewrite (nth_upd_eq _ _ _ _ E). eexists. split; [reflexivity|]. cbn. assert (oj = o) by congruence. subst. auto.
  - rewrite nth_upd_ne by auto. eauto.
Qed.
Lemma NK_gcc : forall h j, Inv h -> NK h (fst (getChangeCount h j)).
Proof. intros h j I. apply NK_G, G_gcc, I. Qed.
Lemma NK_gdwe : forall h j, Inv h -> NK h (fst (fst (getDefaultWireEncoding h j))).
Proof.
  intros h j I. unfold getDefaultWireEncoding. pose proof (NK_gcc h j I) as K. destruct (getChangeCount h j) as [h1 c]. cbn [fst] in K.
  destruct (nth_error h1 j) as [o|] eqn:E; auto. destruct (negb _); auto. cbn [fst]. eapply NK_trans; [apply K|]. apply NK_cache.
  intros o' E' _. left. cbn. assert (o' = o) by congruence. subst. auto.
Qed.
Lemma NK_sdwe : forall h j w f, Inv h -> NK h (setDefaultWireEncoding h j w f).
Proof.
  intros h j w f I. unfold setDefaultWireEncoding. pose proof (NK_gcc h j I) as K. destruct (getChangeCount h j) as [h1 c]. cbn [fst] in K.
  destruct (nth_error h1 j) as [o|] eqn:E; auto. cbn [fst]. eapply NK_trans; [apply K|]. apply NK_cache.
  intros o' E' _. left. cbn. assert (o' = o) by congruence. subst. auto.
Qed.
Lemma NK_getNonce : forall h j, Inv h -> NK h (fst (int_getNonce h j)).
Proof.
  intros h j I. unfold int_getNonce. pose proof (NK_gcc h j I) as K. destruct (getChangeCount h j) as [h1 c]. cbn [fst] in K.
  destruct (nth_error h1 j) as [o|] eqn:E; auto. destruct (negb _); auto. cbn [fst]. eapply NK_trans; [apply K|]. unfold set_nonce. rewrite E. apply NK_cache.
  intros o' E' _. right. auto.
Qed.
Lemma NK_setNonce : forall h j n, Good h -> j <> i -> NK h (int_setNonce h j n).
Proof.
  intros h j n Gd N. unfold int_setNonce. destruct (nth_error h j) as [o|] eqn:E; [|apply NK_refl].
  pose proof (G_set_own h j o (o_own o) (proj1 Gd) E eq_refl eq_refl) as G1. pose proof (NK_gcc _ j (g_inv _ _ G1)) as K.
  destruct (getChangeCount (set_own h j (o_own o)) j) as [h1 c]. cbn [fst] in K. eapply NK_trans; [apply NK_G, G1|]. eapply NK_trans; [apply K|].
  unfold set_nonce. destruct (nth_error h1 j) as [o1|] eqn:E1; [|apply NK_refl]. apply NK_cache. intros; congruence.
Qed.
Lemma NK_encD : forall s j f, Good (s_heap s) -> is_data (s_heap s) j -> NK (s_heap s) (s_heap (fst (data_wireEncode encD s j f))).
Proof.
  intros s j f Gd D. unfold data_wireEncode. pose proof (NK_gdwe (s_heap s) j (proj1 Gd)) as K.
  destruct (class_data _ _ D) as (o & Eo & _).
  destruct (getDefaultWireEncoding (s_heap s) j) as [[h1 w] wf] eqn:Eg. cbn [fst] in K.
  destruct (gdwe_spec _ j o Gd Eo _ _ _ Eg) as (G1 & _).
  assert (X : NK (s_heap s) (s_heap (fst (match encD f (data_value h1 j) with
      | Ok w' => (State (if f =? s_default s then setDefaultWireEncoding h1 j (Some w') (Some f) else h1) (s_default s), Ok w')
      | Err e => (State h1 (s_default s), Err e) end)))).
  { destruct (encD f (data_value h1 j)); cbn; auto. destruct (f =? s_default s); auto. eapply NK_trans; [apply K|]. apply NK_sdwe, G1. }
  destruct w as [w|]; destruct (fmt_eqb wf f); auto.
Qed.
Lemma NK_encI : forall s j f rnd, Good (s_heap s) -> is_int (s_heap s) j -> NK (s_heap s) (s_heap (fst (int_wireEncode encI s j f rnd))).
Proof.
  intros s j f rnd Gd D. unfold int_wireEncode. pose proof (NK_gdwe (s_heap s) j (proj1 Gd)) as K.
  destruct (class_int _ _ D) as (o & Eo & _).
  destruct (getDefaultWireEncoding (s_heap s) j) as [[h1 w] wf] eqn:Eg. cbn [fst] in K.
  destruct (gdwe_spec _ j o Gd Eo _ _ _ Eg) as (G1 & _ & _ & _ & o1 & E1 & _).
  pose proof (NK_getNonce h1 j (proj1 G1)) as K2. destruct (int_getNonce h1 j) as [h2 n] eqn:En. cbn [fst] in K2.
  destruct (getNonce_spec h1 j o1 G1 E1 _ _ En) as (G2 & _).
  assert (X : NK (s_heap s) (s_heap (fst (match encI f rnd (int_value h2 j n) with
      | Ok w' => (State (if f =? s_default s then setDefaultWireEncoding h2 j (Some w') (Some f) else h2) (s_default s), Ok w')
      | Err e => (State h2 (s_default s), Err e) end)))).
  { pose proof (NK_trans _ _ _ K K2) as K3. destruct (encI f rnd (int_value h2 j n)); cbn; auto. destruct (f =? s_default s); auto. eapply NK_trans; [apply K3|]. apply NK_sdwe, G2. }
  destruct w as [w|]; destruct (fmt_eqb wf f); auto.
Qed.
Lemma NK_decD : forall s j f input, Good (s_heap s) -> is_data (s_heap s) j -> NK (s_heap s) (s_heap (fst (data_wireDecode decD partD s j f input))).
Proof.
  intros s j f input Gd D. unfold data_wireDecode. destruct (decD f _ input) as [[d offs]|e]; cbn [fst s_heap].
  - destruct (data_assign_spec (s_heap s) j d Gd D) as (G1 & S1 & GG1 & _).
    destruct (f =? s_default s); (eapply NK_trans; [apply NK_G, GG1|apply NK_sdwe, G1]).
  - destruct (partD f _ input) as [d|]; [|apply NK_refl]. apply NK_G. apply (data_assign_spec (s_heap s) j d Gd D).
Qed.
Lemma NK_full : forall s j f, Good (s_heap s) -> is_data (s_heap s) j -> NK (s_heap s) (s_heap (fst (data_getFullName encD sha256 s j f))).
Proof.
  intros s j f Gd D. unfold data_getFullName. pose proof (NK_gdwe (s_heap s) j (proj1 Gd)) as K.
  destruct (class_data _ _ D) as (o & Eo & _).
  destruct (getDefaultWireEncoding (s_heap s) j) as [[h1 w] wf] eqn:Eg. cbn [fst] in K.
  destruct (gdwe_spec _ j o Gd Eo _ _ _ Eg) as (G1 & S1 & _).
  assert (X : NK (s_heap s) (s_heap (fst (compute_fullName encD sha256 (State h1 (s_default s)) j f)))).
  { eapply NK_trans; [apply K|]. unfold compute_fullName.
    pose proof (NK_encD (State h1 (s_default s)) j f G1 (step_class _ _ _ _ S1 D)) as K2.
    destruct (data_wireEncode encD (State h1 (s_default s)) j f) as [s2 r2] eqn:Ew. cbn [fst s_heap] in K2.
    destruct (data_encode_spec (State h1 (s_default s)) j f G1 (step_class _ _ _ _ S1 D) s2 r2 Ew) as (G2 & _).
    destruct r2 as [w'|e]; auto. destruct (c_fromImplicitSha256Digest _) as [c|e]; auto.
    set (nm := OName _). pose proof (n_G _ _ _ (proj1 (alloc_leaf (s_heap s2) nm (proj1 G2) eq_refl))) as GG3.
    destruct (alloc (s_heap s2) nm []) as [h3 fn]. cbn [fst] in *. pose proof (NK_trans _ _ _ K2 (NK_G _ _ GG3)) as K3. cbn [s_heap].
    destruct (f =? _); auto. eapply NK_trans; [apply K3|]. unfold set_full. destruct (nth_error h3 j) as [o3|] eqn:E3; [|apply NK_refl]. apply NK_cache.
    intros o4 E4 _. left. cbn. assert (o4 = o3) by congruence. subst. auto. }
  destruct w as [w|]; auto. destruct (nth_error h1 j) as [o1|]; auto. destruct (ca_full (o_cache o1)) as [m|]; auto.
  destruct ((0 <? zlen (name_at h1 m)) && fmt_eqb wf f); auto.
Qed.
Lemma NK_lt : forall h h', (i < length h -> NK h h')%nat -> NK h h'.
Proof. intros h h' H o E. apply H; auto. apply nth_error_Some. congruence. Qed.
Lemma NK_copyD : forall h j, Good h -> is_data h j -> NK h (fst (data_copy h j)).
Proof.
  intros h j Gd D. unfold data_copy. pose proof (NK_gdwe h j (proj1 Gd)) as K. destruct (class_data _ _ D) as (o & Eo & _).
  destruct (getDefaultWireEncoding h j) as [[h1 w] wf] eqn:Eg. cbn [fst] in K.
  destruct (gdwe_spec _ j o Gd Eo _ _ _ Eg) as (G1 & S1 & _).
  pose proof (proj1 (alloc_data_spec h1 (data_value h j) (proj1 G1))) as N2. destruct (alloc_data h1 (data_value h j)) as [h2 k].
  pose proof (n_G _ _ _ N2) as GG2. pose proof (n_len _ _ _ N2) as L2. cbn [fst snd] in *.
  apply NK_lt. intros Li. assert (Li1 : (i < length h1)%nat).
  { destruct (nth_error h i) as [oi|] eqn:Ei; [|apply nth_error_None in Ei; lia]. destruct (S1 i oi Ei) as (oi' & Ei' & _). apply nth_error_Some. congruence. }
  destruct (match nth_error h1 j with Some o => ca_full (o_cache o) | None => None end) as [n|].
  - pose proof (n_G _ _ _ (proj1 (alloc_leaf h2 (OName (name_at h2 n)) (g_inv _ _ GG2) eq_refl))) as GG3. destruct (alloc h2 _ []) as [h3 m]. cbn [fst] in *.
    eapply NK_trans; [apply K|]. eapply NK_trans; [apply NK_G, GG2|]. eapply NK_trans; [apply NK_G, GG3|]. apply NK_cache. intros; lia.
  - cbn [fst]. eapply NK_trans; [apply K|]. eapply NK_trans; [apply NK_G, GG2|]. apply NK_cache. intros; lia.
Qed.
Lemma NK_copyI : forall h j, Good h -> is_int h j -> NK h (fst (int_copy h j)).
Proof.
  intros h j Gd D. unfold int_copy. destruct (class_int _ _ D) as (o & Eo & _).
  pose proof (NK_getNonce h j (proj1 Gd)) as K0. destruct (int_getNonce h j) as [h0 n0] eqn:En. cbn [fst] in K0.
  destruct (getNonce_spec h j o Gd Eo _ _ En) as (G0 & S0 & _ & _ & o0 & E0 & _).
  pose proof (NK_gdwe h0 j (proj1 G0)) as K.
  destruct (getDefaultWireEncoding h0 j) as [[h1 w] wf] eqn:Eg. cbn [fst] in K.
  destruct (gdwe_spec _ j o0 G0 E0 _ _ _ Eg) as (G1 & S1 & _).
  pose proof (proj1 (alloc_int_spec h1 (int_value h0 j n0) (proj1 G1))) as N2. destruct (alloc_int h1 _) as [h2 k].
  pose proof (n_G _ _ _ N2) as GG2. pose proof (n_len _ _ _ N2) as L2. cbn [fst snd] in *.
  apply NK_lt. intros Li. assert (Li1 : (i < length h1)%nat).
  { destruct (nth_error h i) as [oi|] eqn:Ei; [|apply nth_error_None in Ei; lia]. destruct (step_trans _ _ _ S0 S1 i oi Ei) as (oi' & Ei' & _). apply nth_error_Some. congruence. }
  eapply NK_trans; [apply K0|]. eapply NK_trans; [apply K|]. eapply NK_trans; [apply NK_G, GG2|]. apply NK_cache. intros; lia.
Qed.

Lemma NK_set_own : forall h j v, NK h (set_own h j v).
Proof.
  intros h j v o E. unfold set_own. destruct (nth_error h j) as [oj|] eqn:Ej; [|eauto]. destruct (Nat.eq_dec j i) as [-> |N].
  - rewrite (nth_upd_eq _ _ _ _ E). eexists. split; [reflexivity|]. cbn. assert (oj = o) by congruence. subst. auto.
  - rewrite nth_upd_ne by auto. eauto.
Qed.
Lemma NK_assignI : forall h j v b, Good h -> is_int h j -> j <> i -> NK h (int_assign h j v b).
Proof.
  intros h j v b Gd D N. destruct (int_assign_spec h j v false Gd D) as (G1 & _).
  assert (X : NK h (int_assign h j v false)).
  { unfold int_assign. destruct (kid h j 0); [|apply NK_refl]. destruct (kid h j 1); [|apply NK_refl]. destruct (kid h j 2); [|apply NK_refl]. destruct (kid h j 3); [|apply NK_refl].
    repeat (eapply NK_trans; [|apply NK_set_own]). destruct (kid _ _ 0); [eapply NK_trans; apply NK_set_own|apply NK_set_own]. }
  destruct b; auto. revert X G1. unfold int_assign. destruct (kid h j 0); auto. destruct (kid h j 1); auto. destruct (kid h j 2); auto. destruct (kid h j 3); auto.
  intros X G1. eapply NK_trans; [apply X|]. apply NK_setNonce; auto.
Qed.
Lemma exec_nk : forall s o, Good (s_heap s) -> seen_call s o -> not_nonce_call i o -> NK (s_heap s) (s_heap (fst (exec' s o))).
Proof.
  intros s o Gd Sc Nn. pose proof (proj1 Gd) as I.
  assert (GD : forall b r, (b = true -> NK (s_heap s) (s_heap (fst r))) -> NK (s_heap s) (s_heap (fst (guard b s r)))).
  { intros [] r H; cbn; auto. apply NK_refl. }
  assert (NEW : forall r c, new_obj (s_heap s) r c -> NK (s_heap s) (fst r)) by (intros r c N; apply NK_G, (n_G _ _ _ N)).
  assert (KID : forall r c p j oj, new_obj (s_heap s) r c -> nth_error (s_heap s) j = Some oj -> nth_error (kid_classes (o_own oj)) p = Some c -> NK (s_heap s) (set_kid (fst r) j p (snd r))).
  { intros r c p j oj N E P. eapply NK_trans; [eapply NEW; eauto|]. apply NK_G. eapply G_set_kid; eauto.
    - apply (new_inv _ _ _ N). - apply (n_nth _ _ _ N). eauto. - apply (n_class _ _ _ N). }
  assert (KID0 : forall p j k oj c, nth_error (s_heap s) j = Some oj -> nth_error (kid_classes (o_own oj)) p = Some c -> class_at (s_heap s) k = Some c -> NK (s_heap s) (set_kid (s_heap s) j p k)).
  { intros p j k oj c E P C. apply NK_G. eapply G_set_kid; eauto. }
  destruct o; cbn [exec seen_call not_nonce_call] in *; try contradiction;
    try (apply GD; intros Hb; try (apply andb_prop in Hb as [Hb Hb2]; apply is_class_true in Hb2); apply is_class_true in Hb); try apply NK_refl; try (apply NK_set_own).
  - apply (NEW (alloc (s_heap s) (OName n) []) CName). apply (alloc_leaf (s_heap s) (OName n) I eq_refl).
  - apply (NEW (alloc (s_heap s) (OMeta m) []) CMeta). apply (alloc_leaf (s_heap s) (OMeta m) I eq_refl).
  - apply (NEW (alloc (s_heap s) (OVal v) []) CVal). apply (alloc_leaf (s_heap s) (OVal v) I eq_refl).
  - apply (NEW (alloc_kl (s_heap s) kl) CKl). apply alloc_kl_spec; auto.
  - apply (NEW (alloc_sig (s_heap s) s0) CSig). apply alloc_sig_spec; auto.
  - apply (NEW (alloc_data (s_heap s) d) CData). apply alloc_data_spec; auto.
  - destruct (alloc_int_spec (s_heap s) i0 I) as [N _]. pose proof (NEW _ _ N) as K. pose proof (n_len _ _ _ N) as L.
    destruct (alloc_int (s_heap s) i0) as [h1 j]. cbn [fst snd] in *. apply NK_lt. intros Li.
    eapply NK_trans; [apply K|]. cbn. unfold set_nonce. destruct (nth_error h1 j) as [oj|] eqn:Ej; [|apply NK_refl]. apply NK_cache. intros; lia.
  - destruct (class_obj _ _ _ Hb) as (o & E & C). eapply KID0; eauto. destruct (o_own o); try discriminate; auto.
  - eapply NK_trans; [|apply NK_set_own]. destruct (kid (s_heap s) i0 0); [apply NK_set_own|apply NK_refl].
  - destruct (nth_error (s_heap s) i0) as [[[] ks c ca]|]; try apply NK_refl. apply NK_set_own.
  - destruct (nth_error (s_heap s) i0) as [[[| | | |[] b| | | |] ks c ca]|] eqn:E; try apply NK_refl; apply GD; intros _;
      pose proof (proj1 (alloc_kl_spec (s_heap s) (t_kl (deep 4 (s_heap s) kl)) I)) as N; pose proof (KID _ _ 0%nat _ _ N E eq_refl) as R; destruct (alloc_kl (s_heap s) _); exact R.
  - destruct (nth_error (s_heap s) i0) as [[[| | | |[] b| | | |] ks c ca]|] eqn:E; try apply NK_refl; apply GD; intros _;
      pose proof (proj1 (alloc_leaf (s_heap s) (OVal (t_val (deep 4 (s_heap s) vp))) I eq_refl)) as N; pose proof (KID _ _ 1%nat _ _ N E eq_refl) as R; destruct (alloc (s_heap s) _ _); exact R.
  - destruct (nth_error (s_heap s) i0) as [[[| | | |[] b| | | |] ks c ca]|]; try apply NK_refl. apply NK_set_own.
  - destruct (class_obj _ _ _ Hb) as (o & E & C). eapply KID0; eauto. destruct (o_own o); try discriminate; auto.
  - destruct (class_obj _ _ _ Hb) as (o & E & C). pose proof (proj1 (alloc_leaf (s_heap s) (OMeta (t_meta (deep 4 (s_heap s) m))) I eq_refl)) as N.
    assert (P : nth_error (kid_classes (o_own o)) 1 = Some CMeta) by (destruct (o_own o); try discriminate; auto).
    pose proof (KID _ _ 1%nat _ _ N E P) as R; destruct (alloc (s_heap s) _ _); exact R.
  - destruct (class_obj _ _ _ Hb) as (o & E & C). pose proof (proj1 (alloc_sig_spec (s_heap s) (t_sig (deep 4 (s_heap s) s0)) I)) as N.
    assert (P : nth_error (kid_classes (o_own o)) 2 = Some CSig) by (destruct (o_own o); try discriminate; auto).
    pose proof (KID _ _ 2%nat _ _ N E P) as R; destruct (alloc_sig (s_heap s) _); exact R.
  - destruct (class_obj _ _ _ Hb) as (o & E & C). eapply KID0; eauto. destruct (o_own o); try discriminate; auto.
  - destruct (class_obj _ _ _ Hb) as (o & E & C). pose proof (proj1 (alloc_kl_spec (s_heap s) (t_kl (deep 4 (s_heap s) kl)) I)) as N.
    assert (P : nth_error (kid_classes (o_own o)) 1 = Some CKl) by (destruct (o_own o); try discriminate; auto).
    pose proof (KID _ _ 1%nat _ _ N E P) as R; destruct (alloc_kl (s_heap s) _); exact R.
  - destruct (class_obj _ _ _ Hb) as (o & E & C). pose proof (proj1 (alloc_leaf (s_heap s) (OExcl (t_excl (deep 4 (s_heap s) e))) I eq_refl)) as N.
    assert (P : nth_error (kid_classes (o_own o)) 2 = Some CExcl) by (destruct (o_own o); try discriminate; auto).
    pose proof (KID _ _ 2%nat _ _ N E P) as R; destruct (alloc (s_heap s) _ _); exact R.
  - destruct (class_obj _ _ _ Hb) as (o & E & C). pose proof (proj1 (alloc_leaf (s_heap s) (ODel (t_del (deep 4 (s_heap s) d))) I eq_refl)) as N.
    assert (P : nth_error (kid_classes (o_own o)) 3 = Some CDel) by (destruct (o_own o); try discriminate; auto).
    pose proof (KID _ _ 3%nat _ _ N E P) as R; destruct (alloc (s_heap s) _ _); exact R.
  - apply NK_setNonce; auto.
  - pose proof (NK_getNonce (s_heap s) i0 I) as K. destruct (int_getNonce (s_heap s) i0); exact K.
  - destruct (class_obj _ _ _ Hb) as (o & E & C). unfold int_refreshNonce. pose proof (NK_getNonce (s_heap s) i0 I) as K. destruct (int_getNonce (s_heap s) i0) as [h1 n] eqn:En.
    destruct (getNonce_spec (s_heap s) i0 o Gd E _ _ En) as (G1 & _). cbn [fst] in K.
    destruct n as [c|]; auto. destruct (zlen c =? 0); auto. destruct (next_nonce c _) as [m|]; auto. cbn. eapply NK_trans; [apply K|]. apply NK_setNonce; auto.
  - pose proof (NK_gcc (s_heap s) i0 I) as K. destruct (getChangeCount (s_heap s) i0); exact K.
  - apply NK_encD; auto.
  - apply NK_decD; auto.
  - apply NK_full; auto.
  - apply NK_copyD; auto.
  - apply NK_encI; auto.
  - unfold int_wireDecode. destruct (int_getNonce (s_heap s) i0) as [h0 n0]. destruct (decI f (int_value h0 i0 n0) input) as [[v offs]|e]; cbn [fst s_heap].
    + destruct (int_assign_spec (s_heap s) i0 v true Gd Hb) as (G1 & _). pose proof (NK_assignI (s_heap s) i0 v true Gd Hb Nn) as K.
      destruct (f =? s_default s); (eapply NK_trans; [apply K|apply NK_sdwe, G1]).
    + destruct (partI f (int_value h0 i0 n0) input) as [[v b]|]; [|apply NK_refl]. apply NK_assignI; auto.
  - apply NK_copyI; auto.
Qed.
Lemma run_nk : forall os s, Good (s_heap s) -> seen_history encD decD partD encI decI partI sha256 s os -> Forall (not_nonce_call i) os ->
  NK (s_heap s) (s_heap (run encD decD partD encI decI partI sha256 s os)).
Proof.
  induction os as [|o os IH]; intros s Gd H F; cbn in *; [apply NK_refl|]. destruct H as [H1 H2]. inversion F as [|? ? F1 F2]; subst.
  pose proof (exec_good s o Gd H1) as G1. eapply NK_trans; [exact (exec_nk s o Gd H1 F1)|]. apply IH; auto. apply G1.
Qed.
End Nonce.

(** ** Calls that change an object *)
Lemma clean_back_below : forall h h' j, Inv h -> step h h' -> clean h' j -> forall o o', nth_error h j = Some o -> nth_error h' j = Some o' ->
  o_count o = o_count o' -> forall k s, In (k, s) (o_kids o) -> exists ok ok', nth_error h k = Some ok /\ nth_error h' k = Some ok' /\ o_count ok = o_count ok' /\ clean h' k.
Proof.
  intros h h' j IV ST C o o' Ho Ho' Ec k s Hin. destruct C as [q Hq HC HS]. assert (q = o') by congruence. subst q.
  destruct (ST j o Ho) as (o2 & Ho2 & _ & _ & L). assert (o2 = o') by congruence. subst o2. destruct (L Ec) as [E1 E2].
  destruct (IV j o Ho) as [_ B]. destruct (B k s Hin) as (ok & Hk & Lk). destruct (ST k ok Hk) as (ok2 & Hk2 & Lc & _).
  rewrite E2 in Hin. destruct (HS k s Hin) as (ok' & Hk' & Sk'). assert (ok2 = ok') by congruence. subst ok2.
  exists ok, ok'. split; auto. split; auto. split; [lia|eauto].
Qed.
End Formats.
