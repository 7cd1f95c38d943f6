(** * Lemmas: ValidityPeriod, SignatureInfo, DelegationSet, Interest, Data. *)
From Verif Require Import Base BaseLemmas TlvModel TlvSpec TlvProofs TlvDecProofs NameModel NameSpec NameProofs UriModel CalModel CalProofs WireModel WireSpec WireProofs WireProofs2.
From Coq Require Import ZifyBool.
Local Open Scope dec_scope.

(** ** ValidityPeriod *)
Lemma iso_time_str : forall ms, iso_time ms -> toIsoString ms = Ok (iso_str ms) /\ fromIsoString (iso_str ms) = Ok ms /\
  blob_str (iso_str ms) = Ok (iso_str ms) /\ zlen (iso_str ms) = 15.
Proof.
  intros ms (s & -> & R). destruct (iso_round_trip s R) as (str & E & F & L & B & C). unfold iso_str. rewrite E.
  split; [reflexivity|]. split; [exact F|]. split; [|exact L]. unfold blob_str.
  replace (forallb (fun x => x <? 128) str) with true; [reflexivity|]. symmetry. apply forallb_forall. intros x Hx.
  rewrite Forall_forall in C. specialize (C x Hx). lia.
Qed.
Lemma iso_time_round : forall ms, iso_time ms -> ceil1000 ms = ms /\ floor1000 ms = ms.
Proof.
  intros ms (s & -> & R). unfold ceil1000, floor1000. rewrite <- Z.mul_opp_l, !Z.div_mul by lia. lia.
Qed.
Lemma vp_none_has : vp_hasPeriod vp_none = false.
Proof. reflexivity. Qed.
Lemma vp_has : forall v, iso_time (vp_notBefore v) -> vp_hasPeriod v = true.
Proof.
  intros v (s & E & R). unfold vp_hasPeriod, VP_INF.
  assert (P : 253402300800 * 1000 < 10 ^ 37) by reflexivity.
  destruct (vp_notBefore v =? 10 ^ 37) eqn:E1; [|reflexivity]. apply Z.eqb_eq in E1.
  set (q := 10 ^ 37) in *. clearbody q. lia.
Qed.
Lemma enc_vp_ok : forall v out, iso_time (vp_notBefore v) -> iso_time (vp_notAfter v) ->
  enc_validity v out = Ok (elems (vp_els v) ++ out).
Proof.
  intros v out Hb Ha. unfold enc_validity, vp_els. rewrite vp_has by assumption.
  destruct (iso_time_str _ Hb) as (Eb & _). destruct (iso_time_str _ Ha) as (Ea & _). rewrite Ea, Eb. cbn [rbind]. cbn zeta.
  rewrite !e_blobTlv_tlv by lia. f_equal. rewrite elems_one, elems_cons, elems_one, !app_assoc.
  apply e_TL_tlv'; [lia|reflexivity].
Qed.
Lemma dec_vp_ok : forall v inp off end_ es, iso_time (vp_notBefore v) -> iso_time (vp_notAfter v) ->
  At inp off end_ (vp_els v ++ es) -> dec_validity inp off = Ok (v, off + zlen (elems (vp_els v))).
Proof.
  intros v inp off end_ es Hb Ha A. unfold dec_validity. unfold vp_els in *. rewrite (vp_has v Hb) in *. cbn [app] in A.
  assert (T : types_ok [(254, iso_str (vp_notBefore v)); (255, iso_str (vp_notAfter v))]).
  { apply Forall_cons; [u64c|]. apply types_one. u64c. }
  destruct (At_enter _ _ _ _ _ _ A T) as [E A1]. dstep E. dstep (At_blob _ _ _ _ _ _ A1). apply At_next in A1.
  destruct (iso_time_str _ Hb) as (_ & Fb & Sb & _). destruct (iso_time_str _ Ha) as (_ & Fa & Sa & _).
  rewrite Sb. cbn [rbind]. rewrite Fb. unfold dbind at 1, dlift at 1.
  dstep (At_blob _ _ _ _ _ _ A1). apply At_next in A1. rewrite Sa. cbn [rbind]. rewrite Fa. unfold dbind at 1, dlift at 1.
  dstep (At_finish _ _ _ false A1). unfold dret. rewrite elems_one. f_equal. f_equal. unfold vp_setPeriod.
  destruct (iso_time_round _ Hb) as [-> _]. destruct (iso_time_round _ Ha) as [_ ->]. destruct v; reflexivity.
Qed.
Lemma vp_types : forall v, types_ok (vp_els v).
Proof. intros v. unfold vp_els. destruct (vp_hasPeriod v); [apply types_one; u64c|apply Forall_nil]. Qed.

(** The part of SignatureInfo shared by RSA and ECDSA *)
Lemma enc_vp_opt : forall v out, vp_ok v -> (if vp_hasPeriod v then enc_validity v out else Ok out) = Ok (elems (vp_els v) ++ out).
Proof.
  intros v out [->|[Hb Ha]].
  - rewrite vp_none_has. unfold vp_els. rewrite vp_none_has. reflexivity.
  - rewrite vp_has by assumption. apply enc_vp_ok; assumption.
Qed.
Lemma dec_vp_opt : forall A (k : validity -> dec A) v inp off end_, vp_ok v -> At inp off end_ (vp_els v) ->
  (hasV <~ d_peekType 253 end_ ;; vp <~ (if hasV : bool then dec_validity else dret vp_none) ;; k vp) inp off = k v inp end_.
Proof.
  intros A k v inp off end_ H At0. dstep (At_peek _ _ _ _ 253 At0). destruct H as [->|[Hb Ha]].
  - unfold vp_els in *. rewrite vp_none_has in *. rewrite dbind_ret. apply At_nil in At0. subst. reflexivity.
  - pose proof At0 as A1. rewrite <- (app_nil_r (vp_els v)) in A1. pose proof (dec_vp_ok v inp off end_ [] Hb Ha A1) as E.
    unfold vp_els at 1. rewrite (vp_has v Hb). cbn [Z.eqb Pos.eqb]. dstep E. apply At_app, At_nil in A1. rewrite A1. reflexivity.
Qed.

(** ** SignatureInfo *)
Lemma sig_types : forall t k v, types_ok ((27, nonneg t) :: kl_el 28 k :: vp_els v).
Proof. intros. apply Forall_cons; [u64c|]. apply Forall_cons; [u64c|apply vp_types]. Qed.

Lemma sig_ok_el : forall s, sig_ok s -> exists v,
  siginfo s = tlv 22 v /\
  (forall out, enc_sigInfo s out = Ok (elems [(22, v)] ++ out)) /\
  (forall inp off end_ es, At inp off end_ ((22, v) :: es) ->
     dec_sigInfo inp off = Ok (sig_setBits (sig_seen s) None, off + zlen (elems [(22, v)]))).
Proof.
  assert (Asym : forall k v t out, kl_ok k -> vp_ok v -> 0 <= t ->
    (o <-- (if vp_hasPeriod v then enc_validity v out else Ok out) ;; o <-- enc_keyLocator 28 k o ;; e_writeNonNegativeIntegerTlv 27 t o)%res
    = Ok (elems ((27, nonneg t) :: kl_el 28 k :: vp_els v) ++ out)).
  { intros k v t out Hk Hv Ht. rewrite enc_vp_opt by assumption. cbn [rbind]. rewrite enc_kl_ok by (assumption || lia). cbn [rbind].
    rewrite e_nnTlv_tlv by lia. rewrite elems_one', elems_cons, elems_cons', <- !app_assoc. reflexivity. }
  assert (AsymD : forall k v t inp off end_ es, kl_ok k -> vp_ok v -> t = 1 \/ t = 3 ->
    At inp off end_ ((22, elems ((27, nonneg t) :: kl_el 28 k :: vp_els v)) :: es) ->
    dec_sigInfo inp off = Ok (if t =? 1 then SigRsa (kl_seen k) v None else SigEcdsa (kl_seen k) v None,
      off + zlen (elems [(22, elems ((27, nonneg t) :: kl_el 28 k :: vp_els v))]))).
  { intros k v t inp off end_ es Hk Hv Ht A. unfold dec_sigInfo.
    dstep (eq_refl : d_getOffset inp off = Ok (off, off)). destruct (At_enter _ _ _ _ _ _ A (sig_types t k v)) as [E A1]. dstep E.
    assert (U : u64 t) by (unfold u64; lia). dstep (At_nnTlv _ _ _ _ _ _ U A1). apply At_next in A1.
    replace ((t =? 1) || (t =? 3)) with true by lia.
    destruct (dec_kl_ok _ _ _ _ _ _ Hk A1) as [Ek A2]. dstep' Ek.
    set (en := off + zlen (tlv 22 (elems ((27, nonneg t) :: kl_el 28 k :: vp_els v)))) in *.
    assert (Inner : (hasV <~ d_peekType 253 en ;; vp <~ (if hasV : bool then dec_validity else dret vp_none) ;;
       dret (if t =? 1 then SigRsa (kl_seen k) vp None else SigEcdsa (kl_seen k) vp None)) inp
       (off + hdr 22 (elems ((27, nonneg t) :: kl_el 28 k :: vp_els v)) + zlen (tlv 27 (nonneg t)) + zlen (elems [kl_el 28 k])) =
       Ok (if t =? 1 then SigRsa (kl_seen k) v None else SigEcdsa (kl_seen k) v None, en)).
    { rewrite (dec_vp_opt _ (fun vp => dret (if t =? 1 then SigRsa (kl_seen k) vp None else SigEcdsa (kl_seen k) vp None)) v inp _ en Hv A2). reflexivity. }
    dstep Inner. dstep (finish_at_end en false inp). rewrite elems_one. reflexivity. }
  intros [k v b|k v b|k b|b|e t b] H; cbn [sig_ok siginfo sig_seen sig_setBits enc_sigInfo] in *.
  - destruct H as [Hk Hv]. eexists. split; [reflexivity|]. split.
    + intros out. rewrite (Asym k v 1) by (assumption || lia). cbn [rbind]. f_equal. rewrite elems_one. apply e_TL_tlv'; [lia|reflexivity].
    + intros inp off end_ es A. rewrite (AsymD k v 1 inp off end_ es) by (auto). reflexivity.
  - destruct H as [Hk Hv]. eexists. split; [reflexivity|]. split.
    + intros out. rewrite (Asym k v 3) by (assumption || lia). cbn [rbind]. f_equal. rewrite elems_one. apply e_TL_tlv'; [lia|reflexivity].
    + intros inp off end_ es A. rewrite (AsymD k v 3 inp off end_ es) by (auto). reflexivity.
  - eexists. split; [reflexivity|]. split.
    + intros out. rewrite enc_kl_ok by (assumption || lia). cbn [rbind]. rewrite e_nnTlv_tlv by lia. cbn [rbind]. f_equal.
      rewrite elems_one, elems_cons, app_assoc. apply e_TL_tlv'; [lia|reflexivity].
    + intros inp off end_ es A. unfold dec_sigInfo. dstep (eq_refl : d_getOffset inp off = Ok (off, off)).
      assert (T : types_ok [(27, nonneg 4); kl_el 28 k]) by (apply Forall_cons; [u64c|]; apply types_one; u64c).
      destruct (At_enter _ _ _ _ _ _ A T) as [E A1]. dstep E. dstep (At_nnTlv _ _ _ _ _ _ (ltac:(u64c) : u64 4) A1). apply At_next in A1.
      cbn [Z.eqb Pos.eqb orb]. destruct (dec_kl_ok _ _ _ _ _ _ H A1) as [Ek A2]. dstep' Ek. rewrite dbind_ret.
      dstep (At_finish _ _ _ false A2). rewrite elems_one. reflexivity.
  - eexists. split; [reflexivity|]. split.
    + intros out. rewrite e_nnTlv_tlv by lia. cbn [rbind]. f_equal. rewrite !elems_one. apply e_TL_tlv'; [lia|reflexivity].
    + intros inp off end_ es A. unfold dec_sigInfo. dstep (eq_refl : d_getOffset inp off = Ok (off, off)).
      assert (T : types_ok [(27, nonneg 0)]) by (apply types_one; u64c).
      destruct (At_enter _ _ _ _ _ _ A T) as [E A1]. dstep E. dstep (At_nnTlv _ _ _ _ _ _ (ltac:(u64c) : u64 0) A1). apply At_next in A1.
      cbn [Z.eqb Pos.eqb orb]. rewrite dbind_ret. dstep (At_finish _ _ _ false A1). rewrite elems_one. reflexivity.
  - destruct H as (ty & es0 & -> & -> & Sz & U & N0 & N1 & N3 & N4 & T0). cbn [blob_bytes].
    set (body := (27, nonneg ty) :: es0) in *.
    assert (T : types_ok body) by (apply Forall_cons; [u64c|exact T0]).
    exists (elems body). split; [reflexivity|]. split.
    + intros out. assert (A : At (tlv 22 (elems body)) 0 (zlen (tlv 22 (elems body))) [(22, elems body)]).
      { rewrite <- elems_one. apply At_whole. apply Forall_cons; [|apply Forall_nil]. cbn [fst snd]. split; [u64c|exact Sz]. }
      assert (C : generic_check (tlv 22 (elems body)) 0 = Ok (tt, zlen (tlv 22 (elems body)))).
      { unfold generic_check. destruct (At_enter _ _ _ _ _ _ A T) as [E A1]. dstep E. dstep (At_nnTlv _ _ _ _ _ _ U A1).
        apply At_next in A1. exact (At_finish_skip _ _ _ _ true A1 (or_introl eq_refl)). }
      rewrite C. cbn [rbind e_writeBuffer]. rewrite elems_one. reflexivity.
    + intros inp off end_ es A. unfold dec_sigInfo. dstep (eq_refl : d_getOffset inp off = Ok (off, off)).
      destruct (At_enter _ _ _ _ _ _ A T) as [E A1]. dstep E. dstep (At_nnTlv _ _ _ _ _ _ U A1). apply At_next in A1.
      replace ((ty =? 1) || (ty =? 3)) with false by lia. replace (ty =? 4) with false by lia. replace (ty =? 0) with false by lia.
      set (en := off + zlen (tlv 22 (elems body))) in *.
      assert (Sl : forall o, d_getSlice off en inp o = Ok (tlv 22 (elems body), o)).
      { intros o. unfold d_getSlice. f_equal. f_equal. destruct A as (_ & pre & post & -> & -> & _). rewrite elems_cons.
        unfold en. rewrite <- app_assoc. apply zslice_app'; reflexivity. }
      dstep' (Sl (off + hdr 22 (elems body) + zlen (tlv 27 (nonneg ty)))).
      dstep' (At_finish_skip _ _ _ _ true A1 (or_introl eq_refl)). rewrite dbind_ret. dstep (finish_at_end en false inp).
      rewrite elems_one. reflexivity.
Qed.

(** ** Delegation sets *)
Lemma enc_deleg_ok : forall d out, deleg_ok d -> enc_delegation d out = Ok (elems [deleg_el d] ++ out).
Proof.
  intros [p n] out [U N]. unfold enc_delegation. cbn [fst snd] in *. rewrite enc_name_ok by assumption. cbn [fst].
  rewrite e_nnTlv_tlv by (unfold u64 in U; lia). cbn [rbind]. f_equal. unfold deleg_el. cbn [fst snd]. rewrite elems_one, elems_cons, app_assoc.
  apply e_TL_tlv'; [lia|reflexivity].
Qed.
Lemma enc_ds_loop : forall rds out, Forall deleg_ok rds ->
  fold_left (fun r d => (o <-- r ;; enc_delegation d o)%res) rds (Ok out) = Ok (elems (map deleg_el (rev rds)) ++ out).
Proof.
  induction rds as [|d rds IH]; intros out H; [reflexivity|]. cbn [fold_left rev]. cbn [rbind].
  rewrite enc_deleg_ok by (eapply Forall_inv; eauto). rewrite IH by (eapply Forall_inv_tail; eauto).
  rewrite map_app, elems_app, <- app_assoc. reflexivity.
Qed.
Lemma enc_ds_ok : forall ds out, Forall deleg_ok ds -> enc_delegationSet ds out = Ok (elems (map deleg_el ds) ++ out).
Proof. intros. unfold enc_delegationSet. rewrite enc_ds_loop by (apply Forall_rev; assumption). rewrite rev_involutive. reflexivity. Qed.
Lemma ds_types : forall ds, types_ok (map deleg_el ds).
Proof. intros ds. apply Forall_map, Forall_forall. intros. u64c. Qed.
Lemma dec_ds_loop_ok : forall ds fuel inp off end_ acc, Forall deleg_ok ds -> At inp off end_ (map deleg_el ds) ->
  (length ds <= fuel)%nat -> dec_ds_loop fuel end_ acc inp off = Ok (rev acc ++ ds, end_).
Proof.
  induction ds as [|[p n] ds IH]; intros fuel inp off end_ acc H A F.
  - apply At_nil in A. subst. destruct fuel; cbn [dec_ds_loop]; dstep (eq_refl : d_getOffset inp end_ = Ok (end_, end_));
    rewrite Z.ltb_irrefl; rewrite app_nil_r; reflexivity.
  - destruct fuel as [|fuel]; [cbn [length] in F; lia|]. cbn [dec_ds_loop map] in *.
    dstep (eq_refl : d_getOffset inp off = Ok (off, off)).
    replace (off <? end_) with true by (apply At_pos in A; lia).
    destruct (Forall_inv H) as [U N]. apply Forall_inv_tail in H. cbn [fst snd] in *. unfold deleg_el in A at 1. cbn [fst snd] in A.
    dstep (At_readTL _ _ _ _ _ _ A).
    assert (T : types_ok [(30, nonneg p); name_el n]) by (apply Forall_cons; [u64c|]; apply types_one; u64c).
    destruct (At_enter _ _ _ _ _ _ A T) as [_ A1]. dstep (At_nnTlv _ _ _ _ _ _ U A1). apply At_next in A1.
    destruct (dec_name_ok _ _ _ _ _ N A1) as [En A2]. dstep En. cbn [fst].
    apply At_nil in A2. rewrite A2. apply At_next in A.
    rewrite (IH fuel inp _ end_); [|exact H|exact A|cbn [length] in F; lia]. cbn [rev]. rewrite <- app_assoc. reflexivity.
Qed.
Lemma dec_ds_ok : forall ds inp off end_, Forall deleg_ok ds -> At inp off end_ (map deleg_el ds) ->
  dec_delegationSet end_ inp off = Ok (ds, end_).
Proof.
  intros ds inp off end_ H A. unfold dec_delegationSet, dfuel. rewrite (dec_ds_loop_ok ds _ inp off end_ []); [reflexivity|exact H|exact A|].
  apply At_fuel in A. rewrite map_length in A. lia.
Qed.
Lemma enc_hint_ok : forall i out, Forall deleg_ok (i_hint i) -> (i_hint i <> [] -> i_link i = None /\ i_selected i = None) ->
  enc_hint i out = Ok (elems (hint_els (i_hint i)) ++ out).
Proof.
  intros i out H K. unfold enc_hint, hint_els. destruct (i_hint i) as [|d ds] eqn:E; [reflexivity|].
  replace (0 <? zlen (d :: ds)) with true by zlia. destruct K as [-> ->]; [discriminate|].
  rewrite enc_ds_ok by assumption. cbn [rbind]. f_equal. rewrite elems_one. apply e_TL_tlv'; [lia|reflexivity].
Qed.
Lemma dec_hint_ok : forall ds absent inp off end_ es, Forall deleg_ok ds -> At inp off end_ (hint_els ds ++ es) -> hdne 30 es ->
  dec_hint end_ absent inp off = Ok (match ds with [] => absent | _ => ds end, off + zlen (elems (hint_els ds)))
  /\ At inp (off + zlen (elems (hint_els ds))) end_ es.
Proof.
  intros ds absent inp off end_ es H A N. split; [|apply At_app; exact A]. unfold dec_hint. dstep (At_peek _ _ _ _ 30 A).
  destruct ds as [|d ds]; cbn [hint_els app] in *.
  - rewrite elems_nil, zlen_nil, Z.add_0_r. destruct es as [|[t v] es]; [reflexivity|]. cbn [hdne] in N.
    replace (t =? 30) with false by lia. reflexivity.
  - cbn [Z.eqb Pos.eqb]. destruct (At_enter _ _ _ _ _ _ A (ds_types (d :: ds))) as [E A1]. dstep E. dstep (dec_ds_ok _ _ _ _ H A1).
    dstep (finish_at_end (off + zlen (tlv 30 (elems (map deleg_el (d :: ds))))) false inp). rewrite elems_one. reflexivity.
Qed.
