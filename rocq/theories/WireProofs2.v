(** * Lemmas: Exclude, MetaInfo, ValidityPeriod, SignatureInfo, DelegationSet. *)
From Verif Require Import Base BaseLemmas TlvModel TlvSpec TlvProofs TlvDecProofs NameModel NameSpec NameProofs UriModel CalModel CalProofs WireModel WireSpec WireProofs.
From Coq Require Import ZifyBool.
Local Open Scope dec_scope.

(** Skipping elements *)
Lemma At_readVar2 : forall inp off end_ t v es, At inp off end_ ((t, v) :: es) ->
  d_readVarNumber inp (off + zlen (varnum t)) = Ok (zlen v, off + hdr t v).
Proof.
  intros inp off end_ t v es (S & pre & post & E & O & F). apply Forall_inv in S. cbn [fst snd] in S. destruct S as [U L]. subst.
  rewrite elems_cons. unfold tlv.
  assert (V : var_form (zlen v) (varnum (zlen v))) by (apply varnum_form; unfold u64; zlia).
  pose proof (readVar_form (pre ++ varnum t) (zlen v) (varnum (zlen v)) (v ++ elems es ++ post) V) as R.
  rewrite <- !app_assoc in *. rewrite zlen_app in R. rewrite R. unfold hdr. f_equal. f_equal. lia.
Qed.
Lemma At_bound : forall inp off end_ es, At inp off end_ es -> end_ <= zlen inp.
Proof. intros inp off end_ es (_ & pre & post & -> & -> & ->). zlia. Qed.
Lemma At_le : forall inp off end_ es, At inp off end_ es -> off <= end_.
Proof. intros inp off end_ es (_ & pre & post & _ & _ & ->). zlia. Qed.
Lemma At_finishLoop : forall es fuel b inp off end_, At inp off end_ es -> (length es <= fuel)%nat ->
  (b = true \/ Forall (fun e => ~ critical (fst e)) es) -> d_finishLoop fuel end_ b inp off = Ok (tt, end_).
Proof.
  induction es as [|[t v] es IH]; intros fuel b inp off end_ A F C.
  - apply At_nil in A. subst. destruct fuel; cbn [d_finishLoop]; dstep (eq_refl : d_getOffset inp end_ = Ok (end_, end_)); rewrite Z.ltb_irrefl; reflexivity.
  - destruct fuel as [|fuel]; [cbn [length] in F; lia|]. cbn [d_finishLoop].
    dstep (eq_refl : d_getOffset inp off = Ok (off, off)). replace (off <? end_) with true by (apply At_pos in A; lia).
    dstep (At_readVar _ _ _ _ _ _ A).
    assert (U : u64 t) by (destruct A as [S _]; apply Forall_inv in S; cbn [fst snd] in S; tauto).
    replace (((t <=? 31) || (Z.land t 1 =? 1)) && negb b) with false.
    2:{ symmetry. destruct C as [->|C]; [apply andb_false_r|].
        apply Forall_inv in C. cbn [fst] in C. rewrite <- (critical_test t U) in C. destruct ((t <=? 31) || (Z.land t 1 =? 1)); [tauto|reflexivity]. }
    dstep (At_readVar2 _ _ _ _ _ _ A).
    dstep (eq_refl : d_skip (zlen v) inp (off + hdr t v) = Ok (tt, off + hdr t v + zlen v)).
    dstep (eq_refl : d_getOffset inp (off + hdr t v + zlen v) = Ok (_, _)).
    dstep (eq_refl : d_inputLength inp (off + hdr t v + zlen v) = Ok (_, _)).
    apply At_next in A. rewrite tlv_len, Z.add_assoc in A.
    replace (zlen inp <? off + hdr t v + zlen v) with false by (apply At_bound in A as A'; apply At_le in A; lia).
    apply IH; [exact A|cbn [length] in F; lia|]. destruct C as [C|C]; [now left|right; eapply Forall_inv_tail; eauto].
Qed.
Lemma At_finish_skip : forall inp off end_ es b, At inp off end_ es ->
  (b = true \/ Forall (fun e => ~ critical (fst e)) es) -> d_finishNestedTlvs end_ b inp off = Ok (tt, end_).
Proof.
  intros inp off end_ es b A C. unfold d_finishNestedTlvs. destruct (off =? end_) eqn:E; [f_equal; f_equal; lia|].
  rewrite (dbind_ok _ _ _ _ _ _ _ _ (At_finishLoop es (S (length inp)) b inp off end_ A ltac:(apply At_fuel in A; lia) C)).
  dstep (eq_refl : d_getOffset inp end_ = Ok (end_, end_)). rewrite Z.eqb_refl. reflexivity.
Qed.

(** Optional elements with the vocabulary of the specification *)
Lemma opt_nn_eq : forall t o, opt_nn t o = optnn t o.
Proof. reflexivity. Qed.
Lemma opt_nn_types : forall t o, u64 t -> types_ok (opt_nn t o).
Proof. intros t [n|] H; cbn; [apply Forall_cons; [exact H|apply Forall_nil]|apply Forall_nil]. Qed.
Lemma flag_types : forall t b, u64 t -> types_ok (flag_el t b).
Proof. intros t [|] H; cbn; [apply Forall_cons; [exact H|apply Forall_nil]|apply Forall_nil]. Qed.
Lemma types_app : forall a b, types_ok a -> types_ok b -> types_ok (a ++ b).
Proof. intros. apply Forall_app. auto. Qed.
Lemma types_one : forall t v, u64 t -> types_ok [(t, v)].
Proof. intros. apply Forall_cons; [assumption|apply Forall_nil]. Qed.
Ltac u64c := unfold u64; cbn; lia.
Lemma enc_optnn : forall t o out, 0 <= t -> u64o o -> e_writeOptionalNonNegativeIntegerTlv t o out = Ok (elems (opt_nn t o) ++ out).
Proof. intros t o out H U. apply e_optnn_elems; [assumption|]. destruct o; cbn in *; unfold u64 in *; lia. Qed.
Lemma float_u64 : forall o, float_ok o -> u64o o.
Proof. intros [n|] H; cbn in *; unfold u64; lia. Qed.

Lemma hdne_app_nn : forall t t' o es, t' <> t -> hdne t es -> hdne t (opt_nn t' o ++ es).
Proof. intros t t' [n|] es H H'; cbn; auto. Qed.
Lemma hdne_app_flag : forall t t' b es, t' <> t -> hdne t es -> hdne t (flag_el t' b ++ es).
Proof. intros t t' [|] es H H'; cbn; auto. Qed.

Lemma At_after : forall inp off end_ e es, At inp off end_ (e :: es) -> At inp (off + zlen (elems [e])) end_ es.
Proof. intros inp off end_ [t v] es H. rewrite elems_one. apply At_next, H. Qed.

(** ** Exclude *)
Lemma enc_exentry_ok : forall e out, ex_ok e -> enc_exentry e out = elems [ex_el e] ++ out.
Proof.
  intros [|c] out H; cbn [enc_exentry ex_el].
  - rewrite elems_one. apply (e_TL_tlv 19 [] out). lia.
  - apply enc_comp_tlv, H.
Qed.
Lemma enc_ex_loop : forall rex out, Forall ex_ok rex ->
  fold_left (fun o e => enc_exentry e o) rex out = elems (map ex_el (rev rex)) ++ out.
Proof.
  induction rex as [|e rex IH]; intros out H; [reflexivity|]. cbn [fold_left rev].
  rewrite IH by (eapply Forall_inv_tail; eauto). rewrite map_app, elems_app, <- app_assoc. cbn [map].
  rewrite enc_exentry_ok by (eapply Forall_inv; eauto). reflexivity.
Qed.
Lemma enc_exclude_ok : forall ex out, Forall ex_ok ex -> enc_exclude ex out = elems [(16, elems (map ex_el ex))] ++ out.
Proof.
  intros ex out H. unfold enc_exclude. rewrite enc_ex_loop by (apply Forall_rev, H). rewrite rev_involutive.
  rewrite elems_one. apply e_TL_tlv'; [lia|reflexivity].
Qed.
Lemma ex_types : forall ex, Forall ex_ok ex -> types_ok (map ex_el ex).
Proof.
  intros ex H. apply Forall_map. eapply Forall_impl; [|exact H]. intros [|c] Hc; cbn [ex_el fst]; [u64c|]. apply comp_u64, Hc.
Qed.
Lemma dec_ex_loop_ok : forall ex fuel inp off end_ acc, Forall ex_ok ex -> At inp off end_ (map ex_el ex) ->
  (length ex <= fuel)%nat -> dec_exclude_loop fuel end_ acc inp off = Ok (rev acc ++ ex, end_).
Proof.
  induction ex as [|e ex IH]; intros fuel inp off end_ acc H A F.
  - apply At_nil in A. subst. destruct fuel; cbn [dec_exclude_loop]; dstep (eq_refl : d_getOffset inp end_ = Ok (end_, end_));
    rewrite Z.ltb_irrefl; rewrite app_nil_r; reflexivity.
  - destruct fuel as [|fuel]; [cbn [length] in F; lia|]. cbn [dec_exclude_loop map] in *.
    dstep (eq_refl : d_getOffset inp off = Ok (off, off)).
    replace (off <? end_) with true by (apply At_pos in A; lia).
    dstep (At_peek _ _ _ _ 19 A). pose proof (Forall_inv H) as He. apply Forall_inv_tail in H.
    destruct e as [|c]; cbn [ex_el] in *.
    + cbn [Z.eqb Pos.eqb].
      assert (R : d_readBooleanTlv 19 end_ inp off = Ok (true, off + zlen (tlv 19 []))).
      { unfold d_readBooleanTlv. dstep (At_peek _ _ _ _ 19 A). cbn [Z.eqb Pos.eqb]. dstep (At_readTL _ _ _ _ _ _ A).
        rewrite tlv_len. unfold dbind, d_skip, dret. f_equal. f_equal. lia. }
      dstep R. rewrite (IH fuel inp _ end_); [|exact H|apply At_next in A; exact A|cbn [length] in F; lia].
      cbn [rev]. rewrite <- app_assoc. reflexivity.
    + unfold comp_el at 1. replace (c_code c =? 19) with false by (destruct He; lia).
      dstep (dec_comp_ok _ _ _ _ _ (proj1 He) A). rewrite elems_one'.
      rewrite (IH fuel inp _ end_); [|exact H|apply At_next in A; exact A|cbn [length] in F; lia].
      cbn [rev]. rewrite <- app_assoc. reflexivity.
Qed.
Lemma dec_exclude_ok : forall ex inp off end_ es, Forall ex_ok ex -> At inp off end_ ((16, elems (map ex_el ex)) :: es) ->
  dec_exclude inp off = Ok (ex, off + zlen (elems [(16, elems (map ex_el ex))])).
Proof.
  intros ex inp off end_ es H A. unfold dec_exclude. destruct (At_enter _ _ _ _ _ _ A (ex_types ex H)) as [E A1]. dstep E.
  pose proof (dec_ex_loop_ok ex (S (length inp)) inp _ _ [] H A1) as L.
  specialize (L ltac:(apply At_fuel in A1; rewrite map_length in A1; lia)).
  rewrite (dbind_ok _ _ (dfuel _) _ inp _ _ _ L). dstep (finish_at_end (off + zlen (tlv 16 (elems (map ex_el ex)))) false inp).
  rewrite elems_one. reflexivity.
Qed.

(** ** MetaInfo *)
Lemma content_u64 : forall m, mi_ok m -> u64o (content_type m).
Proof.
  intros m (T & _). unfold content_type. destruct (mi_type m =? 0) eqn:E; [exact I|]. destruct (mi_type m =? 32767) eqn:E2; unfold u64o, u64; lia.
Qed.
Lemma enc_meta_ok : forall m out, mi_ok m -> enc_metaInfo m out = Ok (elems [mi_el m] ++ out).
Proof.
  intros m out H. pose proof (content_u64 m H) as CU. destruct H as (T & Fr & Fi). unfold enc_metaInfo.
  assert (E1 : (if 0 <? zlen (c_value (mi_final m)) then e_writeTypeAndLength 26 (zlen (enc_comp (mi_final m) out) - zlen out) (enc_comp (mi_final m) out) else out)
    = elems (final_els (mi_final m)) ++ out).
  { unfold final_els. destruct (c_value (mi_final m)) as [|b v] eqn:Ev; [reflexivity|].
    replace (0 <? zlen (b :: v)) with true by zlia. rewrite enc_comp_tlv by exact Fi. rewrite elems_one. apply e_TL_tlv'; [lia|reflexivity]. }
  cbn zeta. rewrite E1. unfold e_writeOptionalNonNegativeIntegerTlvFromFloat. rewrite enc_optnn by (try lia; apply float_u64, Fr). cbn [rbind].
  assert (E2 : (if negb (mi_type m =? 0) then
       if (mi_type m =? 1) || (mi_type m =? 2) || (mi_type m =? 3) then e_writeNonNegativeIntegerTlv 24 (mi_type m) (elems (opt_nn 25 (mi_freshness m)) ++ elems (final_els (mi_final m)) ++ out)
       else if mi_type m =? 32767 then e_writeNonNegativeIntegerTlv 24 (mi_other m) (elems (opt_nn 25 (mi_freshness m)) ++ elems (final_els (mi_final m)) ++ out) else Err RuntimeError
     else Ok (elems (opt_nn 25 (mi_freshness m)) ++ elems (final_els (mi_final m)) ++ out))
    = Ok (elems (opt_nn 24 (content_type m)) ++ elems (opt_nn 25 (mi_freshness m)) ++ elems (final_els (mi_final m)) ++ out)).
  { unfold content_type. destruct (mi_type m =? 0) eqn:E0; cbn [negb]; [reflexivity|].
    destruct (mi_type m =? 32767) eqn:E3.
    - replace ((mi_type m =? 1) || (mi_type m =? 2) || (mi_type m =? 3)) with false by lia.
      rewrite e_nnTlv_tlv by lia. cbn [opt_nn]. rewrite elems_one. reflexivity.
    - replace ((mi_type m =? 1) || (mi_type m =? 2) || (mi_type m =? 3)) with true by lia.
      rewrite e_nnTlv_tlv by lia. cbn [opt_nn]. rewrite elems_one. reflexivity. }
  refine (eq_trans (f_equal (fun r => rbind r _) E2) _). cbn [rbind]. f_equal. unfold mi_el. rewrite elems_one, !elems_app.
  rewrite !app_assoc. rewrite <- (app_assoc _ _ (elems (final_els (mi_final m)))). apply e_TL_tlv'; [lia|reflexivity].
Qed.
Lemma final_types : forall c, types_ok (final_els c).
Proof. intros c. unfold final_els. destruct (c_value c); [apply Forall_nil|apply types_one; u64c]. Qed.
Lemma final_hdne : forall t c, t <> 26 -> hdne t (final_els c).
Proof. intros t c H. unfold final_els. destruct (c_value c); cbn; auto. Qed.
Lemma dec_meta_ok : forall prev m inp off end_ es, mi_ok m -> At inp off end_ (mi_el m :: es) ->
  dec_metaInfo prev inp off = Ok (mi_seen prev m, off + zlen (elems [mi_el m])) /\ At inp (off + zlen (elems [mi_el m])) end_ es.
Proof.
  intros prev m inp off end_ es H A. split; [|rewrite elems_one'; apply At_next; exact A].
  pose proof (content_u64 m H) as CU. destruct H as (T & Fr & Fi). unfold dec_metaInfo. unfold mi_el in A.
  assert (Ty : types_ok (opt_nn 24 (content_type m) ++ opt_nn 25 (mi_freshness m) ++ final_els (mi_final m))).
  { apply types_app; [apply opt_nn_types; u64c|]. apply types_app; [apply opt_nn_types; u64c|apply final_types]. }
  destruct (At_enter _ _ _ _ _ _ A Ty) as [E A1]. dstep E. clear E.
  destruct (At_optNN _ _ _ _ _ _ A1) as [E2 A2]; [apply hdne_app_nn; [lia|apply final_hdne; lia]|exact CU|]. dstep E2. clear E2 A1.
  destruct (At_optNN _ _ _ _ _ _ A2) as [E3 A3]; [apply final_hdne; lia|apply float_u64, Fr|].
  set (end2 := off + zlen (tlv 20 (elems (opt_nn 24 (content_type m) ++ opt_nn 25 (mi_freshness m) ++ final_els (mi_final m))))) in *.
  assert (Fin : forall ty other, (fresh <~ d_readOptionalNonNegativeIntegerTlvAsFloat 25 end2 ;;
    isFinal <~ d_peekType 26 end2 ;;
    final <~ (if isFinal : bool then e <~ d_readNestedTlvsStart 26 ;; c <~ dec_comp ;; d_finishNestedTlvs e false ;;; dret c else dret (c_generic [])) ;;
    d_finishNestedTlvs end2 false ;;; dret (MI ty other fresh final)) inp
      (off + hdr 20 (elems (opt_nn 24 (content_type m) ++ opt_nn 25 (mi_freshness m) ++ final_els (mi_final m))) + zlen (elems (optnn 24 (content_type m)))) =
    Ok (MI ty other (mi_freshness m) (match c_value (mi_final m) with [] => c_generic [] | _ => mi_final m end), end2)).
  { intros ty other. unfold d_readOptionalNonNegativeIntegerTlvAsFloat. dstep E3. clear E3 A2. dstep (At_peek _ _ _ _ 26 A3).
    unfold final_els in A3 |- *. destruct (c_value (mi_final m)) as [|b v] eqn:Ev.
    - rewrite dbind_ret. dstep (At_finish _ _ _ false A3). reflexivity.
    - cbn [Z.eqb Pos.eqb]. assert (T1 : types_ok [comp_el (mi_final m)]) by (apply types_one, comp_u64, Fi).
      destruct (At_enter _ _ _ _ _ _ A3 T1) as [E4 A4]. dstep' E4. dstep' (dec_comp_ok _ _ _ _ _ Fi A4). apply At_after in A4. dstep' (At_finish _ _ _ false A4). rewrite dbind_ret.
      apply At_next in A3. dstep (At_finish _ _ _ false A3). reflexivity. }
  unfold mi_seen. rewrite elems_one'. unfold mi_el. cbn [fst snd]. fold end2. unfold content_type at 1.
  destruct (mi_type m =? 0) eqn:E0.
  - rewrite Fin. replace (mi_type m =? 32767) with false by lia. f_equal. f_equal. f_equal. lia.
  - destruct (mi_type m =? 32767) eqn:E3'.
    + replace ((mi_other m <? 0) || (mi_other m =? 0)) with false by lia.
      replace ((mi_other m =? 1) || (mi_other m =? 2) || (mi_other m =? 3)) with false by lia. rewrite Fin. f_equal. f_equal. f_equal. lia.
    + replace ((mi_type m <? 0) || (mi_type m =? 0)) with false by lia.
      replace ((mi_type m =? 1) || (mi_type m =? 2) || (mi_type m =? 3)) with true by lia. rewrite Fin. reflexivity.
Qed.
