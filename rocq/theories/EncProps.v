(** * C75: EncryptorV2 *)
From Verif Require Import Base BaseLemmas TlvSpec NameModel NameSpec NameProofs DictModel DictProofs WireModel CtlModel StoreModel StoreSpec StoreProps SegPubProps CmdProps ChainSpec NacModel NacProofs EncModel EncSpec.

Section E.
Variable penc : Z -> bytes -> bytes -> res bytes.
Variable cbc : bytes -> bytes -> bytes -> res bytes.
Variable sha : bytes -> bytes.
Variable accessPrefix ckPrefix : name.
Notation e_step := (e_step penc cbc sha accessPrefix ckPrefix).
Notation e_run := (e_run penc cbc sha accessPrefix ckPrefix).
Notation fetch := (fetch accessPrefix).
Notation retry := (retry accessPrefix).
Notation publish := (publish penc sha).
Notation make_ck := (make_ck penc sha).
Notation ck_of_time := (ck_of_time ckPrefix).
Notation ck_data := (ck_data penc).

Lemma run_snoc : forall l o, e_run (l ++ [o]) = e_step o (e_run l).
Proof. intros l o. unfold EncModel.e_run. rewrite fold_left_app. reflexivity. Qed.
Lemma regens_app : forall l l', regens (l ++ l') = regens l ++ regens l'.
Proof. induction l as [|[] l IH]; intros l'; cbn; rewrite ?IH; reflexivity. Qed.
Lemma starts_app : forall l l', starts (l ++ l') = starts l + starts l'.
Proof. induction l as [|[] l IH]; intros l'; cbn [app starts]; rewrite ?IH; lia. Qed.
Lemma e_sends_app : forall l l', e_sends (l ++ l') = e_sends l ++ e_sends l'.
Proof. induction l as [|[] l IH]; intros l'; cbn; rewrite ?IH; reflexivity. Qed.
Lemma current_snoc : forall l o, current (l ++ [o]) = match o with VRegen now b _ _ _ => Some (now, b) | _ => current l end.
Proof. intros l o. unfold current. rewrite regens_app, rev_app_distr. destruct o; reflexivity. Qed.
Lemma current_in : forall l x, current l = Some x -> In x (regens l).
Proof. intros l x. unfold current. destruct (rev (regens l)) as [|y t] eqn:E; [discriminate|]. intros [= <-]. apply in_rev. rewrite E. left. reflexivity. Qed.
Lemma eproper_app : forall l l', eproper (l ++ l') -> eproper l.
Proof. intros l l' [A B]. rewrite regens_app in B. apply Forall_app in A, B. split; [apply A|apply B]. Qed.
Lemma ck_name_ok : forall now, 0 <= now -> ck_name ckPrefix now = Ok (ck_of_time now).
Proof. intros now H. unfold ck_name. rewrite fromVersion_ok by exact H. reflexivity. Qed.

(** ** The storage *)
Definition made (l : list eevent) (n : name) (d : data) : Prop :=
  exists now bits kek c, In (now, bits) (regens l) /\ kek_in l kek /\ ck_data (ck_of_time now) bits kek d /\ n_equals n (d_name d ++ [c]) = true.
Lemma made_mono : forall l l' n d, made l n d -> made (l ++ l') n d.
Proof. intros l l' n d (now & b & k & c & H1 & (id & r & g & H2) & H3). exists now, b, k, c. split; [rewrite regens_app; apply in_or_app; auto|]. split; [|exact H3]. exists id, r, g. apply in_or_app. auto. Qed.
Lemma make_ck_ok : forall k bits kek r g n d, keeps g -> make_ck k bits kek r g = Ok (n, d) -> ck_data k bits kek d /\ exists c, n = d_name d ++ [c].
Proof.
  intros k bits kek r g n d K. unfold EncModel.make_ck, to_bytes, full_name. destruct (d_content kek) as [pub|] eqn:Ek; [|discriminate]. cbn [rbind]. destruct (penc r pub bits) as [c|] eqn:Ec; [|discriminate]. cbn [rbind]. destruct (g _) as [d'|] eqn:Eg; [|discriminate]. cbn [rbind].
  destruct (encodeData d') as [w|]; [|discriminate]. cbn [rbind]. destruct (c_fromImplicitSha256Digest _) as [cc|]; [|discriminate]. cbn [rbind]. intros [= <- <-]. apply K in Eg. destruct Eg as [sg ->]. split; [|exists cc; reflexivity]. split; [reflexivity|]. exists pub, r, c. auto.
Qed.
Record inv (l : list eevent) (s : estate) : Prop := {
  i_cur : match current l with Some (now, b) => e_name s = ck_of_time now /\ e_bits s = b | None => e_pend s = [] /\ e_later s = [] /\ e_kek s = None end;
  i_store : forall n d, In (n, d) (e_store s) -> made l n d;
  i_kek : forall d, e_kek s = Some d -> kek_in l d }.
Lemma fetch_cur : forall t x s, e_name (fetch t x s) = e_name s /\ e_bits (fetch t x s) = e_bits s /\ e_store (fetch t x s) = e_store s /\ e_kek (fetch t x s) = e_kek s.
Proof. intros t x s. unfold EncModel.fetch. destruct (0 <? e_id s), x; repeat split. Qed.
Lemma retry_cur : forall x s, e_name (retry x s) = e_name s /\ e_bits (retry x s) = e_bits s /\ e_store (retry x s) = e_store s /\ e_kek (retry x s) = e_kek s.
Proof. intros x s. unfold EncModel.retry. destruct (e_busy s); [auto|apply (fetch_cur N_RETRIES x (set_busy true s))]. Qed.
(** What a publication does *)
Lemma publish_inv : forall l kek r g s s', inv l s -> current l <> None -> kek_in l kek -> keeps g -> publish kek r g s = Some s' -> exists n d now bits, current l = Some (now, bits) /\ s' = set_store (dset n_equals (e_store s) n d) s /\ ck_data (ck_of_time now) bits kek d /\ (exists c, n = d_name d ++ [c]) /\ inv l s'.
Proof.
  intros l kek r g s s' I Cu K G. unfold EncModel.publish. destruct (make_ck (e_name s) (e_bits s) kek r g) as [[n d]|] eqn:E; [|discriminate]. intros [= <-]. apply make_ck_ok in E; [|exact G]. destruct E as [D [c Ec]]. pose proof (i_cur _ _ I) as C. destruct (current l) as [[now b]|] eqn:El; [|congruence]. destruct C as [C1 C2]. rewrite C1, C2 in D. exists n, d, now, b. split; [reflexivity|]. split; [reflexivity|]. split; [exact D|]. split; [exists c; exact Ec|].
  constructor; cbn [set_store e_name e_bits e_store e_kek].
  - rewrite El. auto.
  - intros n' d' J. apply dset_in' in J. destruct J as [J|(-> & J)]; [apply I, J|]. exists now, b, kek, c. split; [apply current_in, El|]. split; [exact K|]. split; [exact D|]. destruct J as [-> | J]; rewrite <- Ec; [apply eq_refl_n|exact J].
  - apply I.
Qed.
Lemma inv_same : forall l s s', inv l s -> e_name s' = e_name s -> e_bits s' = e_bits s -> e_store s' = e_store s -> e_kek s' = e_kek s -> current l <> None -> inv l s'.
Proof. intros l s s' I E1 E2 E3 E4 C. constructor; [|rewrite E3; apply I|rewrite E4; apply I]. pose proof (i_cur _ _ I) as X. destruct (current l) as [[now b]|]; [rewrite E1, E2; exact X|congruence]. Qed.
Lemma inv_mono : forall l o s, inv l s -> current (l ++ [o]) = current l -> inv (l ++ [o]) s.
Proof. intros l o s I C. constructor; [rewrite C; apply I|intros n d J; apply made_mono, I, J|intros d J]. destruct (i_kek _ _ I d J) as (id & r & g & H). exists id, r, g. apply in_or_app. auto. Qed.
Lemma pend_cur : forall l s id t, inv l s -> dget Z.eqb (e_pend s) id = Some t -> current l <> None.
Proof. intros l s id t I E C. pose proof (i_cur _ _ I) as X. rewrite C in X. destruct X as (X & _). rewrite X in E. discriminate E. Qed.
Lemma step_inv : forall l o s, inv l s -> eproper (l ++ [o]) -> inv (l ++ [o]) (e_step o s).
Proof.
  intros l o s I [Pr Rg]. apply Forall_app in Pr. destruct Pr as [_ Pr]. inversion Pr as [|? ? [_ Hg] _]; subst. clear Pr. destruct o as [now b x r g|id kek r g|id x|id|i x|iv m|]; cbn [EncModel.e_step].
  - rewrite regens_app in Rg. apply Forall_app in Rg. destruct Rg as [_ Rg]. inversion Rg as [|? ? Rn _]; subst. cbn in Rn. unfold regenerate. rewrite ck_name_ok by lia. cbv zeta. inversion Hg as [|? ? Kg _]; subst.
    assert (I1 : inv (l ++ [VRegen now b x r g]) (set_ck (ck_of_time now) b s)). { constructor; cbn [set_ck e_name e_bits e_store e_kek]; [rewrite current_snoc; auto|intros n d J; apply made_mono, I, J|]. intros d J. destruct (i_kek _ _ I d J) as (id & r0 & g0 & H). exists id, r0, g0. apply in_or_app. auto. }
    assert (C : current (l ++ [VRegen now b x r g]) <> None) by (rewrite current_snoc; discriminate). destruct (e_kek s) as [kek|] eqn:Ek.
    + destruct (publish _ _ _ _) as [s2|] eqn:Ep; [|apply (inv_same _ _ _ I1); auto]. apply (publish_inv _ _ _ _ _ _ I1 C) in Ep; [|apply (i_kek _ _ I1), Ek|exact Kg]. destruct Ep as (n & d & now' & b' & _ & _ & _ & _ & H). exact H.
    + destruct (retry_cur x (set_ck (ck_of_time now) b s)) as (E1 & E2 & E3 & E4). apply (inv_same _ _ _ I1); auto.
  - destruct (dget Z.eqb (e_pend s) id) as [t|] eqn:E; [|apply inv_mono; [exact I|apply current_snoc]]. pose proof (pend_cur _ _ _ _ I E) as C. inversion Hg as [|? ? Kg _]; subst. unfold on_kek. cbv zeta. set (l' := l ++ [VData id kek r g]). assert (C' : current l' <> None) by (unfold l'; rewrite current_snoc; exact C).
    assert (K : kek_in l' kek) by (exists id, r, g; apply in_or_app; right; left; reflexivity). pose proof (inv_mono l (VData id kek r g) s I (current_snoc _ _)) as I0. fold l' in I0. set (s1 := set_kek kek (set_id 0 (e_take id s))).
    assert (I1 : inv l' s1). { constructor; [|apply I0|intros d [= <-]; exact K]. pose proof (i_cur _ _ I0) as X. destruct (current l') as [[? ?]|]; [exact X|congruence]. }
    destruct (publish kek r g s1) as [s2|] eqn:Ep; [|apply (inv_same _ _ _ I1); auto]. apply (publish_inv _ _ _ _ _ _ I1 C' K Kg) in Ep. destruct Ep as (n & d & now' & b' & _ & _ & _ & _ & H). apply (inv_same _ _ _ H); auto.
  - pose proof (inv_mono l (VTimeout id x) s I (current_snoc _ _)) as I0. destruct (dget Z.eqb (e_pend s) id) as [t|] eqn:E; [|exact I0]. pose proof (pend_cur _ _ _ _ I E) as C. unfold on_timeout. cbv zeta. assert (C' : current (l ++ [VTimeout id x]) <> None) by (rewrite current_snoc; exact C). destruct (1 <? t); [|apply (inv_same _ _ _ I0); auto]. destruct (fetch_cur (t - 1) x (set_id 0 (e_take id s))) as (E1 & E2 & E3 & E4). apply (inv_same _ _ _ I0); auto.
  - pose proof (inv_mono l (VNack id) s I (current_snoc _ _)) as I0. destruct (dget Z.eqb (e_pend s) id) as [t|] eqn:E; [|exact I0]. pose proof (pend_cur _ _ _ _ I E) as C. unfold on_nack. cbv zeta. assert (C' : current (l ++ [VNack id]) <> None) by (rewrite current_snoc; exact C). destruct (1 <? t); apply (inv_same _ _ _ I0); auto.
  - pose proof (inv_mono l (VLater i x) s I (current_snoc _ _)) as I0. destruct (nth_error (e_later s) i) as [c|] eqn:E; [|exact I0]. assert (C : current l <> None). { intros C. pose proof (i_cur _ _ I) as X. rewrite C in X. destruct X as (_ & X & _). rewrite X in E. destruct i; discriminate E. }
    assert (C' : current (l ++ [VLater i x]) <> None) by (rewrite current_snoc; exact C). set (s1 := set_later _ s). destruct c as [|t]; [destruct (retry_cur x s1) as (E1 & E2 & E3 & E4)|destruct (fetch_cur t x s1) as (E1 & E2 & E3 & E4)]; apply (inv_same _ _ _ I0); auto.
  - pose proof (inv_mono l (VEncrypt iv m) s I (current_snoc _ _)) as I0. constructor; apply I0.
  - pose proof (inv_mono l VShutdown s I (current_snoc _ _)) as I0. destruct (0 <? e_id s); [|exact I0]. constructor; [|apply I0|apply I0]. pose proof (i_cur _ _ I0) as X. destruct (current (l ++ [VShutdown])) as [[? ?]|]; [exact X|]. cbn [e_take set_pend e_pend e_later e_kek]. destruct X as (-> & X). split; [reflexivity|exact X].
Qed.
Lemma run_inv : forall l, eproper l -> inv l (e_run l).
Proof.
  induction l as [|o l IH] using rev_ind; intros Pr; [constructor; [cbn; auto|intros n d []|intros d [= ]]|]. rewrite run_snoc. apply step_inv; [|exact Pr]. apply IH, (eproper_app _ _ Pr).
Qed.
(** ** Interests for the KEK *)
Definition is_again (c : later) : bool := match c with Again _ => true | Retry => false end.
Definition agains (s : estate) : list later := filter is_again (e_later s).
Inductive mode (l : list eevent) (s : estate) : Prop :=
  | MOut (t : Z) : e_pend s = [(e_id s, t)] -> 0 < e_id s -> e_busy s = true -> agains s = [] -> 1 <= t <= 3 -> mode l s
  | MNack (t : Z) : e_pend s = [] -> e_id s = 0 -> e_busy s = true -> agains s = [Again t] -> 1 <= t <= 2 -> mode l s
  | MIdle : e_pend s = [] -> e_id s = 0 -> e_busy s = false -> agains s = [] -> mode l s
  | MShut : e_pend s = [] -> 0 < e_id s -> agains s = [] -> In VShutdown l -> mode l s.
Fixpoint later_pot (l : list later) : Z := match l with [] => 0 | Again t :: l' => t + later_pot l' | Retry :: l' => later_pot l' end.
Fixpoint pend_pot (l : dict Z Z) : Z := match l with [] => 0 | (_, t) :: l' => t - 1 + pend_pot l' end.
Definition pot (s : estate) : Z := pend_pot (e_pend s) + later_pot (agains s).
Definition sent (s : estate) : Z := zlen (e_sends (e_out s)).
(** Ready to send *)
Record ready (s : estate) : Prop := { r_pend : e_pend s = []; r_id : e_id s = 0; r_again : agains s = [] }.
Lemma fetch_ready : forall l t x s, ready s -> e_busy s = true -> 1 <= t <= 3 -> (forall i, x = Some i -> 0 < i) -> mode l (fetch t x s) /\ sent (fetch t x s) + pot (fetch t x s) <= sent s + t /\ (x <> None -> e_pend (fetch t x s) <> []).
Proof.
  intros l t x s [R1 R2 R3] B T X. unfold EncModel.fetch. rewrite R2. cbn [Z.ltb Z.compare]. unfold sent, pot, agains. destruct x as [i|]; cbn [kek_error e_emit set_busy set_id set_pend e_id e_pend e_busy e_later e_out]; rewrite R1, e_sends_app.
  - specialize (X i eq_refl). split; [|split; [|discriminate]]. { apply (MOut _ _ t); cbn; auto. } fold (agains s). rewrite R3, zlen_app. cbn. unfold zlen. cbn. lia.
  - split; [|split; [|congruence]]. { apply MIdle; auto. } fold (agains s). rewrite R3, zlen_app. cbn. unfold zlen. cbn. lia.
Qed.
Lemma fetch_shut : forall l t x s, e_pend s = [] -> 0 < e_id s -> agains s = [] -> In VShutdown l -> mode l (fetch t x s) /\ sent (fetch t x s) + pot (fetch t x s) <= sent s.
Proof.
  intros l t x s R1 R2 R3 Sh. unfold EncModel.fetch. replace (0 <? e_id s) with true by lia. split; [apply MShut; auto|]. unfold sent, pot, agains. cbn [kek_error e_emit set_busy e_pend e_later e_out]. fold (agains s). rewrite R1, R3, e_sends_app, zlen_app. cbn. unfold zlen. cbn. lia.
Qed.
Lemma mode_mono : forall l o s, mode l s -> mode (l ++ [o]) s.
Proof. intros l o s M. destruct M; [eapply MOut; eauto|eapply MNack; eauto|apply MIdle; auto|apply MShut; auto; apply in_or_app; auto]. Qed.
Lemma mode_pot : forall l s, mode l s -> 0 <= pot s.
Proof. intros l s M. unfold pot. destruct M as [t E _ _ A T|t E _ _ A T|E _ _ A|E _ A _]; rewrite E, A; cbn; lia. Qed.
Lemma retry_mode : forall l x s, mode l s -> (forall i, x = Some i -> 0 < i) -> mode l (retry x s) /\ sent (retry x s) + pot (retry x s) <= sent s + pot s + 3.
Proof.
  intros l x s M X. pose proof (mode_pot _ _ M) as P0. unfold EncModel.retry. destruct (e_busy s) eqn:B; [split; [exact M|lia]|]. destruct M as [t E I B' A T|t E I B' A T|E I B' A|E I A Sh]; [congruence|congruence| |].
  - destruct (fetch_ready l N_RETRIES x (set_busy true s)) as (H1 & H2 & _); auto; [constructor; auto|unfold N_RETRIES; lia|]. split; [exact H1|]. change (sent (set_busy true s)) with (sent s) in H2. unfold N_RETRIES in *. lia.
  - destruct (fetch_shut l N_RETRIES x (set_busy true s)) as (H1 & H2); auto. split; [exact H1|]. change (sent (set_busy true s)) with (sent s) in H2. lia.
Qed.
Lemma publish_frame : forall kek r g s s', publish kek r g s = Some s' -> e_pend s' = e_pend s /\ e_id s' = e_id s /\ e_busy s' = e_busy s /\ e_later s' = e_later s /\ e_out s' = e_out s /\ e_kek s' = e_kek s.
Proof. intros kek r g s s'. unfold EncModel.publish. destruct (make_ck _ _ _ _ _) as [[n d]|]; [|discriminate]. intros [= <-]. auto 10. Qed.
Lemma nth_again : forall ls i t, nth_error ls i = Some (Again t) -> filter is_again ls <> [] /\ forall c, filter is_again ls = [c] -> c = Again t /\ filter is_again (firstn i ls ++ skipn (S i) ls) = [].
Proof.
  intros ls i t E. apply nth_error_split in E. destruct E as (a & b & -> & <-). rewrite filter_app. cbn [filter is_again]. replace (firstn (length a) (a ++ Again t :: b)) with a by (rewrite firstn_app, Nat.sub_diag, firstn_all, app_nil_r; reflexivity). replace (skipn (S (length a)) (a ++ Again t :: b)) with b. 2:{ rewrite skipn_app. replace (S (length a) - length a)%nat with 1%nat by lia. rewrite (skipn_all2 a) by lia. reflexivity. }
  split; [destruct (filter is_again a); discriminate|]. intros c H. rewrite filter_app. destruct (filter is_again a) as [|y u]; [injection H as <- ->; auto|]. destruct u; discriminate H.
Qed.
Lemma nth_retry : forall ls i, nth_error ls i = Some Retry -> filter is_again (firstn i ls ++ skipn (S i) ls) = filter is_again ls.
Proof.
  intros ls i E. apply nth_error_split in E. destruct E as (a & b & -> & <-). replace (firstn (length a) (a ++ Retry :: b)) with a by (rewrite firstn_app, Nat.sub_diag, firstn_all, app_nil_r; reflexivity). replace (skipn (S (length a)) (a ++ Retry :: b)) with b. 2:{ rewrite skipn_app. replace (S (length a) - length a)%nat with 1%nat by lia. rewrite (skipn_all2 a) by lia. reflexivity. }
  rewrite !filter_app. reflexivity.
Qed.
Lemma sent_emit : forall o s, (forall i n, o <> OSend i n) -> sent (e_emit o s) = sent s.
Proof. intros o s H. unfold sent. cbn [e_emit e_out]. rewrite e_sends_app, zlen_app. destruct o; [exfalso; eapply H; reflexivity|cbn; unfold zlen; cbn; lia ..]. Qed.
Lemma pend_one : forall s t id x, e_pend s = [(e_id s, t)] -> dget Z.eqb (e_pend s) id = Some x -> id = e_id s /\ x = t /\ dremove Z.eqb (e_pend s) id = [].
Proof. intros s t id x E. rewrite E. cbn [dget dremove]. destruct (e_id s =? id) eqn:K; [|discriminate]. intros [= <-]. split; [lia|auto]. Qed.
Lemma step_mode : forall l o s, mode l s -> Forall (fun i => 0 < i) (v_ids o) -> mode (l ++ [o]) (e_step o s) /\ sent (e_step o s) + pot (e_step o s) <= sent s + pot s + 3 * starts [o].
Proof.
  intros l o s M Hid. pose proof (mode_mono l o s M) as M'. pose proof (mode_pot _ _ M) as P0. destruct o as [now b x r g|id kek r g|id x|id|i x|iv m|]; cbn [EncModel.e_step starts].
  - assert (X : forall i, x = Some i -> 0 < i) by (intros i ->; inversion Hid; auto). unfold regenerate. destruct (ck_name ckPrefix now) as [k|]; [|split; [exact M'|lia]]. cbv zeta. set (l' := l ++ _) in *. assert (M1 : mode l' (set_ck k b s)) by (destruct M'; [eapply MOut; eauto|eapply MNack; eauto|apply MIdle; auto|apply MShut; auto]).
    destruct (e_kek s) as [kek|].
    + destruct (publish kek r g (set_ck k b s)) as [s2|] eqn:Ep.
      * apply publish_frame in Ep. destruct Ep as (F1 & F2 & F3 & F4 & F5 & _). assert (Ea : agains s2 = agains s) by (unfold agains; rewrite F4; reflexivity). split; [|unfold sent, pot; rewrite F1, F5, Ea; cbn [set_ck e_pend e_out]; lia]. cbn [set_ck e_pend e_id e_busy] in F1, F2, F3.
        destruct M'; [apply (MOut _ _ t)|apply (MNack _ _ t)|apply MIdle|apply MShut]; rewrite ?F1, ?F2, ?F3, ?Ea; auto.
      * split; [destruct M1; [eapply MOut; eauto|eapply MNack; eauto|apply MIdle; auto|apply MShut; auto]|]. rewrite sent_emit by discriminate. change (pot (e_emit (OError E_EncryptionFailure) (set_ck k b s))) with (pot s). change (sent (set_ck k b s)) with (sent s). lia.
    + destruct (retry_mode l' x _ M1 X) as [H1 H2]. split; [exact H1|]. change (sent (set_ck k b s)) with (sent s) in H2. change (pot (set_ck k b s)) with (pot s) in H2. lia.
  - destruct (dget Z.eqb (e_pend s) id) as [t0|] eqn:E; [|split; [exact M'|lia]]. destruct M as [t E1 I B A T|t E1 I B A T|E1 I B A|E1 I A Sh]; try (rewrite E1 in E; discriminate E). destruct (pend_one _ _ _ _ E1 E) as (-> & -> & Er). unfold on_kek. cbv zeta. set (s1 := set_kek kek (set_id 0 (e_take (e_id s) s))). assert (Ea : agains s1 = agains s) by reflexivity.
    assert (Ep1 : e_pend s1 = []) by exact Er. destruct (publish kek r g s1) as [s2|] eqn:Ep.
    + apply publish_frame in Ep. destruct Ep as (F1 & F2 & F3 & F4 & F5 & _). assert (Ea2 : agains (set_busy false s2) = []) by (unfold agains; cbn [set_busy e_later]; rewrite F4; exact A). split; [apply MIdle; cbn [set_busy e_pend e_id e_busy]; rewrite ?F1, ?F2; auto|]. unfold sent, pot at 1. rewrite Ea2. cbn [set_busy e_pend e_out]. rewrite F1, F5, Ep1. cbn. unfold pot in P0. unfold sent, pot. cbn. lia.
    + split; [apply MIdle; auto|]. unfold kek_error. rewrite sent_emit by discriminate. unfold pot at 1. change (agains (e_emit _ _)) with (agains s). change (e_pend (e_emit _ _)) with (e_pend s1). rewrite A, Ep1. change (sent (set_busy false s1)) with (sent s). cbn [pend_pot later_pot]. lia.
  - assert (X : forall i, x = Some i -> 0 < i) by (intros i ->; inversion Hid; auto). destruct (dget Z.eqb (e_pend s) id) as [t0|] eqn:E; [|split; [exact M'|lia]]. destruct M as [t E1 I B A T|t E1 I B A T|E1 I B A|E1 I A Sh]; try (rewrite E1 in E; discriminate E). destruct (pend_one _ _ _ _ E1 E) as (-> & -> & Er). unfold on_timeout. cbv zeta. set (s1 := set_id 0 (e_take (e_id s) s)). assert (P1 : pot s = t - 1) by (unfold pot; rewrite E1, A; cbn; lia).
    destruct (1 <? t) eqn:Lt.
    + destruct (fetch_ready (l ++ [VTimeout (e_id s) x]) (t - 1) x s1) as (H1 & H2 & _); auto; [constructor; auto|lia|]. split; [exact H1|]. change (sent s1) with (sent s) in H2. lia.
    + unfold call_later. split; [apply MIdle; auto; unfold agains; cbn [e_emit set_later e_later kek_error set_busy]; rewrite filter_app; change (e_later s1) with (e_later s); fold (agains s); rewrite A; reflexivity|]. rewrite sent_emit by discriminate. change (sent (set_later _ _)) with (sent (kek_error E_KekRetrievalTimeout s1)). unfold kek_error. rewrite sent_emit by discriminate. change (sent (set_busy false s1)) with (sent s). unfold pot at 1, agains. cbn [e_emit set_later e_later kek_error set_busy e_pend]. change (e_pend s1) with (dremove Z.eqb (e_pend s) (e_id s)). rewrite Er, filter_app. change (e_later s1) with (e_later s). fold (agains s). rewrite A. cbn. lia.
  - destruct (dget Z.eqb (e_pend s) id) as [t0|] eqn:E; [|split; [exact M'|lia]]. destruct M as [t E1 I B A T|t E1 I B A T|E1 I B A|E1 I A Sh]; try (rewrite E1 in E; discriminate E). destruct (pend_one _ _ _ _ E1 E) as (-> & -> & Er). unfold on_nack. cbv zeta. set (s1 := set_id 0 (e_take (e_id s) s)). assert (P1 : pot s = t - 1) by (unfold pot; rewrite E1, A; cbn; lia). unfold call_later. destruct (1 <? t) eqn:Lt.
    + assert (A1 : agains (e_emit (ODelay RETRY_NACK) (set_later (e_later s1 ++ [Again (t - 1)]) s1)) = [Again (t - 1)]). { unfold agains. cbn [e_emit set_later e_later]. rewrite filter_app. change (e_later s1) with (e_later s). fold (agains s). rewrite A. reflexivity. }
      split; [apply (MNack _ _ (t - 1)); auto; lia|]. rewrite sent_emit by discriminate. change (sent (set_later _ s1)) with (sent s). unfold pot at 1. rewrite A1. change (e_pend (e_emit _ _)) with (dremove Z.eqb (e_pend s) (e_id s)). rewrite Er. cbn. lia.
    + assert (A1 : agains (e_emit (ODelay RETRY_KEK) (set_later (e_later (kek_error E_KekRetrievalFailure s1) ++ [Retry]) (kek_error E_KekRetrievalFailure s1))) = []). { unfold agains. cbn [e_emit set_later e_later kek_error set_busy]. rewrite filter_app. change (e_later s1) with (e_later s). fold (agains s). rewrite A. reflexivity. }
      split; [apply MIdle; auto|]. rewrite sent_emit by discriminate. change (sent (set_later _ _)) with (sent (kek_error E_KekRetrievalFailure s1)). unfold kek_error at 1. rewrite sent_emit by discriminate. change (sent (set_busy false s1)) with (sent s). unfold pot at 1. rewrite A1. change (e_pend (e_emit _ _)) with (dremove Z.eqb (e_pend s) (e_id s)). rewrite Er. cbn. lia.
  - assert (X : forall j, x = Some j -> 0 < j) by (intros j ->; inversion Hid; auto). destruct (nth_error (e_later s) i) as [[|t]|] eqn:E; [| |split; [exact M'|lia]].
    + set (s1 := set_later _ s). assert (A1 : agains s1 = agains s) by (apply nth_retry, E). assert (M1 : mode (l ++ [VLater i x]) s1) by (destruct M'; [apply (MOut _ _ t)|apply (MNack _ _ t)|apply MIdle|apply MShut]; rewrite ?A1; auto). destruct (retry_mode _ x _ M1 X) as [H1 H2]. split; [exact H1|]. assert (pot s1 = pot s) by (unfold pot; rewrite A1; reflexivity). change (sent s1) with (sent s) in H2. lia.
    + set (s1 := set_later _ s). destruct (nth_again _ _ _ E) as [N H]. fold (agains s) in N, H. destruct M as [t0 E1 I B A T|t0 E1 I B A T|E1 I B A|E1 I A Sh]; try (rewrite A in N; congruence). destruct (H _ A) as [[= ->] A1]. destruct (fetch_ready (l ++ [VLater i x]) t x s1) as (H1 & H2 & _); auto; [constructor; auto|lia|]. split; [exact H1|]. change (sent s1) with (sent s) in H2. assert (pot s = t) by (unfold pot; rewrite E1, A; cbn; lia). lia.
  - rewrite sent_emit by discriminate. change (pot (e_emit _ s)) with (pot s). split; [|lia]. destruct M'; [eapply MOut; eauto|eapply MNack; eauto|apply MIdle; auto|apply MShut; auto].
  - destruct (0 <? e_id s) eqn:L; [|split; [exact M'|lia]]. destruct M as [t E1 I B A T|t E1 I B A T|E1 I B A|E1 I A Sh]; [|lia|lia|].
    + assert (Er : e_pend (e_take (e_id s) s) = []) by (cbn [e_take set_pend e_pend]; rewrite E1; cbn [dremove]; rewrite Z.eqb_refl; reflexivity). split; [apply MShut; auto; apply in_or_app; right; left; reflexivity|]. unfold pot at 1. change (agains (e_take _ s)) with (agains s). change (sent (e_take _ s)) with (sent s). rewrite A, Er. cbn [pend_pot later_pot]. lia.
    + split; [apply MShut; auto; [cbn [e_take set_pend e_pend]; rewrite E1; reflexivity|apply in_or_app; auto]|]. unfold pot, agains. cbn [e_take set_pend e_pend e_later]. rewrite E1. fold (agains s). cbn [dremove]. change (sent (e_take (e_id s) s)) with (sent s). lia.
Qed.
Lemma run_mode : forall l, eproper l -> mode l (e_run l) /\ sent (e_run l) + pot (e_run l) <= 3 * starts l.
Proof.
  induction l as [|o l IH] using rev_ind; intros Pr; [split; [apply MIdle; reflexivity|cbn; unfold sent, zlen, pot; cbn; lia]|]. destruct (IH (eproper_app _ _ Pr)) as [M P]. rewrite run_snoc, starts_app. destruct Pr as [Pr _]. apply Forall_app in Pr. destruct Pr as [_ Pr]. inversion Pr as [|? ? [Hi _] _]; subst. destruct (step_mode l o _ M Hi) as [M1 P1]. split; [exact M1|lia].
Qed.
(** ** C75 *)
(** encrypt uses the CK that was generated last: its name is the key locator and its bits are the AES
    key, with the padded plain text. *)
Theorem C75_encrypt : forall l iv m now bits, eproper l -> current l = Some (now, bits) ->
  e_out (e_run (l ++ [VEncrypt iv m])) = e_out (e_run l) ++ [OContent (match cbc bits iv (aes_pad m) with Ok c => Ok (EC None (KL (Some 1) (ck_of_time now) None) (Some iv) (Some c) None) | Err e => Err e end)].
Proof.
  intros l iv m now bits Pr C. rewrite run_snoc. cbn [EncModel.e_step e_emit e_out]. pose proof (i_cur _ _ (run_inv l Pr)) as X. rewrite C in X. destruct X as [-> ->]. unfold e_encrypt, aes_encrypt. destruct (cbc bits iv (aes_pad m)); reflexivity.
Qed.
(** There is at most one Interest for the KEK at a time; at most three are sent for each regenerateCk
    and each delayed call; all have the name of the access prefix and KEK. *)
Theorem C75_one_interest : forall l, eproper l -> zlen (e_pend (e_run l)) <= 1.
Proof. intros l Pr. destruct (run_mode l Pr) as [M _]. destruct M as [t E _ _ _ _|t E _ _ _ _|E _ _ _|E _ _ _]; rewrite E; unfold zlen; cbn; lia. Qed.
Theorem C75_tries : forall l, eproper l -> zlen (e_sends (e_out (e_run l))) <= 3 * starts l.
Proof. intros l Pr. destruct (run_mode l Pr) as [M P]. apply mode_pot in M. unfold sent in P. lia. Qed.
Lemma fetch_names : forall t x s n, In n (e_sends (e_out (fetch t x s))) -> In n (e_sends (e_out s)) \/ n = accessPrefix ++ [N_KEK].
Proof. intros t x s n. unfold EncModel.fetch, kek_error. destruct (0 <? e_id s), x; cbn [e_emit set_busy set_id set_pend e_out]; rewrite e_sends_app; intros J; apply in_app_or in J; destruct J as [J|J]; auto; try destruct J as [J|[]]; auto; destruct J. Qed.
Lemma retry_names : forall x s n, In n (e_sends (e_out (retry x s))) -> In n (e_sends (e_out s)) \/ n = accessPrefix ++ [N_KEK].
Proof. intros x s n. unfold EncModel.retry. destruct (e_busy s); [auto|]. intros J. apply fetch_names in J. exact J. Qed.
Theorem C75_names : forall l n, In n (e_sends (e_out (e_run l))) -> n = accessPrefix ++ [N_KEK].
Proof.
  induction l as [|o l IH] using rev_ind; intros n J; [destruct J|]. rewrite run_snoc in J. set (s := e_run l) in *. assert (X : In n (e_sends (e_out s)) \/ n = accessPrefix ++ [N_KEK]); [|destruct X; auto].
  assert (Em : forall o' s', (forall i m, o' <> OSend i m) -> In n (e_sends (e_out (e_emit o' s'))) -> In n (e_sends (e_out s'))). { intros o' s' H J'. cbn [e_emit e_out] in J'. rewrite e_sends_app in J'. apply in_app_or in J'. destruct J' as [J'|J']; [exact J'|]. destruct o'; [exfalso; eapply H; reflexivity|destruct J' ..]. }
  destruct o as [now b x r g|id kek r g|id x|id|i x|iv m|]; cbn [EncModel.e_step] in J.
  - unfold regenerate in J. destruct (ck_name ckPrefix now) as [k|]; [|auto]. cbv zeta in J. destruct (e_kek s) as [kek|]; [|apply retry_names in J; exact J]. destruct (publish kek r g _) as [s2|] eqn:Ep; [apply publish_frame in Ep; destruct Ep as (_ & _ & _ & _ & F & _); rewrite F in J; auto|]. apply Em in J; [auto|discriminate].
  - destruct (dget Z.eqb (e_pend s) id); [|auto]. unfold on_kek in J. cbv zeta in J. destruct (publish kek r g _) as [s2|] eqn:Ep; [apply publish_frame in Ep; destruct Ep as (_ & _ & _ & _ & F & _); cbn [set_busy e_out] in J; rewrite F in J; auto|]. unfold kek_error in J. apply Em in J; [auto|discriminate].
  - destruct (dget Z.eqb (e_pend s) id) as [t|]; [|auto]. unfold on_timeout in J. cbv zeta in J. destruct (1 <? t); [apply fetch_names in J; exact J|]. unfold call_later in J. apply Em in J; [|discriminate]. change (e_out (set_later _ _)) with (e_out (kek_error E_KekRetrievalTimeout (set_id 0 (e_take id s)))) in J. unfold kek_error in J. apply Em in J; [auto|discriminate].
  - destruct (dget Z.eqb (e_pend s) id) as [t|]; [|auto]. unfold on_nack, call_later in J. cbv zeta in J. destruct (1 <? t); apply Em in J; try discriminate; [auto|]. change (e_out (set_later _ _)) with (e_out (kek_error E_KekRetrievalFailure (set_id 0 (e_take id s)))) in J. unfold kek_error in J. apply Em in J; [auto|discriminate].
  - destruct (nth_error (e_later s) i) as [[|t]|]; [apply retry_names in J; exact J|apply fetch_names in J; exact J|auto].
  - apply Em in J; [auto|discriminate].
  - destruct (0 <? e_id s); auto.
Qed.
(** It does not give up: without shutdown, and if expressInterest does not raise, either a KEK was
    received, or an Interest is out or a call of the timer is waiting. *)
Lemma fetch_sends : forall t i s, e_id s = 0 -> e_pend (fetch t (Some i) s) <> [].
Proof. intros t i s E. unfold EncModel.fetch. rewrite E. cbn. destruct (e_pend s) as [|[a b] p]; [discriminate|]. cbn. destruct (a =? i); discriminate. Qed.
Lemma alive_step : forall l o, eproper (l ++ [o]) -> no_shutdown (l ++ [o]) -> no_raise (l ++ [o]) -> let s := e_run l in
  (current l <> None -> e_kek s <> None \/ e_pend s <> [] \/ e_later s <> []) -> current (l ++ [o]) <> None -> e_kek (e_step o s) <> None \/ e_pend (e_step o s) <> [] \/ e_later (e_step o s) <> [].
Proof.
  intros l o Pr Ns Nr s IH C. pose proof (eproper_app _ _ Pr) as Pl. destruct (run_mode l Pl) as [M _]. fold s in M. assert (M0 : ~ In VShutdown l) by (intros X; apply Ns, in_or_app; auto). apply Forall_app in Nr. destruct Nr as [_ Nr]. inversion Nr as [|? ? No _]; subst. clear Nr. rewrite current_snoc in C.
  assert (Rt : forall i s', e_id s' = e_id s -> e_pend s' = e_pend s -> e_busy s' = e_busy s -> agains s' = agains s -> e_pend (retry (Some i) s') <> [] \/ e_later (retry (Some i) s') <> []).
  { intros i s' E1 E2 E3 E4. unfold EncModel.retry. destruct (e_busy s') eqn:B.
    - destruct M as [t E I B' A T|t E I B' A T|E I B' A|E I A Sh]; [left; rewrite E2, E; discriminate|right; rewrite <- E4 in A; unfold agains in A; destruct (e_later s'); discriminate|congruence|tauto].
    - left. apply fetch_sends. destruct M as [t E I B' A T|t E I B' A T|E I B' A|E I A Sh]; [congruence|congruence|cbn; congruence|tauto]. }
  destruct o as [now b x r g|id kek r g|id x|id|i x|iv m|]; cbn [EncModel.e_step].
  - destruct Pr as [_ Rg]. rewrite regens_app in Rg. apply Forall_app in Rg. destruct Rg as [_ Rg]. inversion Rg as [|? ? Rn _]; subst. cbn in Rn. unfold regenerate. rewrite ck_name_ok by lia. cbv zeta. destruct (e_kek s) as [kek|] eqn:Ek.
    + left. destruct (publish kek r g _) as [s2|] eqn:Ep; [apply publish_frame in Ep; destruct Ep as (_ & _ & _ & _ & _ & F); rewrite F|]; cbn; rewrite Ek; discriminate.
    + destruct x as [i|]; [|destruct No]. right. apply Rt; reflexivity.
  - specialize (IH C). destruct (dget Z.eqb (e_pend s) id); [|exact IH]. left. unfold on_kek. cbv zeta. destruct (publish kek r g _) as [s2|] eqn:Ep; [apply publish_frame in Ep; destruct Ep as (_ & _ & _ & _ & _ & F); cbn [set_busy e_kek]; rewrite F|]; discriminate.
  - specialize (IH C). destruct (dget Z.eqb (e_pend s) id) as [t|]; [|exact IH]. destruct x as [i|]; [|destruct No]. right. unfold on_timeout. cbv zeta. destruct (1 <? t); [left; apply fetch_sends; reflexivity|]. right. cbn. destruct (e_later s); discriminate.
  - specialize (IH C). destruct (dget Z.eqb (e_pend s) id) as [t|]; [|exact IH]. right. right. unfold on_nack. cbv zeta. destruct (1 <? t); cbn; destruct (e_later s); discriminate.
  - specialize (IH C). destruct (nth_error (e_later s) i) as [[|t]|] eqn:E; [| |exact IH]; (destruct x as [j|]; [|destruct No]); right.
    + apply Rt; try reflexivity. apply nth_retry, E.
    + left. apply fetch_sends. cbn [set_later e_id]. destruct (nth_again _ _ _ E) as [N _]. fold (agains s) in N. destruct M as [t0 E1 I B' A T|t0 E1 I B' A T|E1 I B' A|E1 I A Sh]; [congruence|exact I|congruence|congruence].
  - apply (IH C).
  - exfalso. apply Ns, in_or_app. right. left. reflexivity.
Qed.
Theorem C75_alive : forall l, eproper l -> no_shutdown l -> no_raise l -> regens l <> [] -> (exists kek, kek_in l kek) \/ e_pend (e_run l) <> [] \/ e_later (e_run l) <> [].
Proof.
  intros l Pr Ns Nr R. assert (C : current l <> None). { unfold current. destruct (rev (regens l)) eqn:E; [|discriminate]. apply (f_equal (@rev _)) in E. rewrite rev_involutive in E. contradiction. } clear R.
  assert (H : e_kek (e_run l) <> None \/ e_pend (e_run l) <> [] \/ e_later (e_run l) <> []). { revert C. induction l as [|o l IH] using rev_ind; [intros C; exfalso; apply C; reflexivity|]. intros C. rewrite run_snoc. apply alive_step; auto. intros C'. apply IH; [apply (eproper_app _ _ Pr)| | |exact C']; [intros X; apply Ns, in_or_app; auto|apply Forall_app in Nr; apply Nr]. }
  destruct H as [H|H]; [left|auto]. destruct (e_kek (e_run l)) as [kek|] eqn:E; [|congruence]. exists kek. apply (i_kek _ _ (run_inv l Pr)), E.
Qed.
(** When a KEK Data arrives, the CK of that time is published, or the user is told; so is each CK that
    is generated later, with the last KEK. *)
Definition published (s : estate) (k : name) (bits : bytes) (kek : data) : Prop := exists n d c, In (n, d) (e_store s) /\ ck_data k bits kek d /\ n_equals n (d_name d ++ [c]) = true.
(** The last KEK Data that satisfied an Interest *)
Definition accepted (l : list eevent) (id : Z) : Prop := exists t, In (id, t) (e_pend (e_run l)).
Definition last_kek (l : list eevent) (kek : data) : Prop :=
  exists l1 id r g l2, l = l1 ++ VData id kek r g :: l2 /\ accepted l1 id /\ forall a id' kek' r' g' b, l2 = a ++ VData id' kek' r' g' :: b -> ~ accepted (l1 ++ VData id kek r g :: a) id'.
(** The CK Data can be made: the content of the KEK is a key that encrypts, and signing works. *)
Definition can_publish (k : name) (bits : bytes) (kek : data) (r : Z) (g : data -> res data) : Prop :=
  exists pub c d w, d_content kek = Some pub /\ penc r pub bits = Ok c /\
    g (Data (k ++ [N_ENCRYPTED_BY] ++ d_name kek) (MI 0 (-1) (Some 3600000) (c_generic [])) (Some (encodeEncryptedContentV2 (EC None kl_empty None (Some c) None))) (SigRsa kl_empty vp_none None)) = Ok d /\
    encodeData d = Ok w /\ zlen (sha (fst w)) = 32.
Lemma can_make : forall k bits kek r g, can_publish k bits kek r g -> exists x, make_ck k bits kek r g = Ok x.
Proof.
  intros k bits kek r g (pub & c & d & w & H1 & H2 & H3 & H4 & H5). unfold EncModel.make_ck, full_name, CK_FRESHNESS, ck_content. rewrite H1. cbn [to_bytes rbind]. rewrite H2. cbn [rbind]. rewrite H3. cbn [rbind]. rewrite H4. cbn [rbind]. unfold c_fromImplicitSha256Digest. rewrite H5. cbn. eexists. reflexivity.
Qed.
Lemma in_dset : forall (m : dict name data) n d, exists n', In (n', d) (dset n_equals m n d) /\ n_equals n' n = true.
Proof. intros m n d. induction m as [|[k v] m IH]; cbn [dset]; [exists n; split; [left; reflexivity|apply eq_refl_n]|]. destruct (n_equals k n) eqn:E; [exists k; split; [left; reflexivity|exact E]|]. destruct IH as (n' & J & E'). exists n'. split; [right; exact J|exact E']. Qed.
Lemma publish_done : forall l kek r g s s' now bits, inv l s -> current l = Some (now, bits) -> kek_in l kek -> keeps g -> publish kek r g s = Some s' -> published s' (ck_of_time now) bits kek.
Proof.
  intros l kek r g s s' now bits I C K G Ep. apply (publish_inv l) in Ep; auto; [|congruence]. destruct Ep as (n & d & now' & bits' & C' & -> & D & [c Ec] & _). rewrite C in C'. injection C' as <- <-. destruct (in_dset (e_store s) n d) as (n' & J & E). exists n', d, c. split; [exact J|]. split; [exact D|]. rewrite <- Ec. exact E.
Qed.
Theorem C75_kek_arrives : forall l id kek r g now bits, eproper (l ++ [VData id kek r g]) -> accepted l id -> current l = Some (now, bits) -> let s' := e_run (l ++ [VData id kek r g]) in
  (published s' (ck_of_time now) bits kek /\ e_out s' = e_out (e_run l) \/ ~ can_publish (ck_of_time now) bits kek r g /\ e_out s' = e_out (e_run l) ++ [OError E_EncryptionFailure]) /\ e_pend s' = [].
Proof.
  intros l id kek r g now bits Pr [t Ac] C s'. unfold s'. clear s'. pose proof (eproper_app _ _ Pr) as Pl. rewrite run_snoc. set (s := e_run l) in *. pose proof (run_inv l Pl) as I. fold s in I. destruct (run_mode l Pl) as [M _]. fold s in M.
  destruct M as [t0 E1 Ii B A T|t0 E1 Ii B A T|E1 Ii B A|E1 Ii A Sh]; rewrite E1 in Ac; try (exfalso; exact Ac). destruct Ac as [Ac|[]]. injection Ac as <- <-. cbn [EncModel.e_step]. rewrite E1. cbn [dget]. rewrite Z.eqb_refl. unfold on_kek. cbv zeta. destruct Pr as [Pr _]. apply Forall_app in Pr. destruct Pr as [_ Pr]. inversion Pr as [|? ? [_ Hg] _]; subst. inversion Hg as [|? ? Kg _]; subst.
  set (l' := l ++ [VData (e_id s) kek r g]). set (s1 := set_kek kek (set_id 0 (e_take (e_id s) s))). assert (C' : current l' = Some (now, bits)) by (unfold l'; rewrite current_snoc; exact C). assert (K : kek_in l' kek) by (exists (e_id s), r, g; apply in_or_app; right; left; reflexivity).
  assert (I1 : inv l' s1). { pose proof (inv_mono l (VData (e_id s) kek r g) s I (current_snoc _ _)) as I0. fold l' in I0. constructor; [|apply I0|intros d [= <-]; exact K]. pose proof (i_cur _ _ I0) as X. rewrite C' in *. exact X. }
  assert (Ep1 : e_pend s1 = []) by (unfold s1; cbn [set_kek set_id e_take set_pend e_pend]; rewrite E1; cbn [dremove]; rewrite Z.eqb_refl; reflexivity).
  destruct (publish kek r g s1) as [s2|] eqn:Ep.
  - pose proof (publish_frame _ _ _ _ _ Ep) as (F1 & _ & _ & _ & F & _). split; [|cbn [set_busy e_pend]; congruence]. left. split; [|exact F]. apply (publish_done l' kek r g _ _ now bits I1 C' K Kg Ep).
  - split; [|exact Ep1]. right. split; [|reflexivity]. intros Cp. apply can_make in Cp. destruct Cp as [[n d] E]. unfold EncModel.publish in Ep. pose proof (i_cur _ _ I1) as X. rewrite C' in X. destruct X as [X1 X2]. rewrite X1, X2, E in Ep. discriminate Ep.
Qed.
Lemma kek_kept : forall o s, (forall id kek r g, o = VData id kek r g -> dget Z.eqb (e_pend s) id = None) -> e_kek (e_step o s) = e_kek s.
Proof.
  intros o s H. destruct o as [now b x r g|id kek r g|id x|id|i x|iv m|]; cbn [EncModel.e_step].
  - unfold regenerate. destruct (ck_name ckPrefix now) as [k|]; [|reflexivity]. cbv zeta. destruct (e_kek s) as [kek|] eqn:E; [|destruct (retry_cur x (set_ck k b s)) as (_ & _ & _ & ->); exact E]. destruct (publish kek r g _) as [s2|] eqn:Ep; [apply publish_frame in Ep; destruct Ep as (_ & _ & _ & _ & _ & ->); exact E|exact E].
  - rewrite (H _ _ _ _ eq_refl). reflexivity.
  - destruct (dget Z.eqb (e_pend s) id) as [t|]; [|reflexivity]. unfold on_timeout. cbv zeta. destruct (1 <? t); [|reflexivity]. destruct (fetch_cur (t - 1) x (set_id 0 (e_take id s))) as (_ & _ & _ & ->). reflexivity.
  - destruct (dget Z.eqb (e_pend s) id) as [t|]; [|reflexivity]. unfold on_nack. cbv zeta. destruct (1 <? t); reflexivity.
  - destruct (nth_error (e_later s) i) as [[|t]|]; [| |reflexivity]; [destruct (retry_cur x (set_later (firstn i (e_later s) ++ skipn (S i) (e_later s)) s)) as (_ & _ & _ & ->)|destruct (fetch_cur t x (set_later (firstn i (e_later s) ++ skipn (S i) (e_later s)) s)) as (_ & _ & _ & ->)]; reflexivity.
  - reflexivity.
  - destruct (0 <? e_id s); reflexivity.
Qed.
Lemma accepted_dget : forall l id, accepted l id <-> dget Z.eqb (e_pend (e_run l)) id <> None.
Proof.
  intros l id. unfold accepted. induction (e_pend (e_run l)) as [|[i t] p IH]; cbn [dget]; [split; [intros [t []]|congruence]|]. destruct (i =? id) eqn:E; [split; [discriminate|intros _; exists t; left; f_equal; lia]|]. rewrite <- IH. split; intros [t' J]; exists t'; [destruct J as [J|J]; [injection J as -> _; lia|exact J]|right; exact J].
Qed.
Lemma last_kek_state : forall l kek, last_kek l kek -> e_kek (e_run l) = Some kek.
Proof.
  intros l kek (l1 & id & r & g & l2 & -> & Ac & H). revert H. induction l2 as [|o l2 IH] using rev_ind; intros H.
  - rewrite run_snoc. cbn [EncModel.e_step]. apply accepted_dget in Ac. destruct (dget Z.eqb _ id); [|congruence]. unfold on_kek. cbv zeta. destruct (publish kek r g _) as [s2|] eqn:Ep; [apply publish_frame in Ep; destruct Ep as (_ & _ & _ & _ & _ & F); exact F|reflexivity].
  - change (VData id kek r g :: l2 ++ [o]) with ((VData id kek r g :: l2) ++ [o]). rewrite app_assoc, run_snoc. rewrite kek_kept; [apply IH|].
    + intros a id' kek' r' g' b ->. apply (H a id' kek' r' g' (b ++ [o])). rewrite <- app_assoc. reflexivity.
    + intros id' kek' r' g' ->. specialize (H l2 id' kek' r' g' [] eq_refl). rewrite accepted_dget in H. destruct (dget Z.eqb _ id'); [exfalso; apply H; discriminate|reflexivity].
Qed.
Theorem C75_regenerate : forall l kek now bits x r g, eproper (l ++ [VRegen now bits x r g]) -> last_kek l kek -> let s' := e_run (l ++ [VRegen now bits x r g]) in
  (published s' (ck_of_time now) bits kek /\ e_out s' = e_out (e_run l) \/ ~ can_publish (ck_of_time now) bits kek r g /\ e_out s' = e_out (e_run l) ++ [OError E_EncryptionFailure]).
Proof.
  intros l kek now bits x r g Pr Lk s'. unfold s'. clear s'. pose proof (eproper_app _ _ Pr) as Pl. apply last_kek_state in Lk. pose proof (run_inv _ Pr) as I'. rewrite run_snoc in *. set (s := e_run l) in *. pose proof (run_inv l Pl) as I. fold s in I. set (l' := l ++ [VRegen now bits x r g]) in *.
  assert (Rn : 0 <= now). { destruct Pr as [_ Rg]. unfold l' in Rg. rewrite regens_app in Rg. apply Forall_app in Rg. destruct Rg as [_ Rg]. inversion Rg as [|? ? Rn _]; subst. cbn in Rn. lia. }
  assert (Kg : keeps g). { destruct Pr as [Pr _]. apply Forall_app in Pr. destruct Pr as [_ Pr]. inversion Pr as [|? ? [_ Hg] _]; subst. inversion Hg; subst. assumption. }
  cbn [EncModel.e_step]. unfold regenerate. rewrite ck_name_ok by lia. cbv zeta. rewrite Lk. assert (K : kek_in l' kek). { destruct (i_kek _ _ I kek Lk) as (id & r0 & g0 & J). exists id, r0, g0. apply in_or_app. auto. }
  assert (C : current l' = Some (now, bits)) by (unfold l'; apply current_snoc). assert (I1 : inv l' (set_ck (ck_of_time now) bits s)). { constructor; cbn [set_ck e_name e_bits e_store e_kek]; [rewrite C; auto|intros n d J; apply made_mono, I, J|]. intros d J. destruct (i_kek _ _ I d J) as (id & r0 & g0 & H). exists id, r0, g0. apply in_or_app. auto. }
  destruct (publish kek r g _) as [s2|] eqn:Ep.
  - left. pose proof (publish_frame _ _ _ _ _ Ep) as (_ & _ & _ & _ & F & _). split; [apply (publish_done l' kek r g _ _ now bits I1 C K Kg Ep)|exact F].
  - right. split; [|reflexivity]. intros Cp. apply can_make in Cp. destruct Cp as [[n d] E]. unfold EncModel.publish in Ep. cbn [set_ck e_name e_bits] in Ep. rewrite E in Ep. discriminate Ep.
Qed.
(** What is published is served for ever; if no two CKs were generated in the same millisecond, what is
    served for a CK carries the bits of that CK, encrypted with a KEK that was received. *)
Lemma dset_keys_in : forall (m : dict name data) n d k, In k (dkeys m) -> In k (dkeys (dset n_equals m n d)).
Proof. intros m n d k. induction m as [|[k' v] m IH]; intros J; [destruct J|]. cbn [dset]. destruct (n_equals k' n); cbn in *; [exact J|]. destruct J as [J|J]; auto. Qed.
Lemma keys_kept : forall o s k, In k (dkeys (e_store s)) -> In k (dkeys (e_store (e_step o s))).
Proof.
  intros o s k J. assert (Pb : forall kek r g s1 s2, e_store s1 = e_store s -> publish kek r g s1 = Some s2 -> In k (dkeys (e_store s2))). { intros kek r g s1 s2 E. unfold EncModel.publish. destruct (make_ck _ _ _ _ _) as [[n d]|]; [|discriminate]. intros [= <-]. cbn [set_store e_store]. rewrite E. apply dset_keys_in, J. }
  destruct o as [now b x r g|id kek r g|id x|id|i x|iv m|]; cbn [EncModel.e_step].
  - unfold regenerate. destruct (ck_name ckPrefix now) as [n|]; [|exact J]. cbv zeta. destruct (e_kek s) as [kek|]; [|destruct (retry_cur x (set_ck n b s)) as (_ & _ & -> & _); exact J]. destruct (publish kek r g _) as [s2|] eqn:Ep; [|exact J]. apply (Pb kek r g (set_ck n b s)); auto.
  - destruct (dget Z.eqb (e_pend s) id); [|exact J]. unfold on_kek. cbv zeta. destruct (publish kek r g _) as [s2|] eqn:Ep; [|exact J]. apply Pb in Ep; [exact Ep|reflexivity].
  - destruct (dget Z.eqb (e_pend s) id) as [t|]; [|exact J]. unfold on_timeout. cbv zeta. destruct (1 <? t); [|exact J]. destruct (fetch_cur (t - 1) x (set_id 0 (e_take id s))) as (_ & _ & -> & _). exact J.
  - destruct (dget Z.eqb (e_pend s) id) as [t|]; [|exact J]. unfold on_nack. cbv zeta. destruct (1 <? t); exact J.
  - destruct (nth_error (e_later s) i) as [[|t]|]; [| |exact J]; [destruct (retry_cur x (set_later (firstn i (e_later s) ++ skipn (S i) (e_later s)) s)) as (_ & _ & -> & _)|destruct (fetch_cur t x (set_later (firstn i (e_later s) ++ skipn (S i) (e_later s)) s)) as (_ & _ & -> & _)]; exact J.
  - exact J.
  - destruct (0 <? e_id s); exact J.
Qed.
Lemma ckey_values : forall a b, map CmdProps.ckey a = map CmdProps.ckey b -> map c_value a = map c_value b.
Proof. induction a as [|x a IH]; intros [|y b] E; try discriminate E; [reflexivity|]. cbn in E. injection E as _ _ E1 E2. cbn. f_equal; [exact E1|apply IH, E2]. Qed.
Lemma under_ck : forall now now' n kek d c bits, 0 <= now < 2 ^ 64 -> 0 <= now' < 2 ^ 64 -> ck_data (ck_of_time now') bits kek d -> n_equals n (d_name d ++ [c]) = true -> n_isPrefixOf (ck_of_time now) n = true -> now = now'.
Proof.
  intros now now' n kek d c bits R R' [En _] E U. apply under_iff in U. destruct U as [r U]. apply n_equals_ckey, ckey_values in E. rewrite E, En in U. unfold EncSpec.ck_of_time in U. rewrite !map_app, <- !app_assoc in U. apply app_inv_head in U. cbn in U. injection U as U _. rewrite <- (seg_is now R), <- (seg_is now' R'), U. reflexivity.
Qed.
Theorem C75_served : forall l l' now bits kek, eproper (l ++ l') -> NoDup (map fst (regens (l ++ l'))) -> In (now, bits) (regens l) -> published (e_run l) (ck_of_time now) bits kek ->
  exists d kek', serve (e_run (l ++ l')) (ck_of_time now) = Some d /\ kek_in (l ++ l') kek' /\ ck_data (ck_of_time now) bits kek' d.
Proof.
  intros l l' now bits kek Pr Nd Jn (n & d & c & J & D & E). pose proof (run_inv _ Pr) as I.
  assert (Jk : In n (dkeys (e_store (e_run (l ++ l'))))). { clear - J. induction l' as [|o l' IH] using rev_ind; [rewrite app_nil_r; apply (in_map fst) in J; exact J|]. rewrite app_assoc, run_snoc. apply keys_kept, IH. }
  assert (Jr : In (now, bits) (regens (l ++ l'))) by (rewrite regens_app; apply in_or_app; auto). assert (Rg : forall x, In x (regens (l ++ l')) -> 0 <= fst x < 2 ^ 64) by (apply Forall_forall, Pr).
  assert (U : n_isPrefixOf (ck_of_time now) n = true). { apply under_iff. apply n_equals_ckey, ckey_values in E. destruct D as [En _]. unfold under. rewrite E, En, !map_app, <- app_assoc. eexists. reflexivity. }
  unfold serve. destruct (st_find (e_store (e_run (l ++ l'))) (ck_of_time now)) as [d'|] eqn:Ef.
  - apply find_split in Ef. destruct Ef as (a & k & b & Es & Uk & _). assert (Jd : In (k, d') (e_store (e_run (l ++ l')))) by (rewrite Es; apply in_or_app; right; left; reflexivity). destruct (i_store _ _ I _ _ Jd) as (now' & bits' & kek' & c' & H1 & H2 & H3 & H4). assert (now = now') by (apply (under_ck now now' k kek' d' c' bits'); auto; [apply (Rg _ Jr)|apply (Rg _ H1)]). subst now'.
    assert (bits' = bits). { clear - Nd Jr H1. induction (regens (l ++ l')) as [|[a b] u IH]; [destruct Jr|]. cbn in Nd. inversion Nd; subst. destruct Jr as [Jr|Jr], H1 as [H1|H1]; [congruence| | |auto]; exfalso; apply H2; [injection Jr as -> _; apply (in_map fst) in H1; exact H1|injection H1 as -> _; apply (in_map fst) in Jr; exact Jr]. } subst bits'. exists d', kek'. auto.
  - exfalso. apply in_map_iff in Jk. destruct Jk as ([n' d'] & En & Jk). cbn in En. subst n'. rewrite (proj1 (StoreProps.find_none _ _) Ef _ _ Jk) in U. discriminate U.
Qed.
(** Everything in the storage is the Data of a CK that was generated, with a KEK that was received. *)
Theorem C75_only : forall l n d, eproper l -> serve (e_run l) n = Some d -> exists now bits kek, In (now, bits) (regens l) /\ kek_in l kek /\ ck_data (ck_of_time now) bits kek d.
Proof. intros l n d Pr E. apply find_split in E. destruct E as (a & k & b & Es & _). destruct (i_store _ _ (run_inv l Pr) k d) as (now & bits & kek & c & H1 & H2 & H3 & _); [rewrite Es; apply in_or_app; right; left; reflexivity|]. exists now, bits, kek. auto. Qed.
End E.
Print Assumptions C75_encrypt.
Print Assumptions C75_one_interest.
Print Assumptions C75_tries.
Print Assumptions C75_names.
Print Assumptions C75_alive.
Print Assumptions C75_kek_arrives.
Print Assumptions C75_regenerate.
Print Assumptions C75_served.
Print Assumptions C75_only.
