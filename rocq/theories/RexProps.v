(** * C93: exponential re-expressing *)
From Verif Require Import Base BaseLemmas NameModel WireModel CtlModel MatchModel RegModel RexModel RexSpec.

Section Rex.
Variable max : Z.
Notation step := (step max). Notation run := (run max). Notation onTimeout := (onTimeout max).

Lemma pow_S : forall j, pow (S j) = pow j * 2.
Proof. intro j. unfold pow. rewrite Nat2Z.inj_succ, Z.pow_succ_r by lia. lia. Qed.
Lemma pow_pos : forall j, 0 < pow j.
Proof. intro j. apply Z.pow_pos_nonneg; lia. Qed.

Notation sent_ok := (sent_ok max). Notation result_ok := (result_ok max).
(** ** Invariant *)
Definition fp (c : Z) (w : world) : list pend := filter (fun p => p_chain p =? c) (w_pend w).
Definition delay (i : interest) : Z := match i_lifetime i with Some l => l | None => 4000 end.
Definition chain_ok (h : list event) (w : world) (c : Z) : Prop :=
  let es := sent c (w_log w) in let rs := results c (w_log w) in
  es = [] /\ rs = [] /\ fp c w = [] \/
  c < w_next w /\ exists t0 i0 rest, es = (t0, i0) :: rest /\ started h t0 i0 /\ (forall j t i, nth_error es j = Some (t, i) -> sent_ok h t0 i0 j t i) /\
  exists es' t i, es = es' ++ [(t, i)] /\ (rs = [] /\ (exists p, fp c w = [p] /\ p_int p = i /\ p_due p = t + delay i) \/ fp c w = [] /\ exists t' a, rs = [(t', a)] /\ result_ok t0 i0 i t' a).
Definition wf (w : world) : Prop := NoDup (map p_id (w_pend w)) /\ Forall (fun p => p_id p < w_next w) (w_pend w).
Definition inv (h : list event) (w : world) : Prop := wf w /\ forall c, chain_ok h w c.

Lemma sent_app : forall c l l', sent c (l ++ l') = sent c l ++ sent c l'.
Proof. intros. apply flat_map_app. Qed.
Lemma results_app : forall c l l', results c (l ++ l') = results c l ++ results c l'.
Proof. intros. apply flat_map_app. Qed.
Lemma find_in : forall id l p, find id l = Some p -> In p l /\ p_id p = id.
Proof. intros id l. induction l as [|q l IH]; intros p H; cbn [find] in H; [discriminate H|]. destruct (Z.eqb_spec (p_id q) id) as [E|N]; [injection H as <-; split; [left; reflexivity|exact E]|]. destruct (IH p H) as [A B]. split; [right; exact A|exact B]. Qed.
Lemma drop_filter : forall id f l, filter f (drop id l) = drop id (filter f l).
Proof. intros id f l. induction l as [|q l IH]; [reflexivity|]. cbn [drop filter]. destruct (p_id q =? id) eqn:E; destruct (f q) eqn:F; cbn [drop filter]; rewrite ?E, ?F, IH; reflexivity. Qed.
Lemma drop_none : forall id l, (forall q, In q l -> p_id q <> id) -> drop id l = l.
Proof. intros id l. induction l as [|q l IH]; intro H; [reflexivity|]. cbn [drop]. replace (p_id q =? id) with false by (pose proof (H q (or_introl eq_refl)); lia). f_equal. apply IH. intros x X. apply H. right. exact X. Qed.
Lemma drop_incl : forall id l q, In q (drop id l) -> In q l.
Proof. intros id l. induction l as [|x l IH]; intros q H; [exact H|]. cbn [drop] in H. destruct (p_id x =? id); [right; exact (IH q H)|]. destruct H as [->|H]; [left; reflexivity|right; exact (IH q H)]. Qed.
Lemma nodup_id : forall l p q, NoDup (map p_id l) -> In p l -> In q l -> p_id p = p_id q -> p = q.
Proof.
  intros l. induction l as [|x l IH]; intros p q N Ip Iq E; [destruct Ip|]. cbn [map] in N. inversion N as [|y m Nx N']; subst. destruct Ip as [->|Ip]; destruct Iq as [->|Iq]; [reflexivity| | |exact (IH p q N' Ip Iq E)].
  - exfalso. apply Nx. rewrite E. apply in_map. exact Iq.
  - exfalso. apply Nx. rewrite <- E. apply in_map. exact Ip.
Qed.
Lemma nodup_drop : forall id l, NoDup (map p_id l) -> NoDup (map p_id (drop id l)).
Proof.
  intros id l. induction l as [|x l IH]; intro N; [exact N|]. cbn [map] in N. inversion N as [|y m Nx N']; subst. cbn [drop]. destruct (p_id x =? id); [exact (IH N')|]. cbn [map]. constructor; [|exact (IH N')]. intro X. apply Nx. apply in_map_iff in X. destruct X as (q & E & Iq). rewrite <- E. apply in_map. exact (drop_incl _ _ _ Iq).
Qed.
Lemma wf_drop : forall w id log, wf w -> wf (World (drop id (w_pend w)) (w_next w) log).
Proof. intros w id log [A B]. split; [exact (nodup_drop id _ A)|]. cbn [w_pend w_next]. rewrite Forall_forall in *. intros p H. apply B. exact (drop_incl _ _ _ H). Qed.
(** what dropping the entry [p] leaves of each Interest *)
Lemma fp_drop : forall w p id c n log, wf w -> find id (w_pend w) = Some p -> fp c (World (drop id (w_pend w)) n log) = if p_chain p =? c then drop id (fp c w) else fp c w.
Proof.
  intros w p id c n log [N _] F. unfold fp. cbn [w_pend]. rewrite drop_filter. destruct (p_chain p =? c) eqn:E; [reflexivity|]. apply drop_none. intros q Iq Eq. apply filter_In in Iq. destruct Iq as [Iq C]. destruct (find_in _ _ _ F) as [Ip Ep]. assert (X : p = q) by (apply (nodup_id _ _ _ N Ip Iq); congruence). subst q. congruence.
Qed.
Lemma weaken : forall h e w c, chain_ok h w c -> chain_ok (h ++ [e]) w c.
Proof.
  intros h e w c [H|(L & t0 & i0 & rest & E & (i & n & S1 & S2) & S & R)]; [left; exact H|]. right. split; [exact L|]. exists t0, i0, rest. split; [exact E|]. split; [exists i, n; split; [apply in_or_app; left; exact S1|exact S2]|]. split; [|exact R].
  intros j t i1 X. destruct (S j t i1 X) as (A & B & C). split; [exact A|]. split; [exact B|]. intro J. destruct (C J) as (m & M1 & M2). exists m. split; [|exact M2]. unfold drawn in *. rewrite flat_map_app. apply in_or_app. left. exact M1.
Qed.
(** The pending Interest [p] of its chain *)
Lemma of_pending : forall h w id p, inv h w -> find id (w_pend w) = Some p -> let c := p_chain p in let es := sent c (w_log w) in
  c < w_next w /\ results c (w_log w) = [] /\ fp c w = [p] /\ exists t0 i0 rest es' t, es = (t0, i0) :: rest /\ started h t0 i0 /\ (forall j t i, nth_error es j = Some (t, i) -> sent_ok h t0 i0 j t i) /\ es = es' ++ [(t, p_int p)] /\ p_due p = t + delay (p_int p).
Proof.
  intros h w id p [W C] F c es. destruct (find_in _ _ _ F) as [Ip Ep]. assert (I' : In p (fp c w)) by (apply filter_In; split; [exact Ip|apply Z.eqb_refl]).
  destruct (C c) as [(_ & _ & E)|(L & t0 & i0 & rest & E & St & S & es' & t & i & Es & [(R & q & Q & Qi & Qd)|(E' & _)])]; [rewrite E in I'; destruct I'| |rewrite E' in I'; destruct I'].
  rewrite Q in I'. destruct I' as [->|[]]. split; [exact L|]. split; [exact R|]. split; [exact Q|]. exists t0, i0, rest, es', t. subst i. auto 8.
Qed.
Lemma drop_one : forall id p, p_id p = id -> drop id [p] = [].
Proof. intros id p E. cbn [drop]. rewrite (proj2 (Z.eqb_eq _ _) E). reflexivity. Qed.
(** An Interest ends *)
Lemma inv_end : forall h e w id p t a, inv h w -> find id (w_pend w) = Some p -> (match a with AExpress _ => False | _ => True end) ->
  (forall t0 i0 rest (es' : list (Z * interest)) t1, sent (p_chain p) (w_log w) = (t0, i0) :: rest -> sent_ok h t0 i0 (length es') t1 (p_int p) -> p_due p = t1 + delay (p_int p) -> result_ok t0 i0 (p_int p) t a) ->
  inv (h ++ [e]) (World (drop id (w_pend w)) (w_next w) (w_log w ++ [(t, p_chain p, a)])).
Proof.
  intros h e w id p t a I0 F Na R. pose proof I0 as [W C]. split; [apply wf_drop; exact W|]. intro c. destruct (Z.eq_dec (p_chain p) c) as [Ec|Nc].
  - subst c. destruct (of_pending _ _ _ _ I0 F) as (L & Rs & Q & t0 & i0 & rest & es' & t1 & E & St & S & Es & D). destruct (find_in _ _ _ F) as [_ Ep]. apply weaken. right. split; [exact L|]. exists t0, i0, rest. cbn [w_log w_next]. rewrite sent_app, results_app, (fp_drop w p id _ _ _ W F), Z.eqb_refl, Q, (drop_one id p Ep), Rs.
    assert (X1 : sent (p_chain p) [(t, p_chain p, a)] = []) by (destruct a; [contradiction| | |]; reflexivity). assert (X2 : results (p_chain p) [(t, p_chain p, a)] = [(t, a)]) by (unfold results; cbn [flat_map]; rewrite Z.eqb_refl; destruct a; [contradiction| | |]; reflexivity). rewrite X1, X2, app_nil_r. cbn [app].
    split; [exact E|]. split; [exact St|]. split; [exact S|]. exists es', t1, (p_int p). split; [exact Es|]. right. split; [reflexivity|]. exists t, a. split; [reflexivity|]. apply (R t0 i0 rest es' t1 E); [|exact D]. apply S. rewrite Es, nth_error_app2, Nat.sub_diag by lia. reflexivity.
  - apply weaken. pose proof (C c) as X. unfold chain_ok in *. cbn [w_log w_next] in *. rewrite sent_app, results_app, (fp_drop w p id _ _ _ W F). replace (p_chain p =? c) with false by lia.
    assert (X1 : sent c [(t, p_chain p, a)] = []) by (unfold sent; cbn [flat_map]; replace (p_chain p =? c) with false by lia; destruct a; reflexivity). assert (X2 : results c [(t, p_chain p, a)] = []) by (unfold results; cbn [flat_map]; replace (p_chain p =? c) with false by lia; destruct a; reflexivity). rewrite X1, X2, !app_nil_r. exact X.
Qed.
Lemma sent_one : forall c t c' i, sent c [(t, c', AExpress i)] = if c' =? c then [(t, i)] else [].
Proof. intros. unfold sent. cbn [flat_map]. rewrite app_nil_r. reflexivity. Qed.
Lemma wf_express : forall w t c i n, wf w -> wf (expressInterest w t c i n).
Proof.
  intros w t c i n [A B]. unfold wf, expressInterest. cbn [w_pend w_next]. rewrite map_app. cbn [map p_id]. split.
  - assert (G : forall (l : list Z) x, NoDup l -> ~ In x l -> NoDup (l ++ [x])). { intros l x Nl Nx. apply NoDup_rev in Nl. rewrite <- (rev_involutive (l ++ [x])). apply NoDup_rev. rewrite rev_app_distr. cbn. constructor; [|exact Nl]. intro X. apply Nx. apply in_rev. exact X. }
    apply G; [exact A|]. intro X. apply in_map_iff in X. destruct X as (p & E & Ip). rewrite Forall_forall in B. specialize (B p Ip). lia.
  - apply Forall_app. split; [|constructor; [cbn; lia|constructor]]. rewrite Forall_forall in *. intros p Ip. specialize (B p Ip). lia.
Qed.
Lemma same_refl : forall i, same_query i i.
Proof. intro i. repeat split. Qed.
Lemma withNonce_query : forall i n, same_query i (withNonce i n) /\ i_lifetime (withNonce i n) = i_lifetime i.
Proof. intros i n. split; [repeat split|reflexivity]. Qed.
Lemma inv_step : forall h e w, event_ok e -> inv h w -> inv (h ++ [e]) (step w e).
Proof.
  intros h e w Ok I0. pose proof I0 as [W C]. destruct e as [t i n|t id d|t id n|t id]; cbn [RexModel.step].
  - split; [apply wf_express; exact W|]. intro c. unfold chain_ok, expressInterest. cbn [w_log w_next]. rewrite sent_app, results_app, sent_one. cbn [results flat_map]. rewrite app_nil_r.
    assert (Fp : fp c (World (w_pend w ++ [Pend (w_next w) (w_next w) (withNonce i n) (t + match i_lifetime (withNonce i n) with Some l => if l <? 0 then 4000 else l | None => 4000 end)]) (w_next w + 1) (w_log w ++ [(t, w_next w, AExpress (withNonce i n))])) = fp c w ++ if w_next w =? c then [Pend (w_next w) (w_next w) (withNonce i n) (t + match i_lifetime (withNonce i n) with Some l => if l <? 0 then 4000 else l | None => 4000 end)] else []).
    { unfold fp. cbn [w_pend]. rewrite filter_app. cbn [filter p_chain]. destruct (w_next w =? c); reflexivity. }
    rewrite Fp. destruct (Z.eqb_spec (w_next w) c) as [Ec|Nc].
    + subst c. destruct (C (w_next w)) as [(E1 & E2 & E3)|(L & _)]; [|lia]. right. split; [lia|]. exists t, (withNonce i n), []. rewrite E1, E2, E3. cbn [app]. split; [reflexivity|]. split; [exists i, n; split; [apply in_or_app; right; left; reflexivity|reflexivity]|]. split.
      * intros j t1 i1 X. destruct j as [|j]; [|destruct j; discriminate X]. injection X as <- <-. split; [apply same_refl|]. split; [|congruence]. cbn [event_ok] in Ok. unfold lifetime_ok in Ok. cbn [withNonce i_lifetime]. destruct (i_lifetime i) as [l|]; [|split; reflexivity]. split; [exact Ok|]. split; [f_equal; unfold pow; cbn; lia|]. split; [unfold pow; cbn; lia|congruence].
      * exists [], t, (withNonce i n). split; [reflexivity|]. left. split; [reflexivity|]. eexists. split; [reflexivity|]. split; [reflexivity|]. cbn [p_due]. unfold delay. cbn [withNonce i_lifetime]. cbn [event_ok] in Ok. unfold lifetime_ok in Ok. destruct (i_lifetime i) as [l|]; [replace (l <? 0) with false by lia|]; reflexivity.
    + rewrite !app_nil_r. pose proof (weaken h (EExpress t i n) w c (C c)) as X. unfold chain_ok in X. destruct X as [X|(L & X)]; [left; exact X|right; split; [lia|exact X]].
  - destruct (find id (w_pend w)) as [p|] eqn:F; [|split; [exact W|intro c; apply weaken; exact (C c)]]. apply inv_end; [exact I0|exact F|exact Logic.I|]. intros. reflexivity.
  - destruct (find id (w_pend w)) as [p|] eqn:F; [|split; [exact W|intro c; apply weaken; exact (C c)]]. destruct (Z.leb_spec (p_due p) t) as [Du|Du]; [|split; [exact W|intro c; apply weaken; exact (C c)]].
    unfold RexModel.onTimeout. cbn [w_pend w_next w_log]. destruct (i_lifetime (p_int p)) as [l|] eqn:El.
    + destruct (Z.ltb_spec max (l * 2)) as [Mx|Mx].
      * apply inv_end; [exact I0|exact F|exact Logic.I|]. intros t0 i0 rest es' t1 E (S1 & S2 & _) D. split; [reflexivity|]. destruct (i_lifetime i0) as [l0|]; [|destruct S2 as [_ S2]; congruence]. rewrite El in *. destruct S2 as (P0 & Sl & St & _). injection Sl as ->. unfold delay in D. rewrite El in D. split; lia.
      * destruct (of_pending _ _ _ _ I0 F) as (L & Rs & Q & t0 & i0 & rest & es' & t1 & E & St & S & Es & D). destruct (find_in _ _ _ F) as [_ Ep].
        assert (Sp : sent_ok h t0 i0 (length es') t1 (p_int p)) by (apply S; rewrite Es, nth_error_app2, Nat.sub_diag by lia; reflexivity). destruct Sp as (S1 & S2 & _). destruct (i_lifetime i0) as [l0|] eqn:E0; [|destruct S2 as [_ S2]; congruence]. destruct S2 as (P0 & Sl & Sti & _). rewrite El in Sl. injection Sl as Hl. unfold delay in D. rewrite El in D.
        pose proof (pow_pos (length es')) as Pp. assert (Hn : 0 <= l * 2) by (rewrite Hl; nia). set (w1 := World (drop id (w_pend w)) (w_next w) (w_log w)). assert (W1 : wf w1) by (apply wf_drop; exact W). split; [apply wf_express; exact W1|].
        intro c. unfold chain_ok, expressInterest. cbn [w_log w_next w1]. rewrite sent_app, results_app, sent_one. cbn [results flat_map]. rewrite app_nil_r. set (ni := withNonce (setLifetime (p_int p) (l * 2)) n). assert (Nl : i_lifetime ni = Some (l * 2)) by (unfold ni; cbn [withNonce setLifetime i_lifetime]; replace (l * 2 <? 0) with false by lia; reflexivity).
        assert (Nn : i_nonce ni = Some n) by reflexivity. assert (Nq : same_query (p_int p) ni) by (repeat split). rewrite Nl. replace (l * 2 <? 0) with false by lia.
        assert (Fp : forall lg, fp c (World (drop id (w_pend w) ++ [Pend (w_next w) (p_chain p) ni (t + l * 2)]) (w_next w + 1) lg) = (if p_chain p =? c then drop id (fp c w) else fp c w) ++ if p_chain p =? c then [Pend (w_next w) (p_chain p) ni (t + l * 2)] else []).
        { intro lg. rewrite <- (fp_drop w p id c 0 [] W F). unfold fp. cbn [w_pend]. rewrite filter_app. cbn [filter p_chain]. destruct (p_chain p =? c); reflexivity. }
        rewrite Fp. destruct (Z.eqb_spec (p_chain p) c) as [Ec|Nc].
        -- subst c. right. split; [lia|]. exists t0, i0, (rest ++ [(t, ni)]). rewrite Q, (drop_one id p Ep), Rs. cbn [app]. split; [rewrite E; reflexivity|]. split; [destruct St as (i & m & A & B); exists i, m; split; [apply in_or_app; left; exact A|exact B]|]. split.
           ++ intros j t2 i2 X. destruct (Nat.lt_ge_cases j (length (sent (p_chain p) (w_log w)))) as [J|J].
              ** rewrite nth_error_app1 in X by exact J. destruct (S j t2 i2 X) as (A & B & Cn). split; [exact A|]. split; [rewrite E0 in *; exact B|]. intro Jn. destruct (Cn Jn) as (m & M1 & M2). exists m. split; [|exact M2]. unfold drawn in *. rewrite flat_map_app. apply in_or_app. left. exact M1.
              ** rewrite nth_error_app2 in X by exact J. destruct (j - length (sent (p_chain p) (w_log w)))%nat as [|k] eqn:Ej; [|destruct k; discriminate X]. injection X as <- <-. assert (Hj : j = Datatypes.S (length es')) by (rewrite Es, app_length in *; cbn [length] in *; lia). subst j.
                 split; [unfold same_query in *; intuition congruence|]. split; [rewrite E0; split; [exact P0|]; rewrite pow_S; split; [rewrite Nl; f_equal; lia|]; split; [nia|intros _; lia]|]. intros _. exists n. split; [|exact Nn]. unfold drawn. rewrite flat_map_app. apply in_or_app. right. left. reflexivity.
           ++ exists (es' ++ [(t1, p_int p)]), t, ni. split; [rewrite Es; reflexivity|]. left. split; [reflexivity|]. eexists. split; [reflexivity|]. split; [reflexivity|]. cbn [p_due]. unfold delay. rewrite Nl. reflexivity.
        -- rewrite !app_nil_r. pose proof (weaken h (ETimeout t id n) w c (C c)) as X. unfold chain_ok in X. destruct X as [X|(L' & X)]; [left; exact X|right; split; [lia|exact X]].
    + apply inv_end; [exact I0|exact F|exact Logic.I|]. intros t0 i0 rest es' t1 E (S1 & S2 & _) D. split; [reflexivity|]. rewrite El in *. destruct (i_lifetime i0) as [l0|]; [destruct S2 as (_ & X & _); discriminate X|exact Logic.I].
  - destruct (find id (w_pend w)) as [p|] eqn:F; [|split; [exact W|intro c; apply weaken; exact (C c)]]. apply inv_end; [exact I0|exact F|exact Logic.I|]. intros. exact Logic.I.
Qed.
Lemma run_inv : forall h, Forall event_ok h -> inv h (run h).
Proof.
  intro h. induction h as [|e h IH] using rev_ind; intro F; [split; [split; constructor|intro c; left; repeat split]|]. apply Forall_app in F. destruct F as [F1 F2]. inversion F2; subst. unfold RexModel.run. rewrite fold_left_app. apply inv_step; [assumption|]. apply IH. exact F1.
Qed.

(** ** C93 *)
(** In every history, for each Interest that the application has expressed: what is sent are the same queries, with lifetimes
    that double and stay within the maximum, each with a new nonce and not before the one before it has timed out; and it is
    pending, with no callback called, or it is not pending and has come to exactly one result *)
Theorem C93_re_express : forall h c, Forall event_ok h -> let w := run h in
  sent c (w_log w) = [] /\ results c (w_log w) = [] /\ waiting c w = [] \/
  exists t0 i0 rest, sent c (w_log w) = (t0, i0) :: rest /\ started h t0 i0 /\
    (forall j t i, nth_error (sent c (w_log w)) j = Some (t, i) -> sent_ok h t0 i0 j t i) /\
    exists es t i, sent c (w_log w) = es ++ [(t, i)] /\ (results c (w_log w) = [] /\ waiting c w = [i] \/ waiting c w = [] /\ exists t' a, results c (w_log w) = [(t', a)] /\ result_ok t0 i0 i t' a).
Proof.
  intros h c F w. destruct (run_inv h F) as [_ C]. fold w in C. destruct (C c) as [(A & B & D)|(_ & t0 & i0 & rest & E & St & S & es & t & i & Es & R)]; [left; unfold waiting; fold (fp c w); rewrite D; auto|]. right. exists t0, i0, rest. split; [exact E|]. split; [exact St|]. split; [exact S|]. exists es, t, i. split; [exact Es|]. unfold waiting. fold (fp c w).
  destruct R as [(R & p & P1 & P2 & _)|(R & X)]; [left; split; [exact R|]; rewrite P1; cbn; congruence|right; rewrite R; split; [reflexivity|exact X]].
Qed.
(** It is not sent more than 1 + log2(max / lifetime) times *)
Theorem C93_bounded : forall h c t0 i0 rest l0, Forall event_ok h -> sent c (w_log (run h)) = (t0, i0) :: rest -> i_lifetime i0 = Some l0 -> 0 < l0 ->
  rest = [] \/ l0 * 2 ^ zlen rest <= max /\ zlen rest <= Z.log2 (max / l0).
Proof.
  intros h c t0 i0 rest l0 F E El P0. destruct (C93_re_express h c F) as [(X & _)|(t0' & i0' & rest' & E' & _ & S & _)]; [rewrite X in E; discriminate E|]. cbv zeta in S, E'. rewrite E in E'. injection E' as <- <- <-. destruct rest as [|x rest] using rev_ind; [left; reflexivity|right]. clear IHrest. destruct x as [t i].
  assert (X : nth_error (sent c (w_log (run h))) (Datatypes.S (length rest)) = Some (t, i)) by (rewrite E; cbn [nth_error]; rewrite nth_error_app2, Nat.sub_diag by lia; reflexivity). destruct (S _ _ _ X) as (_ & B & _). rewrite El in B. destruct B as (_ & _ & _ & B). specialize (B (Nat.neq_succ_0 _)).
  assert (Ez : zlen (rest ++ [(t, i)]) = Z.of_nat (Datatypes.S (length rest))) by (unfold zlen; rewrite app_length; cbn [length]; lia). rewrite Ez. unfold pow in B. split; [exact B|]. apply Z.log2_le_pow2; [|apply Z.div_le_lower_bound; lia].
  apply Z.div_str_pos. assert (0 < 2 ^ Z.of_nat (Datatypes.S (length rest))) by (apply Z.pow_pos_nonneg; lia). nia.
Qed.
End Rex.

(** ** Examples *)
Definition rx_int (l : option Z) : interest := Interest [c_generic [97]] None None kl_empty [] None true (Some [9; 9; 9; 9]) l [] None None None.
(** the default maximum, and a lifetime of 4 seconds: sent again with 8 and 16 seconds; onTimeout is called after 28 seconds *)
Definition rx_h : list event := [EExpress 0 (rx_int (Some 4000)) []; ETimeout 4000 0 [1; 1; 1; 1]; ETimeout 12000 1 [2; 2; 2; 2]; ETimeout 28000 2 []].
Example C93_ex : Forall event_ok rx_h /\ map (fun x => (fst x, i_lifetime (snd x), i_nonce (snd x))) (sent 0 (w_log (run (maxOf None) rx_h))) =
    [(0, Some 4000, Some [9; 9; 9; 9]); (4000, Some 8000, Some [1; 1; 1; 1]); (12000, Some 16000, Some [2; 2; 2; 2])] /\
  exists i, results 0 (w_log (run (maxOf None) rx_h)) = [(28000, ATimeout i)] /\ waiting 0 (run (maxOf None) rx_h) = [].
Proof. split; [repeat constructor; cbn; lia|]. split; [reflexivity|]. eexists. split; reflexivity. Qed.
(** an Interest without a lifetime is not expressed again *)
Example C93_ex_none : exists i, results 0 (w_log (run (maxOf None) [EExpress 0 (rx_int None) []; ETimeout 4000 0 []])) = [(4000, ATimeout i)].
Proof. eexists. reflexivity. Qed.

(** A lifetime of 0 is a valid one, but it never ends: all at the same time the Interest is sent any number of times, and no
    callback is called. *)
Fixpoint rounds (n : nat) (id : Z) : list event := match n with O => [] | S n' => ETimeout 0 id [] :: rounds n' (id + 1) end.
Lemma rounds_ok : forall max, 0 <= max -> forall n id i log, i_lifetime i = Some 0 ->
  let w := fold_left (step max) (rounds n id) (World [Pend id 0 i 0] (id + 1) log) in zlen (sent 0 (w_log w)) = zlen (sent 0 log) + Z.of_nat n /\ results 0 (w_log w) = results 0 log.
Proof.
  intros max Hm n. induction n as [|n IH]; intros id i log E; cbn [rounds fold_left]; [cbv zeta; cbn [w_log]; split; [lia|reflexivity]|]. cbn [step w_pend find p_id]. rewrite Z.eqb_refl. cbn [p_due]. change (0 <=? 0) with true. cbv iota. cbn [p_chain p_int]. unfold onTimeout. rewrite E. replace (max <? 0 * 2) with false by lia. unfold expressInterest. cbn [drop w_pend p_id]. rewrite Z.eqb_refl. cbn [app drop w_next w_log withNonce setLifetime i_lifetime]. change (0 * 2 <? 0) with false. cbv iota. cbn [Z.mul]. change (0 <? 0) with false. cbv iota. cbn [Z.add].
  match goal with |- context [World [Pend _ 0 ?j 0] _ ?lg] => destruct (IH (id + 1) j lg eq_refl) as [A B] end. cbv zeta in A, B |- *. rewrite A, B. rewrite sent_app, results_app, sent_one, zlen_app. cbn [Z.eqb results flat_map]. rewrite app_nil_r, zlen_cons, zlen_nil. split; [lia|reflexivity].
Qed.
Lemma rounds_events : forall n id, Forall event_ok (rounds n id) /\ Forall (fun e => match e with EExpress t _ _ | ETimeout t _ _ => t = 0 | _ => False end) (rounds n id).
Proof. intro n. induction n as [|n IH]; intro id; cbn [rounds]; [split; constructor|]. destruct (IH (id + 1)) as [A B]. split; constructor; [exact Logic.I|exact A|reflexivity|exact B]. Qed.
Theorem C93_zero_lifetime_refuted : forall max, 0 <= max -> forall n : nat, exists h, Forall event_ok h /\ zlen (sent 0 (w_log (run max h))) = 1 + Z.of_nat n /\ results 0 (w_log (run max h)) = [] /\
  Forall (fun e => match e with EExpress t _ _ | ETimeout t _ _ => t = 0 | _ => False end) h.
Proof.
  intros max Hm n. exists (EExpress 0 (rx_int (Some 0)) [] :: rounds n 0). split; [constructor; [cbn; lia|]; apply rounds_events|].
  destruct (rounds_ok max Hm n 0 (rx_int (Some 0)) [(0, 0, AExpress (rx_int (Some 0)))] eq_refl) as [A B]. split; [exact A|]. split; [exact B|]. constructor; [reflexivity|]. apply rounds_events.
Qed.
(** The id that expressInterest has given to the application does not remove the Interest once it was expressed again. *)
Theorem C93_remove_refuted : exists h, let w := run (maxOf None) h in waiting 0 w <> [] /\ step (maxOf None) w (ERemove 5000 0) = w.
Proof. exists [EExpress 0 (rx_int (Some 4000)) []; ETimeout 4000 0 [1; 1; 1; 1]]. cbv zeta. split; [discriminate|reflexivity]. Qed.

Print Assumptions C93_re_express.
Print Assumptions C93_bounded.
Print Assumptions C93_zero_lifetime_refuted.
Print Assumptions C93_remove_refuted.
