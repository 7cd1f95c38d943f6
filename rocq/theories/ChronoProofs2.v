(** * Lemmas about ChronoModel: histories, the log, the Interests *)
From Verif Require Import Base BaseLemmas BlobModel DigestModel DigestSpec DigestProps ChronoModel ChronoSpec ChronoProofs.
Local Open Scope res_scope.

Section Node.
Variable sha : bytes -> bytes.
Hypothesis Hs : sha_fn sha.
Variable me : str.
Variable session : Z.
Hypothesis He : encodable me.
Notation run := (run sha).
Notation upd := (upd sha me).
Notation publish := (publish sha me session).
Notation after := (after sha me session).
Notation step := (step sha me session).
Notation G := (G sha).
Notation logs := (logs sha).

Lemma after_snoc l i : after (l ++ [i]) = fst (step (after l) i).
Proof. unfold ChronoModel.after. rewrite fold_left_app. reflexivity. Qed.

(** ** Running *)
Definition on (c : chrono) : Prop := c_enabled c = true /\ Forall (fun cs => ~ In CShutdown cs) (c_script c).
Ltac prim := intros c H; exact H.
Lemma on_emit a : pres on (emit a). Proof. prim. Qed.
Lemma on_set_seq q : pres on (set_seq q). Proof. prim. Qed.
Lemma on_sign : pres on sign. Proof. intros c H. unfold sign. destruct (c_signs c); exact H. Qed.
Lemma on_update_all l : pres on (update_all sha me l).
Proof.
  induction l as [|x l IH]; cbn [update_all]; [apply pres_ret|]. apply pres_bind; [|intro; exact IH]. apply pres_if; [|apply pres_ret]. apply pres_bind; [intros c H; exact H|]. intro b. apply pres_if; [apply on_set_seq|apply pres_ret].
Qed.
Lemma on_upd l : pres on (upd l).
Proof.
  unfold ChronoModel.upd, root. apply pres_bind; [apply on_update_all|intro]. apply pres_get; intro d. apply pres_get; intro g. apply pres_if; [|apply pres_ret]. apply pres_bind; [prim|intro; apply pres_ret].
Qed.
Ltac og1 := lazymatch goal with
  | |- pres _ (bind (get _) _) => apply pres_get; intro
  | |- pres _ (bind (lift _) _) => apply pres_lift; intros ? ?E
  | |- pres _ (bind _ _) => apply pres_bind; [|intro]
  | |- pres _ (if _ then _ else _) => apply pres_if
  | |- pres _ (try_log _) => apply pres_try
  | |- pres _ (ret _) => apply pres_ret
  | |- pres _ (raise _) => apply pres_raise
  | |- pres _ (emit _) => apply on_emit
  | |- pres _ (set_seq _) => apply on_set_seq
  | |- pres _ sign => apply on_sign
  | |- pres _ (ChronoModel.upd _ _ _) => apply on_upd
  end.
Ltac og := repeat og1.
Lemma on_publish info : pres on (publish info).
Proof. unfold ChronoModel.publish, broadcast, root. og. Qed.
Lemma on_calls l : ~ In CShutdown l -> pres on (do_calls sha me session l).
Proof. induction l as [|[info|] l IH]; cbn [do_calls]; intro N; [apply pres_ret| |exfalso; apply N; now left]. og; [apply on_publish|apply IH; intro; apply N; now right]. Qed.
Lemma on_callback a : pres on (callback sha me session a).
Proof.
  unfold callback. apply pres_bind; [apply on_emit|intro]. intros c H. unfold bind, next_calls. destruct (c_script c) as [|l r] eqn:E.
  - exact (pres_try on _ (on_calls [] (fun f => f)) c H).
  - destruct H as [H1 H2]. rewrite E in H2. inversion H2 as [|? ? N F]; subst. apply (pres_try on _ (on_calls l N)). split; [exact H1|exact F].
Qed.
Lemma on_old l : pres on (old_comer sha me session l).
Proof. induction l as [|x l IH]; cbn [old_comer]; [apply pres_ret|]. og; [apply on_callback|exact IH]. Qed.
Lemma on_initial_data l : pres on (initial_data sha me session l).
Proof. unfold initial_data, root, broadcast. og; [apply on_old|apply on_callback]. Qed.
Lemma on_data_on n l : pres on (on_data sha me session n l).
Proof. unfold on_data, root. og. destruct l as [l|]; og; [apply on_initial_data|apply on_callback]. Qed.
Lemma on_recovery n d : pres on (recovery_interest n d).
Proof. unfold recovery_interest. og. match goal with |- pres _ (match ?l with _ => _ end) => destruct l end; og. Qed.
Lemma on_sync n d : pres on (sync_interest n d).
Proof. unfold sync_interest. og. match goal with |- pres _ (match ?l with _ => _ end) => destruct l end; og. Qed.
Lemma on_interest_on n : pres on (on_interest n).
Proof. unfold on_interest, root. og; [apply on_recovery|apply on_sync]. Qed.
Lemma on_judge d : pres on (judge d).
Proof. unfold judge, root, send_recovery. og. apply on_sync. Qed.
Lemma on_initial : pres on (initial_timeout sha me session).
Proof. unfold initial_timeout, root. og. apply on_callback. Qed.
Lemma on_timeout n : pres on (sync_timeout n).
Proof. unfold sync_timeout, root. og. Qed.
Lemma step_on c i : c_enabled c = true -> keeps_on i -> c_enabled (fst (step c i)) = true.
Proof.
  intros En [K1 K2]. assert (B : on (begin i c)) by (split; assumption). unfold ChronoModel.step. destruct (i_event i) as [info| |n|n k l|n [|]|d]; cbn [act_of].
  - apply (on_publish info _ B).
  - congruence.
  - apply (on_interest_on n _ B).
  - apply (on_data_on n l _ B).
  - apply (on_initial _ B).
  - apply (on_timeout n _ B).
  - apply (on_judge d _ B).
Qed.
Lemma after_on l : running l -> c_enabled (after l) = true.
Proof.
  induction l as [|i l IH] using rev_ind; intro R; [reflexivity|]. apply Forall_app in R. destruct R as [R1 R2]. inversion R2; subst. rewrite after_snoc. apply step_on; auto.
Qed.

(** ** Histories *)
Lemma own_claims o p s : Forall (own_content me session) o -> (p, s) <> (me, session) -> top (claimed o) p s = -1.
Proof.
  intros F N. induction F as [|l o (q & info & -> & _) F IH]; [reflexivity|]. cbn [claimed flat_map]. rewrite top_app. fold (claimed o). rewrite IH. unfold claims. cbn [filter ss_type map triple top fst snd app UPDATE Z.eqb ss_name ss_session ss_seq].
  destruct (prod_dec (me, session) (p, s)); [congruence|reflexivity].
Qed.
Lemma after_core l : Forall input_ok l -> exists cs, G cs (after l) /\
  (running l -> forall p s, (p, s) <> (me, session) -> top (claimed cs) p s = top (heard l) p s).
Proof.
  induction l as [|i l IH] using rev_ind; intro F.
  - exists []. split; [apply G_start|reflexivity].
  - apply Forall_app in F. destruct F as [F Fi]. inversion Fi as [|? ? Hi _]; subst. destruct (IH F) as (cs & HG & T). rewrite after_snoc.
    destruct (step_core sha Hs me session He (after l) cs i HG Hi) as (o & HG' & Ow). exists (cs ++ learns (after l) i ++ o). split; [exact HG'|]. intros R p s N.
    apply Forall_app in R. destruct R as [R Ri]. unfold heard. rewrite flat_map_app, !claimed_app, !top_app. cbn [flat_map]. rewrite app_nil_r. fold (heard l). rewrite (T R p s N), (own_claims o p s Ow N).
    replace (top (claimed (learns (after l) i)) p s) with (top (heard_in i) p s); [pose proof (top_ge (heard_in i) p s); lia|].
    unfold learns, heard_in. destruct (i_event i) as [info| |n|n k [c|]|n k|d]; try reflexivity. rewrite (after_on l R). unfold claimed. cbn [flat_map]. now rewrite app_nil_r.
Qed.
(** later states *)
Lemma after_more l l' cs : Forall input_ok l' -> G cs (after l) -> exists cs', G (cs ++ cs') (after (l ++ l')).
Proof.
  intros F HG. induction l' as [|i l' IH] using rev_ind; [exists []; rewrite !app_nil_r; exact HG|]. apply Forall_app in F. destruct F as [F Fi]. inversion Fi as [|? ? Hi _]; subst. destruct (IH F) as (cs' & HG').
  rewrite app_assoc, after_snoc. destruct (step_core sha Hs me session He _ _ i HG' Hi) as (o & HG2 & _). eexists. rewrite <- app_assoc in HG2. exact HG2.
Qed.

(** ** The log *)
Lemma logs_ok cs : NoDup (map fst (logs cs)) /\ In (t_root (run (claimed cs))) (map fst (logs cs)).
Proof.
  induction cs as [|l cs IH] using rev_ind; [split; [constructor; [intros []|constructor]|left; reflexivity]|]. destruct IH as [N I]. rewrite logs_snoc, claimed_snoc. cbv zeta. set (d := t_root (run (claimed cs ++ claims l))).
  destruct (log_find (logs cs) d =? -1) eqn:E.
  - apply log_find_none in E. rewrite map_app. cbn [map fst]. split; [|apply in_or_app; right; now left]. clear - N E. induction (map fst (logs cs)) as [|x g IH]; cbn [app]; [constructor; [intros []|constructor]|].
    inversion N; subst. constructor; [rewrite in_app_iff; cbn [In]; intros [H|[H|[]]]; [contradiction|apply E; now left]|]. apply IH; [assumption|]. intro; apply E; now right.
  - split; [exact N|]. destruct (in_dec (list_eq_dec Z.eq_dec) d (map fst (logs cs))) as [J|J]; [exact J|]. apply log_find_none in J. congruence.
Qed.
(** An entry of the log was the root; without collisions, what came after it is what is logged after it. *)
Lemma logs_split cs : forall a d l b, logs cs = a ++ (d, l) :: b -> exists cs1 cs2, cs = cs1 ++ cs2 /\ t_root (run (claimed cs1)) = d /\ (forall m, In m (map snd b) -> In m cs2).
Proof.
  induction cs as [|l0 cs IH] using rev_ind; intros a d l b E.
  - cbn in E. destruct a as [|? [|]]; try discriminate E. injection E as <- <- <-. exists [], []. split; [reflexivity|]. split; [reflexivity|intros m []].
  - rewrite logs_snoc in E. cbv zeta in E. set (d0 := t_root (run (claimed cs ++ claims l0))) in *. destruct (log_find (logs cs) d0 =? -1).
    + destruct (rev_ind (fun b => b = [] \/ exists b' x, b = b' ++ [x]) (or_introl eq_refl) (fun x b' _ => or_intror (ex_intro _ b' (ex_intro _ x eq_refl))) b) as [-> |(b' & x & ->)].
      * apply app_inj_tail in E. destruct E as [_ E]. injection E as <- <-. exists (cs ++ [l0]), []. rewrite app_nil_r, claimed_snoc. split; [reflexivity|]. split; [reflexivity|intros m []].
      * rewrite app_comm_cons, app_assoc in E. apply app_inj_tail in E. destruct E as [E <-]. destruct (IH _ _ _ _ E) as (cs1 & cs2 & -> & R & I). exists cs1, (cs2 ++ [l0]). rewrite app_assoc. split; [reflexivity|]. split; [exact R|].
        intros m Hm. rewrite map_app, in_app_iff in Hm. apply in_or_app. destruct Hm as [Hm|Hm]; [left; auto|right; exact Hm].
    + destruct (IH _ _ _ _ E) as (cs1 & cs2 & -> & R & I). exists cs1, (cs2 ++ [l0]). rewrite app_assoc. split; [reflexivity|]. split; [exact R|]. intros m Hm. apply in_or_app. left. auto.
Qed.
Definition no_collision (cs : list content) : Prop := forall us us', Forall (fun u => claim_ok u /\ snd u <= top (claimed cs) (fst (fst u)) (snd (fst u))) us -> Forall (fun u => claim_ok u /\ snd u <= top (claimed cs) (fst (fst u)) (snd (fst u))) us' -> t_root (run us) = t_root (run us') -> run us = run us'.
Lemma no_collision_prefix cs cs' : no_collision (cs ++ cs') -> no_collision cs.
Proof.
  intros N us us' F F'. apply N; [eapply Forall_impl; [|exact F]|eapply Forall_impl; [|exact F']]; cbv beta; intros u [A B]; (split; [exact A|]); rewrite claimed_app, top_app; lia.
Qed.
Lemma claimed_bounded cs cs' : Forall claim_ok (claimed cs) -> Forall (fun u => claim_ok u /\ snd u <= top (claimed (cs ++ cs')) (fst (fst u)) (snd (fst u))) (claimed cs).
Proof.
  intro F. apply Forall_forall. intros [[p s] q] H. rewrite Forall_forall in F. split; [auto|]. cbn [fst snd]. rewrite claimed_app, top_app. apply top_in in H. lia.
Qed.
(** Everything after a time when the root was [d] is below what is logged after [d]. *)
Lemma logs_after cs1 cs2 a l b : Forall (Forall state_ok) (cs1 ++ cs2) -> no_collision (cs1 ++ cs2) -> logs (cs1 ++ cs2) = a ++ (t_root (run (claimed cs1)), l) :: b ->
  forall p s, top (claimed (cs1 ++ cs2)) p s = Z.max (top (claimed cs1) p s) (top (claimed (map snd b)) p s).
Proof.
  revert a l b. induction cs2 as [|l0 cs2 IH] using rev_ind; intros a l b F N E p s.
  - rewrite app_nil_r in *. destruct (logs_split cs1 _ _ _ _ E) as (c1 & c2 & Ec & R & I).
    assert (T : top (claimed (map snd b)) p s <= top (claimed cs1) p s); [|lia].
    destruct (top_wit (claimed (map snd b)) p s) as [W|W]; [pose proof (top_ge (claimed cs1) p s); lia|]. unfold claimed in W at 2. apply in_flat_map in W. destruct W as (m & Hm & W). apply top_in.
    unfold claimed. apply in_flat_map. exists m. split; [|exact W]. rewrite Ec. apply in_or_app. right. auto.
  - rewrite app_assoc in *. rewrite logs_snoc in E. cbv zeta in E. set (d0 := t_root (run (claimed (cs1 ++ cs2) ++ claims l0))) in *. pose proof (no_collision_prefix _ _ N) as N1.
    pose proof (proj1 (proj1 (Forall_app _ _ _) F)) as F1. destruct (log_find (logs (cs1 ++ cs2)) d0 =? -1) eqn:Ed.
    + destruct (rev_ind (fun b => b = [] \/ exists b' x, b = b' ++ [x]) (or_introl eq_refl) (fun x b' _ => or_intror (ex_intro _ b' (ex_intro _ x eq_refl))) b) as [-> |(b' & x & ->)].
      * exfalso. apply app_inj_tail in E. destruct E as [_ E]. injection E as E _. apply log_find_none in Ed. apply Ed. rewrite E.
        clear - Hs. induction cs2 as [|x cs2 IH] using rev_ind; [rewrite app_nil_r; apply logs_ok|]. rewrite app_assoc, logs_snoc. cbv zeta. destruct (log_find _ _ =? -1); [rewrite map_app; apply in_or_app; left|]; exact IH.
      * rewrite app_comm_cons, app_assoc in E. apply app_inj_tail in E. destruct E as [E <-]. rewrite claimed_snoc, top_app, (IH _ _ _ F1 N1 E p s), map_app. cbn [map snd]. rewrite claimed_app, top_app. replace (claimed [l0]) with (claims l0) by (unfold claimed; cbn [flat_map]; now rewrite app_nil_r). lia.
    + rewrite claimed_snoc, top_app. pose proof (IH _ _ _ F1 N1 E p s) as T. rewrite <- T.
      assert (J : In d0 (map fst (logs (cs1 ++ cs2)))) by (destruct (in_dec (list_eq_dec Z.eq_dec) d0 (map fst (logs (cs1 ++ cs2)))) as [J|J]; [exact J|apply log_find_none in J; congruence]).
      apply in_map_iff in J. destruct J as ([d1 l1] & Ed1 & J). cbn [fst] in Ed1. subst d1. apply in_split in J. destruct J as (g1 & g2 & Eg). destruct (logs_split _ _ _ _ _ Eg) as (k1 & k2 & Ek & R & _).
      assert (Q : run (claimed k1) = run (claimed (cs1 ++ cs2) ++ claims l0)).
      { apply N; [| |exact R]; [|rewrite <- claimed_snoc].
        - replace ((cs1 ++ cs2) ++ [l0]) with (k1 ++ k2 ++ [l0]) by (rewrite app_assoc, <- Ek; reflexivity). apply claimed_bounded, claimed_ok. rewrite Ek, Forall_app in F1. apply F1.
        - pose proof (claimed_bounded _ [] (claimed_ok _ F)) as B. rewrite app_nil_r in B. exact B. }
      assert (Q2 : top (claimed k1) p s = top (claimed (cs1 ++ cs2) ++ claims l0) p s).
      { rewrite <- !(known_run sha), Q; [reflexivity| |]; [rewrite <- claimed_snoc; apply claimed_ok, F|]. apply claimed_ok. rewrite Ek, Forall_app in F1. apply F1. }
      rewrite top_app in Q2. rewrite Ek, claimed_app, top_app in *. pose proof (top_ge (claimed k2) p s). lia.
Qed.
End Node.
