(** * Lemmas about ChronoModel: the numbers of this object, the Interests *)
From Verif Require Import Base BaseLemmas BlobModel DigestModel DigestSpec DigestProps ChronoModel ChronoSpec ChronoProofs ChronoProofs2 ChronoProofs3.
Local Open Scope res_scope.

Section Node.
Variable sha : bytes -> bytes.
Hypothesis Hh : hash_fn sha.
Let Hs : sha_fn sha := proj1 Hh.
Variable me : str.
Variable session : Z.
Hypothesis He : encodable me.
Notation run := (run sha).
Notation upd := (upd sha me).
Notation publish := (publish sha me session).
Notation after := (after sha me session).
Notation step := (step sha me session).
Notation G := (G sha).
Notation logs := (logs sha).

(** ** Roots *)
Lemma toHex_len b : zlen (blob_toHex (Some b)) = 2 * zlen b.
Proof. unfold blob_toHex. induction b as [|x b IH]; [reflexivity|]. cbn [flat_map app]. rewrite !zlen_cons, IH. lia. Qed.
Lemma hexdigit_r d : 0 <= d < 16 -> hexdigit d <> 114.
Proof. intro H. unfold hexdigit. destruct (d <? 10); lia. Qed.
Lemma toHex_r b : bytes_ok b -> ~ In 114 (blob_toHex (Some b)).
Proof.
  unfold blob_toHex. induction 1 as [|x b Hx F IH]; [intros []|]. cbn [flat_map]. rewrite in_app_iff. intros [H|H]; [|contradiction]. unfold is_byte in Hx. cbn [In] in H.
  destruct H as [H|[H|[]]]; [apply (hexdigit_r (x / 16))|apply (hexdigit_r (x mod 16))]; try (exact H).
  - split; [apply Z.div_pos; lia|apply Z.div_lt_upper_bound; lia].
  - apply Z.mod_pos_bound. lia.
Qed.
Lemma root_00 us : Forall claim_ok us -> t_root (run us) = s00 <-> t_nodes (run us) = [].
Proof.
  intro F. split; intro H.
  - destruct (t_nodes (run us)) as [|n r] eqn:E; [reflexivity|]. exfalso. destruct (C34_root sha us Hs) as (bs & R & _); [rewrite E; discriminate|]. rewrite H in R. apply (f_equal zlen) in R. rewrite toHex_len in R. pose proof (proj2 Hh (concat bs)) as L. change (zlen s00) with 2 in R. lia.
  - apply C34_root_empty; assumption.
Qed.
Lemma root_recovery us : t_root (run us) <> s_recovery.
Proof.
  destruct (t_nodes (run us)) as [|n r] eqn:E.
  - rewrite (C34_root_empty sha us Hs E). discriminate.
  - destruct (C34_root sha us Hs) as (bs & R & _); [rewrite E; discriminate|]. rewrite R. intro X. apply (toHex_r (sha (concat bs)) (Hs _)). rewrite X. now left.
Qed.

(** ** The numbers of this object *)
Definition private (cs : list content) : Prop := forall s q, In (me, s, q) (claimed cs) -> s = session.
Definition said_ok (t : tree) (o : list act) : Prop := forall l x, In l (flat_map sent o) -> In x l -> ss_type x = 0 /\ state_ok x /\ ss_seq x <= known t (ss_name x) (ss_session x).
Record own (m : Z) (c : chrono) : Prop := Own {
  o_cs : list content; o_G : G o_cs c; o_priv : private o_cs;
  o_seq : known (c_tree c) me session <= c_seq c; o_ge : m <= c_seq c; o_min : -1 <= c_seq c; o_said : said_ok (c_tree c) (c_outs c) }.
Lemma said_ok_app t o o' : said_ok t o -> said_ok t o' -> said_ok t (o ++ o').
Proof. intros H H' l x J K. rewrite flat_map_app in J. apply in_app_or in J. destruct J as [J|J]; [eapply H|eapply H']; eassumption. Qed.
Lemma said_ok_grow us vs o : Forall claim_ok us -> Forall claim_ok vs -> said_ok (run us) o -> said_ok (run (us ++ vs)) o.
Proof.
  intros F F' H l x J K. destruct (H l x J K) as (A & B & C). split; [exact A|]. split; [exact B|]. rewrite known_run in * by (try apply Forall_app; auto). rewrite top_app. lia.
Qed.
Lemma own_quiet m a c : (forall l, In l (sent a) -> False) -> own m c -> own m (fst (emit a c)).
Proof. intros N [cs [A B D] P S1 S2 S3 S4]. exists cs; cbn [fst emit c_tree c_seq c_outs]; try assumption; [constructor; assumption|]. apply said_ok_app; [exact S4|]. intros l x H. cbn [flat_map] in H. rewrite app_nil_r in H. destruct (N l H). Qed.
Lemma own_new_seq cs x c : G cs c -> own_content me session [x] -> known (c_tree c) me session < ss_seq x ->
  seq_after me (claimed cs) [x] (c_seq c) = ss_seq x /\ known (run (claimed (cs ++ [[x]]))) me session = ss_seq x.
Proof.
  intros HG (q & info & E & Kx) L. injection E as ->. destruct HG as [F T _]. rewrite T, known_run in L by (apply claimed_ok, F). cbn [ss_seq] in *. cbn [seq_after is_update ss_type ss_name ss_session ss_seq]. change (UPDATE =? UPDATE) with true. cbv iota.
  replace (top (claimed cs) me session <? q) with true by lia. rewrite (proj2 (zlist_eqb_eq me me) eq_refl). split; [reflexivity|].
  rewrite known_run by (apply claimed_ok, Forall_app; split; [exact F|constructor; [constructor; [exact Kx|constructor]|constructor]]). rewrite claimed_snoc, top_app. unfold claims. cbn [filter ss_type map triple ss_name ss_session ss_seq top fst snd].
  change (UPDATE =? 0) with true. cbn [map triple ss_name ss_session ss_seq top fst snd]. destruct (prod_dec (me, session) (me, session)) as [_|N]; [|congruence]. pose proof (top_ge (claimed cs) me session). lia.
Qed.
Lemma private_own cs o : private cs -> Forall (own_content me session) o -> private (cs ++ o).
Proof.
  intros P F s q H. rewrite claimed_app in H. apply in_app_or in H. destruct H as [H|H]; [eapply P, H|]. unfold claimed in H. apply in_flat_map in H. destruct H as (l & Hl & H). rewrite Forall_forall in F. destruct (F l Hl) as (q0 & info & -> & _).
  unfold claims in H. cbn [filter ss_type] in H. change (UPDATE =? 0) with true in H. cbn [map triple ss_name ss_session ss_seq] in H. destruct H as [H|[]]. unfold triple in H. cbn [ss_name ss_session ss_seq] in H. congruence.
Qed.
(** A message of this object with a new number: first sent as Add, or not *)
Lemma own_upd m c x a : own_content me session [x] -> (forall l y, In l (sent a) -> In y l -> ss_type y = 0 /\ state_ok y /\ ss_name y = me /\ ss_session y = session /\ ss_seq y <= ss_seq x) ->
  (exists cs, G cs c /\ private cs /\ known (c_tree c) me session < ss_seq x /\ m <= ss_seq x /\ exists o, c_outs c = o ++ [a] /\ said_ok (c_tree c) o) ->
  own m (fst (upd [x] c)) /\ c_seq (fst (upd [x] c)) = ss_seq x /\ known (c_tree (fst (upd [x] c))) me session = ss_seq x.
Proof.
  intros Ox Ha (cs & HG & P & L & Lm & o & Eo & So). destruct (own_new_seq cs x c HG Ox L) as [N1 N2]. destruct (upd_spec sha Hs me cs [x] c HG (own_ok _ _ _ Ox)) as [Eu HG']. cbv zeta in Eu. rewrite Eu in *. cbn [fst c_seq c_tree] in *. rewrite N1 in *.
  assert (Q : 0 <= ss_seq x) by (destruct Ox as (q & info & E & K); injection E as ->; destruct K as (_ & K & _); cbn [ss_seq] in *; lia).
  split; [|auto]. exists (cs ++ [[x]]); cbn [c_tree c_seq c_outs]; [exact HG'|apply private_own; [exact P|constructor; [exact Ox|constructor]]|lia|lia|lia|].
  rewrite Eo. pose proof (g_tree _ _ _ HG) as T. pose proof (claimed_ok _ (g_ok _ _ _ HG)) as F. pose proof (g_ok _ _ _ HG') as F'. apply said_ok_app.
  - rewrite claimed_snoc. apply said_ok_grow; [exact F| |rewrite <- T; exact So]. apply claims_ok, (own_ok _ _ _ Ox).
  - intros l y J K. cbn [flat_map] in J. rewrite app_nil_r in J. destruct (Ha l y J K) as (A & B & D & E & H). split; [exact A|]. split; [exact B|]. rewrite D, E. lia.
Qed.
Lemma said_core m c c' : own m c -> c_log c' = c_log c -> c_tree c' = c_tree c -> c_outs c' = c_outs c -> c_seq c <= c_seq c' -> own m c'.
Proof. intros [cs [A B D] P S1 S2 S3 S4] E1 E2 E3 L. exists cs; [constructor; congruence|exact P|rewrite E2; lia|lia|lia|rewrite E2, E3; exact S4]. Qed.
Lemma sign_cases c : exists sg, sign c = (Chrono (c_log c) (c_tree c) (c_seq c) (c_enabled c) (c_outs c) (c_script c) sg, Ok tt) \/ sign c = (Chrono (c_log c) (c_tree c) (c_seq c) (c_enabled c) (c_outs c) (c_script c) sg, Err SecurityException).
Proof. unfold sign. destruct (c_signs c) as [|[|] r] eqn:E; [exists []; left; destruct c; cbn in *; congruence|exists r; now left|exists r; now right]. Qed.
(** publishNextSequenceNo *)
Definition with_seq (q : Z) (c : chrono) : chrono := Chrono (c_log c) (c_tree c) q (c_enabled c) (c_outs c) (c_script c) (c_signs c).
Definition with_out (a : act) (c : chrono) : chrono := Chrono (c_log c) (c_tree c) (c_seq c) (c_enabled c) (c_outs c ++ [a]) (c_script c) (c_signs c).
Definition with_signs (sg : list bool) (c : chrono) : chrono := Chrono (c_log c) (c_tree c) (c_seq c) (c_enabled c) (c_outs c) (c_script c) sg.
Lemma publish_eq info c : publish info c =
  let c1 := with_seq (c_seq c + 1) c in
  match mk_state me (c_seq c + 1) session info with
  | Err x => (c1, Err x)
  | Ok x =>
      match sign c1 with
      | (c2, Err y) => (c2, Err y)
      | (c2, Ok _) =>
          match upd [x] (with_out (Add (t_root (c_tree c)) [x]) c2) with
          | (c3, Ok true) => (with_out (Express [t_root (c_tree c3)] Sync) c3, Ok tt)
          | (c3, Ok false) => (c3, Err RuntimeError)
          | (c3, Err y) => (c3, Err y)
          end
      end
  end.
Proof.
  unfold ChronoModel.publish, bind, set_seq, lift, root, broadcast, bind, get. cbv beta zeta iota. change (Chrono (c_log c) (c_tree c) (c_seq c + 1) (c_enabled c) (c_outs c) (c_script c) (c_signs c)) with (with_seq (c_seq c + 1) c).
  destruct (mk_state me (c_seq c + 1) session info) as [x|x]; [|reflexivity]. destruct (sign (with_seq (c_seq c + 1) c)) as [c2 [u|y]]; [|reflexivity]. unfold emit at 1.
  change (Chrono (c_log c2) (c_tree c2) (c_seq c2) (c_enabled c2) (c_outs c2 ++ [Add (t_root (c_tree (with_seq (c_seq c + 1) c))) [x]]) (c_script c2) (c_signs c2)) with (with_out (Add (t_root (c_tree c)) [x]) c2).
  destruct (upd [x] (with_out (Add (t_root (c_tree c)) [x]) c2)) as [c3 [[|]|y]]; reflexivity.
Qed.
Lemma sign_eq c : exists sg, sign c = (with_signs sg c, Ok tt) \/ sign c = (with_signs sg c, Err SecurityException) /\ exists b, In b (c_signs c) /\ b = false.
Proof. unfold sign, with_signs. destruct (c_signs c) as [|[|] r] eqn:E; [exists []; left; destruct c; cbn in *; congruence|exists r; now left|exists r; right; split; [reflexivity|exists false; split; [now left|reflexivity]]]. Qed.
Lemma mk_state_eq q info x : mk_state me q session info = Ok x -> x = SState me UPDATE session q info.
Proof. unfold mk_state. destruct (u64 q && u64 session); [|discriminate]. intro E. injection E as <-. reflexivity. Qed.
Lemma publish_own m c info : own m c ->
  own m (fst (publish info c)) /\ c_seq (fst (publish info c)) = c_seq c + 1 /\
  (c_outs (fst (publish info c)) = c_outs c /\ c_tree (fst (publish info c)) = c_tree c /\ snd (publish info c) <> Ok tt /\ ((exists b, In b (c_signs c) /\ b = false) \/ u64 (c_seq c + 1) && u64 session = false) \/
   known (c_tree (fst (publish info c))) me session = c_seq c + 1 /\ exists o, c_outs (fst (publish info c)) = c_outs c ++ Add (t_root (c_tree c)) [SState me UPDATE session (c_seq c + 1) info] :: o /\
     (snd (publish info c) = Ok tt /\ o = [Express [t_root (c_tree (fst (publish info c)))] Sync] \/ snd (publish info c) = Err RuntimeError /\ o = [] /\ In (t_root (c_tree (fst (publish info c)))) (map fst (c_log c)))).
Proof.
  intro H. rewrite publish_eq. cbv zeta. assert (H1 : own m (with_seq (c_seq c + 1) c)) by (eapply said_core; [exact H| | | |]; try reflexivity; cbn; lia).
  destruct (mk_state me (c_seq c + 1) session info) as [x|x] eqn:Ex.
  2:{ split; [exact H1|]. split; [reflexivity|]. left. split; [reflexivity|]. split; [reflexivity|]. split; [discriminate|right]. unfold mk_state in Ex. destruct (u64 (c_seq c + 1) && u64 session); [discriminate Ex|reflexivity]. }
  pose proof (mk_state_own me session He _ _ _ Ex) as Ox. apply mk_state_eq in Ex.
  destruct (sign_eq (with_seq (c_seq c + 1) c)) as [sg [Es|[Es B]]]; rewrite Es.
  2:{ split; [eapply said_core; [exact H1| | | |]; try reflexivity; cbn; lia|]. split; [reflexivity|]. left. split; [reflexivity|]. split; [reflexivity|]. split; [discriminate|left; exact B]. }
  set (c2 := with_signs sg (with_seq (c_seq c + 1) c)). set (a := Add (t_root (c_tree c)) [x]). destruct H as [cs HG P S1 S2 S3 S4].
  destruct (own_upd m (with_out a c2) x a Ox) as (U1 & U2 & U3).
  - intros l y [<-|[]] [<-|[]]. subst x. destruct Ox as (q' & i' & Eq & K). injection Eq as <- <-. cbn [ss_type ss_name ss_session ss_seq]. repeat split; try (apply K); lia.
  - exists cs. split; [destruct HG; constructor; assumption|]. split; [exact P|]. subst x. cbn [ss_seq c2 with_out with_signs with_seq c_tree c_outs]. split; [lia|]. split; [lia|]. exists (c_outs c). split; [reflexivity|exact S4].
  - assert (HG2 : G cs (with_out a c2)) by (destruct HG; constructor; assumption). destruct (upd_spec sha Hs me cs [x] _ HG2 (own_ok _ _ _ Ox)) as [Eu HG']. cbv zeta in Eu. rewrite Eu in *. cbn [fst c_seq c_tree] in *.
    assert (Sx : ss_seq x = c_seq c + 1) by (subst x; reflexivity).
    destruct (log_find (logs cs) (t_root (run (claimed (cs ++ [[x]])))) =? -1) eqn:El.
    + cbn [fst snd with_out c_seq c_tree c_outs]. split; [|split; [rewrite <- Sx; exact U2|right; split; [rewrite <- Sx; exact U3|]]].
      * apply (own_quiet m (Express [t_root (run (claimed (cs ++ [[x]])))] Sync)) in U1; [exact U1|intros l []].
      * exists [Express [t_root (run (claimed (cs ++ [[x]])))] Sync]. cbn [c_tree]. split; [unfold a, c2; cbn [with_out with_signs with_seq c_outs]; rewrite <- app_assoc, Ex; reflexivity|left; split; reflexivity].
    + cbn [fst snd c_seq c_tree c_outs]. split; [exact U1|]. split; [rewrite <- Sx; exact U2|right]. split; [rewrite <- Sx; exact U3|]. exists []. split; [unfold a, c2; cbn [with_out with_signs with_seq c_outs]; rewrite Ex; reflexivity|right]. split; [reflexivity|]. split; [reflexivity|].
      destruct (in_dec (list_eq_dec Z.eq_dec) (t_root (run (claimed (cs ++ [[x]])))) (map fst (c_log c))) as [J|J]; [exact J|]. rewrite (g_log _ _ _ HG) in J. apply log_find_none in J. congruence.
Qed.
(** In step: if no signing fails, the number is the one in the tree. *)
Definition in_step (b : bool) (c : chrono) : Prop := b = true -> u64 session = true /\ Forall (eq true) (c_signs c) /\ (c_seq c < 2 ^ 64 -> c_seq c = known (c_tree c) me session).
Definition own2 (b : bool) (m : Z) (c : chrono) : Prop := own m c /\ in_step b c.
Lemma publish_signs info c : exists r, c_signs (fst (publish info c)) = r /\ (Forall (eq true) (c_signs c) -> Forall (eq true) r).
Proof.
  eexists. split; [reflexivity|]. intro F. assert (K : pres (fun c => Forall (eq true) (c_signs c)) (publish info)); [|apply K, F]. clear.
  assert (U : forall x, pres (fun c => Forall (eq true) (c_signs c)) (upd x)).
  { intro l. unfold ChronoModel.upd, root. apply pres_bind; [|intro; apply pres_get; intro; apply pres_get; intro; apply pres_if; [apply pres_bind; [intros c H; exact H|intro; apply pres_ret]|apply pres_ret]].
    induction l as [|x l IH]; cbn [update_all]; [apply pres_ret|]. apply pres_bind; [|intro; exact IH]. apply pres_if; [|apply pres_ret]. apply pres_bind; [intros c H; exact H|intro; apply pres_if; [intros c H; exact H|apply pres_ret]]. }
  unfold ChronoModel.publish, broadcast, root. apply pres_get; intro. apply pres_bind; [intros c H; exact H|intro]. apply pres_lift; intros x Ex. apply pres_get; intro. apply pres_bind; [|intro].
  - apply pres_bind; [|intro; intros c H; exact H]. intros c H. unfold sign. destruct (c_signs c) as [|b r] eqn:E; cbn [fst c_signs]; [rewrite E; constructor|]. inversion H; assumption.
  - apply pres_bind; [apply U|intro]. apply pres_if; [apply pres_get; intro; intros c H; exact H|apply pres_raise].
Qed.
Lemma own2_publish b m info : pres (own2 b m) (publish info).
Proof.
  intros c [H E]. destruct (publish_own m c info H) as (A & B & D). split; [exact A|]. intro Eb. destruct (E Eb) as (Us & Sg & Q). destruct (publish_signs info c) as (r & Er & Fr). split; [exact Us|]. split; [rewrite Er; auto|]. rewrite B. intro L.
  destruct D as [(_ & _ & _ & D)|(D & _)]; [|lia]. exfalso. destruct D as [(x & Hx & ->)|D].
  - rewrite Forall_forall in Sg. specialize (Sg _ Hx). discriminate Sg.
  - rewrite Us, andb_true_r in D. pose proof (o_min _ _ H). unfold u64 in D. lia.
Qed.
Lemma own2_core b m c c' : own2 b m c -> c_log c' = c_log c -> c_tree c' = c_tree c -> c_outs c' = c_outs c -> c_seq c = c_seq c' -> (Forall (eq true) (c_signs c) -> Forall (eq true) (c_signs c')) -> own2 b m c'.
Proof. intros [H E] E1 E2 E3 E4 E5. split; [eapply said_core; try eassumption; lia|]. intro Eb. destruct (E Eb) as (A & B & D). split; [exact A|]. split; [auto|]. rewrite <- E4, E2. exact D. Qed.
Lemma own2_quiet b m a : sent a = [] -> pres (own2 b m) (emit a).
Proof. intros N c [H E]. split; [apply own_quiet; [rewrite N; intros l []|exact H]|exact E]. Qed.
Lemma own2_sign b m : pres (own2 b m) sign.
Proof. intros c H. unfold sign. destruct (c_signs c) as [|x r] eqn:Es; [exact H|]. eapply own2_core; [exact H| | | | |]; try reflexivity. cbn [fst c_signs]. rewrite Es. intro F. inversion F; assumption. Qed.
Lemma own2_calls b m l : pres (own2 b m) (do_calls sha me session l).
Proof.
  induction l as [|[info|] l IH]; cbn [do_calls]; [apply pres_ret| |]; (apply pres_bind; [|intro; exact IH]); [apply pres_try, own2_publish|]. unfold shutdown. apply pres_bind; [|intro; apply own2_quiet; reflexivity]. intros c H. eapply own2_core; [exact H| | | | |]; try reflexivity. auto.
Qed.
Lemma own2_callback b m a : sent a = [] -> pres (own2 b m) (callback sha me session a).
Proof.
  intro N. unfold callback. apply pres_bind; [apply own2_quiet, N|intro]. apply pres_bind; [|intro; apply pres_try, own2_calls]. intros c H. unfold next_calls. destruct (c_script c); [exact H|]. eapply own2_core; [exact H| | | | |]; try reflexivity. auto.
Qed.
Lemma own2_put b m n l f c : own2 b m c -> (forall x, In x l -> ss_type x = 0 /\ state_ok x /\ ss_seq x <= known (c_tree c) (ss_name x) (ss_session x)) -> own2 b m (fst ((sign ;;; emit (Put n l f)) c)).
Proof.
  intros H K. unfold bind. destruct (sign_eq c) as [sg [Es|[Es _]]]; pose proof (own2_sign b m c H) as H1; rewrite Es in *; [|exact H1]. cbn [fst] in *. destruct H1 as [[cs [A B D] P S1 S2 S3 S4] E]. split; [|exact E].
  exists cs; cbn [fst emit c_tree c_seq c_outs]; try assumption; [constructor; assumption|]. apply said_ok_app; [exact S4|]. intros l0 x J Hx. cbn [flat_map sent app] in J. destruct J as [<-|[]]. auto.
Qed.
Lemma own2_recovery b m n d : pres (own2 b m) (recovery_interest n d).
Proof.
  unfold recovery_interest. intros c H. unfold bind at 1, get at 1. destruct (log_find (c_log c) d =? -1); [exact H|]. unfold bind at 1, get at 1. destruct H as [H E]. pose proof H as [cs [A B D] _ _ _ _ _].
  unfold bind at 1, lift at 1. rewrite B at 1. rewrite (all_states_ok sha cs A). destruct (map (node_state) (t_nodes (run (claimed cs)))) as [|y r] eqn:En; [split; assumption|]. apply own2_put; [split; assumption|]. rewrite <- En, B. intros x Hx.
  pose proof (nodes_state_ok sha cs A) as F. rewrite Forall_forall in F. specialize (F x Hx). apply in_map_iff in Hx. destruct Hx as (n0 & <- & Hn). split; [reflexivity|]. split; [exact F|]. cbn [node_state ss_seq ss_name ss_session]. rewrite known_run by (apply claimed_ok, A). destruct (nodes_top sha _ n0 (claimed_ok _ A) Hn) as [-> _]. lia.
Qed.
Lemma log_at cs d : (log_find (logs cs) d =? -1) = false -> exists a l b0, logs cs = a ++ (d, l) :: b0 /\ log_find (logs cs) d = zlen a.
Proof.
  intro E. unfold log_find in *. destruct (log_find_spec (logs cs) d 0 ltac:(lia)) as [[X _]|(a & [d' l] & b0 & E1 & E2 & E3 & _)]; [rewrite X in E; discriminate E|]. cbn [fst] in E2. subst d'. exists a, l, b0. split; [exact E1|lia].
Qed.
Lemma own2_sync b m d c : own2 b m c -> (log_find (c_log c) d =? -1) = false -> own2 b m (fst (sync_interest (log_find (c_log c) d) d c)).
Proof.
  intros H El. destruct H as [H E]. pose proof H as [cs HG _ _ _ _ _]. rewrite (g_log _ _ _ HG) in *. destruct (log_at cs d El) as (a & l & b0 & Eg & ->).
  assert (S : forall c1 c2 sg, own2 b m c1 -> c2 = with_signs sg c1 -> Forall (eq true) sg -> own2 b m c2) by (intros c1 c2 sg H1 -> F; eapply own2_core; [exact H1| | | | |]; try reflexivity; auto).
  unfold sync_interest. unfold bind at 1, get at 1. unfold bind at 1, get at 1. unfold bind at 1, lift at 1. rewrite (g_log _ _ _ HG).
  assert (W : exists c0, c0 = with_signs [] c) by eauto. destruct W as (c0 & E0). assert (HG0 : G cs c0) by (subst c0; destruct HG; constructor; assumption).
  destruct (sync_reply sha cs c0 a l b0 d HG0 ltac:(subst; reflexivity) Eg) as [_ F]. cbv zeta in F. replace (c_tree c0) with (c_tree c) in F by (subst; reflexivity).
  assert (I : forall e, In e (merge_all (c_tree c) (concat (map snd b0)) []) -> In (m_triple e) (claimed cs)).
  { intros e He'. destruct (logs_split sha cs _ _ _ _ Eg) as (k1 & k2 & -> & _ & I). apply (proj1 (proj2 (merge_all_spec _ _))) in He'. destruct He' as [He' _]. rewrite claimed_app. apply in_or_app. right.
    unfold claims in He'. apply in_map_iff in He'. destruct He' as (x & Ex & He'). apply filter_In in He'. destruct He' as [H1 H2]. apply in_concat in H1. destruct H1 as (y & Hy & H1). unfold claimed. apply in_flat_map. exists y. split; [auto|]. unfold claims. rewrite <- Ex. apply in_map, filter_In. auto. }
  rewrite Eg. replace (Z.to_nat (zlen a + 1)) with (length (a ++ [(d, l)])) by (rewrite app_length; cbn [length]; unfold zlen; lia).
  replace (a ++ (d, l) :: b0) with ((a ++ [(d, l)]) ++ b0) by now rewrite <- app_assoc. rewrite skipn_app, skipn_all, Nat.sub_diag. cbn [skipn app]. rewrite flat_map_concat_map.
  rewrite to_states_ok by (intros e J; apply I in J; unfold m_triple in J; apply (state_in cs _ _ _ (g_ok _ _ _ HG)) in J; lia).
  destruct (map mk (merge_all (c_tree c) (concat (map snd b0)) [])) as [|y r] eqn:Em; [split; assumption|]. apply own2_put; [split; assumption|]. rewrite <- Em in *. intros x Hx. rewrite Forall_forall in F. pose proof (F x Hx) as Fx. apply in_map_iff in Hx. destruct Hx as (e & <- & J). split; [reflexivity|]. split; [exact Fx|].
  apply I in J. rewrite (g_tree _ _ _ HG), known_run by (apply claimed_ok, (g_ok _ _ _ HG)). apply top_in in J. exact J.
Qed.
Lemma own2_interest b m n : pres (own2 b m) (on_interest n).
Proof.
  unfold on_interest, root. apply pres_get; intros []; [|apply pres_ret]. apply pres_lift; intros d0 _. apply pres_if; [apply own2_recovery|]. apply pres_bind; [apply own2_quiet; reflexivity|intro]. apply pres_get; intro r. apply pres_if; [|apply pres_ret].
  intros c H. unfold bind, get. destruct (log_find (c_log c) _ =? -1) eqn:E; [apply own2_quiet; [reflexivity|exact H]|now apply own2_sync].
Qed.
Lemma own2_judge b m d : pres (own2 b m) (judge d).
Proof.
  unfold judge, root, send_recovery. apply pres_get; intros []; [|apply pres_ret]. intros c H. unfold bind at 1, get at 1. destruct (log_find (c_log c) d =? -1) eqn:E; [apply own2_quiet; [reflexivity|exact H]|]. unfold bind, get. destruct (negb (zlist_eqb d (t_root (c_tree c)))); [now apply own2_sync|exact H].
Qed.
Lemma own2_timeout b m n : pres (own2 b m) (sync_timeout n).
Proof. unfold sync_timeout, root. apply pres_get; intros []; [|apply pres_ret]. apply pres_lift; intros d _. apply pres_get; intro r. apply pres_if; [apply own2_quiet; reflexivity|apply pres_ret]. Qed.
(** A new number of this object *)
Lemma own2_next b m c q a : own2 b m c -> c_seq c <= q -> (forall l y, In l (sent a) -> In y l -> ss_type y = 0 /\ state_ok y /\ ss_name y = me /\ ss_session y = session /\ ss_seq y <= q) -> known (c_tree c) me session < q ->
  forall x, mk_state me q session [] = Ok x -> forall c1, c_log c1 = c_log c -> c_tree c1 = c_tree c -> c_outs c1 = c_outs c ++ [a] -> (Forall (eq true) (c_signs c) -> Forall (eq true) (c_signs c1)) ->
  own2 b m (fst (upd [x] c1)) /\ c_seq (fst (upd [x] c1)) = q /\ known (c_tree (fst (upd [x] c1))) me session = q.
Proof.
  intros [[cs HG P S1 S2 S3 S4] E] L Ha Lk x Ex c1 E1 E2 E3 E4. pose proof (mk_state_own me session He _ _ _ Ex) as Ox. apply mk_state_eq in Ex. assert (Sx : ss_seq x = q) by (subst x; reflexivity).
  assert (HG1 : G cs c1) by (destruct HG; constructor; congruence). destruct (own_upd m c1 x a Ox) as (U1 & U2 & U3).
  - rewrite Sx. exact Ha.
  - exists cs. rewrite E2, Sx. split; [exact HG1|]. split; [exact P|]. split; [exact Lk|]. split; [lia|]. exists (c_outs c). auto.
  - rewrite Sx in *. split; [|auto]. split; [exact U1|]. intro Eb. destruct (E Eb) as (Us & Sg & _). split; [exact Us|]. split; [|lia].
    destruct (upd_spec sha Hs me cs [x] _ HG1 (own_ok _ _ _ Ox)) as [Eu _]. cbv zeta in Eu. rewrite Eu. cbn [fst c_signs]. auto.
Qed.
(** A message that tells this object nothing new of itself *)
Definition modest (c : chrono) (l : content) : Prop := forall x, In x l -> ss_name x = me -> ss_session x = session /\ ss_seq x <= known (c_tree c) me session.
Lemma seq_after_modest l : forall us q, (forall x, In x l -> ss_name x = me -> ss_session x = session /\ ss_seq x <= top us me session) -> seq_after me us l q = q.
Proof.
  induction l as [|x l IH]; intros us q H; [reflexivity|]. cbn [seq_after]. destruct (is_update x); [|apply IH; intros; apply H; [now right|assumption]].
  assert (B : (top us (ss_name x) (ss_session x) <? ss_seq x) && zlist_eqb me (ss_name x) = false).
  { destruct (zlist_eqb me (ss_name x)) eqn:E; [|apply andb_false_r]. apply zlist_eqb_eq in E. symmetry in E. destruct (H x (or_introl eq_refl) E) as [E1 E2]. rewrite E, E1. lia. }
  rewrite B. apply IH. intros y Hy Ey. destruct (H y (or_intror Hy) Ey) as [A1 A2]. split; [exact A1|]. rewrite top_app. lia.
Qed.
Lemma upd_modest b m c l : own2 b m c -> Forall state_ok l -> modest c l ->
  own2 b m (fst (upd l c)) /\ c_seq (fst (upd l c)) = c_seq c /\ known (c_tree (fst (upd l c))) me session = known (c_tree c) me session /\ c_outs (fst (upd l c)) = c_outs c /\ exists r, snd (upd l c) = Ok r.
Proof.
  intros [[cs HG P S1 S2 S3 S4] E] F Mo. destruct (upd_spec sha Hs me cs l c HG F) as [Eu HG']. cbv zeta in Eu. rewrite Eu in *. cbn [fst snd c_seq c_tree c_outs] in *.
  pose proof (claimed_ok _ (g_ok _ _ _ HG)) as Fc. pose proof (claimed_ok _ (g_ok _ _ _ HG')) as Fc'. pose proof (g_tree _ _ _ HG) as T.
  assert (Mt : forall x, In x l -> ss_name x = me -> ss_session x = session /\ ss_seq x <= top (claimed cs) me session) by (intros x Hx Ex; destruct (Mo x Hx Ex) as [A B]; rewrite T, known_run in B by exact Fc; auto).
  rewrite seq_after_modest in * by exact Mt.
  assert (K : known (run (claimed (cs ++ [l]))) me session = known (c_tree c) me session).
  { rewrite T, !known_run by assumption. rewrite claimed_snoc, top_app. assert (top (claims l) me session <= top (claimed cs) me session); [|lia]. apply top_le; [apply top_ge|]. intros q J. unfold claims in J. apply in_map_iff in J. destruct J as (x & Ex & J). apply filter_In in J. unfold triple in Ex. injection Ex as E1 E2 <-. apply (Mt x (proj1 J) E1). }
  split; [|split; [reflexivity|split; [exact K|split; [reflexivity|eauto]]]]. split.
  - exists (cs ++ [l]); cbn [c_tree c_seq c_outs]; [exact HG'| |rewrite K; exact S1|exact S2|exact S3|].
    + intros s q J. rewrite claimed_snoc in J. apply in_app_or in J. destruct J as [J|J]; [eapply P, J|]. unfold claims in J. apply in_map_iff in J. destruct J as (x & Ex & J). apply filter_In in J. unfold triple in Ex. injection Ex as E1 E2 E3. rewrite <- E2. apply (Mt x (proj1 J) E1).
    + rewrite claimed_snoc. apply said_ok_grow; [exact Fc|apply claims_ok, F|]. rewrite <- T. exact S4.
  - intro Eb. destruct (E Eb) as (A & B & D). split; [exact A|]. split; [exact B|]. cbn [c_seq c_tree]. rewrite K. exact D.
Qed.
Definition tail (a : act) : cm unit := callback sha me session a ;;; d <~ root ;; emit (Express [d] Sync).
Lemma own2_tail b m a : sent a = [] -> pres (own2 b m) (tail a).
Proof. intro N. unfold tail, root. apply pres_bind; [apply own2_callback, N|intro]. apply pres_get; intro. apply own2_quiet. reflexivity. Qed.
Lemma initial_eq c : initial_timeout sha me session c =
  if c_enabled c then
    if negb (c_seq c + 1 =? 0) then (with_seq (c_seq c + 1) c, Err RuntimeError)
    else match mk_state me (c_seq c + 1) session [] with
      | Err x => (with_seq (c_seq c + 1) c, Err x)
      | Ok x => match upd [x] (with_seq (c_seq c + 1) c) with (c', Ok _) => tail Initialized c' | (c', Err y) => (c', Err y) end
      end
  else (c, Ok tt).
Proof.
  unfold initial_timeout, bind at 1, get at 1. destruct (c_enabled c); [|reflexivity]. unfold bind at 1, get at 1. unfold bind at 1, set_seq. cbv beta iota. fold (with_seq (c_seq c + 1) c). destruct (negb (c_seq c + 1 =? 0)); [reflexivity|].
  unfold bind at 1, lift. destruct (mk_state me (c_seq c + 1) session []) as [x|x]; [|reflexivity]. unfold bind at 1. destruct (upd [x] (with_seq (c_seq c + 1) c)) as [c' [r|y]]; reflexivity.
Qed.
Lemma initial_own b m c : own2 b m c -> let r := initial_timeout sha me session c in own m (fst r) /\ (snd r = Ok tt -> own2 b m (fst r)).
Proof.
  intro H. cbv zeta. rewrite initial_eq. destruct (c_enabled c); [|split; [apply H|intros _; exact H]].
  assert (H1 : own m (with_seq (c_seq c + 1) c)) by (eapply said_core; [apply H| | | |]; try reflexivity; cbn; lia).
  destruct (negb (c_seq c + 1 =? 0)) eqn:N; [split; [exact H1|discriminate]|]. destruct (mk_state me (c_seq c + 1) session []) as [x|x] eqn:Ex; [|split; [exact H1|discriminate]].
  assert (U : own2 b m (fst (upd [x] (with_seq (c_seq c + 1) c)))).
  { destruct H as [[cs HG P S1 S2 S3 S4] E]. pose proof (mk_state_own me session He _ _ _ Ex) as Ox. apply mk_state_eq in Ex. set (c1 := with_seq (c_seq c + 1) c) in *. assert (HG1 : G cs c1) by (destruct HG; constructor; assumption).
    assert (Lx : known (c_tree c1) me session < ss_seq x) by (subst x; cbn [ss_seq c1 with_seq c_tree]; lia).
    destruct (own_new_seq cs x c1 HG1 Ox Lx) as [N1 N2]. destruct (upd_spec sha Hs me cs [x] c1 HG1 (own_ok _ _ _ Ox)) as [Eu HG']. cbv zeta in Eu. rewrite Eu in *. cbn [fst] in *. rewrite N1 in *. assert (Sx : ss_seq x = c_seq c + 1) by (subst x; reflexivity).
    split.
    - exists (cs ++ [[x]]); cbn [c_tree c_seq c_outs]; [exact HG'|apply private_own; [exact P|constructor; [exact Ox|constructor]]|lia|lia|lia|]. rewrite claimed_snoc. apply said_ok_grow; [apply claimed_ok, (g_ok _ _ _ HG)|apply claims_ok, (own_ok _ _ _ Ox)|]. rewrite <- (g_tree _ _ _ HG). exact S4.
    - intro Eb. destruct (E Eb) as (A & B & D). split; [exact A|]. split; [exact B|]. cbn [c_seq c_tree]. lia. }
  destruct (upd [x] (with_seq (c_seq c + 1) c)) as [c' [r|y]]; cbn [fst] in U; [|split; [apply U|discriminate]]. pose proof (own2_tail b m Initialized eq_refl c' U) as T. split; [apply T|intros _; exact T].
Qed.
Lemma old_comer_none l c : (forall x, In x l -> ss_name x <> me) -> old_comer sha me session l c = (c, Ok tt).
Proof.
  induction l as [|x l IH]; intro H; [reflexivity|]. cbn [old_comer]. destruct (zlist_eqb (ss_name x) me) eqn:E; [apply zlist_eqb_eq in E; destruct (H x (or_introl eq_refl) E)|]. cbn [andb]. unfold bind, ret. apply IH. intros; apply H; now right.
Qed.
(** _initialOndata of a message that does not name this object *)
Lemma initial_data_eq l c : (forall x, In x l -> ss_name x <> me) -> known (c_tree (fst (upd l c))) me session = -1 -> (find (c_tree (fst (upd l c))) me session =? -1) = true ->
  initial_data sha me session l c =
  match upd l c with
  | (c1, Err x) => (c1, Err x)
  | (c1, Ok _) =>
      match mk_state me (if 0 <=? c_seq c1 then c_seq c1 else 0) session [] with
      | Err x => (c1, Err x)
      | Ok x =>
          match sign c1 with
          | (c2, Err y) => (c2, Err y)
          | (c2, Ok _) =>
              let c3 := with_seq (c_seq c2 + 1) (with_out (Add (t_root (c_tree c1)) [x]) c2) in
              match mk_state me (c_seq c2 + 1) session [] with
              | Err y => (c3, Err y)
              | Ok y => match upd [y] c3 with (c4, Ok r) => if (r : bool) then callback sha me session Initialized c4 else (c4, Ok tt) | (c4, Err z) => (c4, Err z) end
              end
          end
      end
  end.
Proof.
  intros N K Fi. unfold initial_data, bind at 1. destruct (upd l c) as [c1 [r|y]]; [|reflexivity]. cbn [fst] in K, Fi. unfold bind at 1, root, get at 1. unfold bind at 1. rewrite (old_comer_none l c1 N). unfold bind at 1, get at 1. unfold bind at 1, lift at 1.
  destruct (mk_state me (if 0 <=? c_seq c1 then c_seq c1 else 0) session []) as [x|x]; [|reflexivity]. unfold bind at 1, broadcast, bind at 1. destruct (sign_eq c1) as [sg [Es|[Es _]]]; rewrite Es; [|reflexivity]. unfold emit at 1. unfold bind at 1, get at 1. cbn [with_signs c_tree]. rewrite Fi.
  unfold bind at 1, get at 1. unfold bind at 1, set_seq. cbv beta iota zeta. cbn [with_signs c_seq]. unfold bind at 1, lift at 1. destruct (mk_state me (c_seq c1 + 1) session []) as [y|y]; [|reflexivity]. unfold bind at 1.
  match goal with |- match upd [y] ?u with _ => _ end = _ => change u with (with_seq (c_seq c1 + 1) (with_out (Add (t_root (c_tree c1)) [x]) (with_signs sg c1))) end. destruct (upd [y] _) as [c4 [[|]|z]]; reflexivity.
Qed.
Lemma initial_data_own b m c l : own2 b m c -> Forall state_ok l -> modest c l -> t_root (c_tree c) = s00 -> c_seq c < 2 ^ 64 - 1 -> own2 b m (fst (initial_data sha me session l c)).
Proof.
  intros H F Mo R Full. assert (K0 : known (c_tree c) me session = -1).
  { destruct H as [[cs HG P S1 S2 S3 S4] E]. rewrite (g_tree _ _ _ HG) in *. pose proof (claimed_ok _ (g_ok _ _ _ HG)) as Fc. rewrite known_run by exact Fc. apply (empty_tree sha); [exact Fc|]. now apply root_00. }
  assert (N : forall x, In x l -> ss_name x <> me). { intros x Hx Ex. destruct (Mo x Hx Ex) as [_ L]. rewrite Forall_forall in F. destruct (F x Hx) as (_ & A & _). lia. }
  destruct (upd_modest b m c l H F Mo) as (U1 & U2 & U3 & _ & (r & U4)). rewrite initial_data_eq; [|exact N|rewrite U3; exact K0|].
  2:{ destruct U1 as [[cs HG P S1 S2 S3 S4] E]. rewrite (g_tree _ _ _ HG) in *. pose proof (claimed_ok _ (g_ok _ _ _ HG)) as Fc. rewrite find_run by exact Fc. rewrite known_run in U3 by exact Fc. lia. }
  destruct (upd l c) as [c1 r1]. cbn [fst snd] in *. subst r1. destruct (mk_state me (if 0 <=? c_seq c1 then c_seq c1 else 0) session []) as [x|x] eqn:Ex; [|exact U1]. pose proof (own2_sign b m c1 U1) as H2. destruct (sign_eq c1) as [sg [Es|[Es _]]]; rewrite Es in *; [|exact H2]. cbn [fst] in H2. cbv zeta.
  pose proof (mk_state_own me session He _ _ _ Ex) as Ox. pose proof (mk_state_eq _ _ _ Ex) as Ex'. cbn [with_signs c_seq]. destruct (mk_state me (c_seq c1 + 1) session []) as [y|y] eqn:Ey.
  - set (c3 := with_seq (c_seq c1 + 1) (with_out (Add (t_root (c_tree c1)) [x]) (with_signs sg c1))).
    destruct (own2_next b m (with_signs sg c1) (c_seq c1 + 1) (Add (t_root (c_tree c1)) [x]) H2) with (x := y) (c1 := c3) as (V1 & V2 & V3); try reflexivity; try exact Ey; try auto.
    + cbn. lia.
    + intros l0 z [<-|[]] [<-|[]]. destruct Ox as (q & i & Eq & Kx). injection Eq as Eq. rewrite Eq in *. injection Ex' as E1 E2. cbn [ss_type ss_name ss_session ss_seq]. split; [reflexivity|]. split; [exact Kx|]. split; [reflexivity|]. split; [reflexivity|].
      pose proof (o_min _ _ (proj1 U1)). rewrite E1. destruct (0 <=? c_seq c1) eqn:Z0; lia.
    + cbn [with_signs c_tree]. rewrite U3, K0. pose proof (o_min _ _ (proj1 U1)). lia.
    + destruct (upd [y] c3) as [c4 [[|]|z]]; cbn [fst] in *; [apply own2_callback; [reflexivity|exact V1]|exact V1|exact V1].
  - exfalso. unfold mk_state in Ex, Ey. pose proof (o_min _ _ (proj1 U1)). destruct (u64 session); [|rewrite andb_false_r in Ex; discriminate Ex]. replace (u64 (c_seq c1 + 1)) with true in Ey by (unfold u64; lia). discriminate Ey.
Qed.
Lemma on_data_eq n l c : c_enabled c = true -> on_data sha me session n (Some l) c =
  if zlist_eqb (t_root (c_tree c)) s00 then match initial_data sha me session l c with (c', Ok _) => tail (Received (filter is_update l) true) c' | (c', Err x) => (c', Err x) end
  else match upd l c with (c', Ok _) => tail (Received (filter is_update l) (zlen n =? 2)) c' | (c', Err x) => (c', Err x) end.
Proof.
  intro E. unfold on_data, bind at 1, get at 1. rewrite E. unfold bind at 1, root at 1, get at 1. destruct (zlist_eqb (t_root (c_tree c)) s00); unfold bind at 1, bind at 1.
  - destruct (initial_data sha me session l c) as [c' [r|x]]; reflexivity.
  - destruct (upd l c) as [c' [r|x]]; reflexivity.
Qed.
Lemma on_data_own b m c n l : own2 b m c -> Forall state_ok l -> modest c l -> c_seq c < 2 ^ 64 - 1 -> own2 b m (fst (on_data sha me session n (Some l) c)).
Proof.
  intros H F Mo Full. destruct (c_enabled c) eqn:En; [|rewrite on_data_off by exact En; exact H]. rewrite on_data_eq by exact En. destruct (zlist_eqb (t_root (c_tree c)) s00) eqn:R.
  - apply zlist_eqb_eq in R. pose proof (initial_data_own b m c l H F Mo R Full) as I. destruct (initial_data sha me session l c) as [c' [r|x]]; cbn [fst] in *; [apply own2_tail; [reflexivity|exact I]|exact I].
  - destruct (upd_modest b m c l H F Mo) as (I & _). destruct (upd l c) as [c' [r|x]]; cbn [fst] in *; [apply own2_tail; [reflexivity|exact I]|exact I].
Qed.
(** One event *)
Lemma step_own b c i : own2 b (-1) c -> input_ok i -> (match i_event i with EData _ _ (Some l) => modest c l | _ => True end) -> c_seq c < 2 ^ 64 - 1 -> (b = true -> Forall (eq true) (i_signs i)) ->
  let r := step c i in own (c_seq c) (fst r) /\ (b = false \/ snd r = Ok tt \/ (forall n, i_event i <> ETimeout n Initial) -> own2 b (c_seq c) (fst r)).
Proof.
  intros [[cs HG P S1 S2 S3 S4] E] Hi Mo Full Sg. assert (B : own2 b (c_seq c) (begin i c)).
  { split; [exists cs; cbn [begin c_tree c_seq c_outs]; try assumption; [destruct HG; constructor; assumption|lia|intros l x []]|]. intro Eb. destruct (E Eb) as (A & _ & D). split; [exact A|]. split; [apply Sg, Eb|exact D]. }
  cbv zeta. unfold ChronoModel.step. unfold input_ok in Hi.
  assert (K : own2 b (c_seq c) (fst (act_of sha me session (i_event i) (begin i c))) -> own (c_seq c) (fst (act_of sha me session (i_event i) (begin i c))) /\ (b = false \/ snd (act_of sha me session (i_event i) (begin i c)) = Ok tt \/ (forall n, i_event i <> ETimeout n Initial) -> own2 b (c_seq c) (fst (act_of sha me session (i_event i) (begin i c))))) by (intro H; split; [apply H|intros _; exact H]).
  destruct (i_event i) as [info| |n|n k [l|]|n [|]|d]; cbn [act_of] in *.
  - apply K, own2_publish, B.
  - apply K. unfold shutdown. apply (pres_bind (own2 b (c_seq c)) disable (fun _ => emit Unregister)); [|intro; apply own2_quiet; reflexivity|exact B]. intros c0 H. eapply own2_core; [exact H| | | | |]; try reflexivity. auto.
  - apply K, own2_interest, B.
  - apply K, on_data_own; assumption.
  - apply K. unfold on_data, bind, get. destruct (c_enabled (begin i c)); exact B.
  - destruct (initial_own b (c_seq c) _ B) as [I1 I2]. split; [exact I1|]. intros [->|[X|X]]; [split; [exact I1|discriminate]|auto|destruct (X n eq_refl)].
  - apply K, own2_timeout, B.
  - apply K, own2_judge, B.
Qed.
End Node.
