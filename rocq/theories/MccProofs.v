(** * Invariants of the memory content cache. *)
From Verif Require Import Base BaseLemmas NameModel NameSpec NameProofs UriModel WireModel MatchModel MatchProofs MatchProps MccModel MccSpec ListAux.
From Coq Require Import Lia Sorted.

Section Mcc.
Variable enc : data -> res bytes.
Variable interval : Z.
Notation step := (step enc interval). Notation run := (run enc interval). Notation init := (init interval).

Lemma run_snoc s os o : run s (os ++ [o]) = step (run s os) o.
Proof. unfold MccModel.run. now rewrite fold_left_app. Qed.
Lemma timed_snoc t os o : timed t (os ++ [o]) <-> timed t os /\ match op_time o with Some t' => clock t os <= t' | None => True end.
Proof. revert t. induction os as [|a os IH]; intro t; cbn [app timed].
  - unfold clock; cbn. destruct (op_time o); tauto.
  - unfold clock in *. cbn [fold_left]. destruct (op_time a); rewrite IH; tauto. Qed.
Lemma clock_snoc t os o : clock t (os ++ [o]) = match op_time o with Some t' => t' | None => clock t os end.
Proof. unfold clock. now rewrite fold_left_app. Qed.
Lemma min_snoc os o : min_life (os ++ [o]) = match o with MSetMin m => m | _ => min_life os end.
Proof. unfold min_life. now rewrite fold_left_app. Qed.
Lemma clock_ge t os : timed t os -> t <= clock t os.
Proof. revert t. induction os as [|o os IH]; intros t; unfold clock in *; cbn; [lia|]. destruct (op_time o); [intros [H1 H2]; apply IH in H2; lia|apply IH]. Qed.

Lemma added_snoc os o d t m : added (os ++ [o]) d t m <-> added os d t m \/ exists fails, o = MAdd d t fails /\ m = min_life os.
Proof.
  split.
  - intros (l1 & fa & l2 & E & ->). apply snoc_split in E. destruct E as [(-> & -> & ->)|(l2' & -> & ->)]; [right; exists fa; auto|left; exists l1, fa, l2'; auto].
  - intros [(l1 & fa & l2 & -> & ->)|(fa & -> & ->)]; [exists l1, fa, (l2 ++ [o]); rewrite <- app_assoc; auto|exists os, fa, []; auto].
Qed.

(** ** The stale time cache *)
Definition sorted := StronglySorted (fun a b => k_removal a <= k_removal b).
Lemma purge_spec now l : sorted l -> forall c, In c (purge now l) <-> In c l /\ now < k_removal c.
Proof. intro H. induction H as [|a l Hs IH Hf]; intro c; cbn [purge]; [cbn [In]; tauto|]. rewrite Forall_forall in Hf.
  destruct (k_removal a <=? now) eqn:E; [rewrite IH; cbn [In]; split; [tauto|intros [[<-|Hi] Hr]; [lia|auto]]|].
  split; [|tauto]. intro Hi. split; [exact Hi|]. destruct Hi as [<-|Hi]; [lia|apply Hf in Hi; lia]. Qed.
Lemma purge_sorted now l : sorted l -> sorted (purge now l).
Proof. intro H. induction H as [|a l Hs IH Hf]; cbn [purge]; [constructor|]. destruct (k_removal a <=? now); [exact IH|constructor; assumption]. Qed.
Lemma insert_split l c : exists l1 l2, l = l1 ++ l2 /\ insert_back l c = l1 ++ c :: l2 /\ (forall x, In x l1 -> k_removal c < k_removal x) /\
  match l2 with [] => True | x :: _ => k_removal x <= k_removal c end.
Proof. induction l as [|x l IH]; cbn [insert_back]; [exists [], []; cbn; intuition|].
  destruct (k_removal x <=? k_removal c) eqn:E; [exists [], (x :: l); cbn; intuition; lia|].
  destruct IH as (l1 & l2 & -> & -> & H1 & H2). exists (x :: l1), l2. cbn. split; [reflexivity|split; [reflexivity|split; [|exact H2]]].
  intros y [<-|Hy]; [lia|auto]. Qed.
Lemma insert_in l c x : In x (rev (insert_back (rev l) c)) <-> x = c \/ In x l.
Proof. destruct (insert_split (rev l) c) as (l1 & l2 & E & -> & _). rewrite <- in_rev, in_app_iff. rewrite (in_rev l), E, in_app_iff. cbn. intuition. Qed.
Lemma insert_sorted l c : sorted l -> sorted (rev (insert_back (rev l) c)).
Proof.
  intro H. destruct (insert_split (rev l) c) as (l1 & l2 & E & -> & H1 & H2).
  assert (E' : l = rev l2 ++ rev l1) by (rewrite <- rev_app_distr, <- E, rev_involutive; reflexivity).
  rewrite rev_app_distr. cbn [rev]. rewrite <- app_assoc. cbn [app]. rewrite E' in H. destruct (ss_app_inv _ _ _ H) as (A1 & A2 & A3).
  assert (H2' : forall x, In x (rev l2) -> k_removal x <= k_removal c).
  { intros x Hx. destruct l2 as [|y l2]; [destruct Hx|]. cbn [rev] in Hx, A1. apply in_app_or in Hx. destruct Hx as [Hx|[<-|[]]]; [|exact H2].
    destruct (ss_app_inv _ _ _ A1) as (_ & _ & A4). specialize (A4 x y Hx (or_introl eq_refl)). cbn in A4. lia. }
  apply ss_app; [exact A1|constructor; [exact A2|]|].
  - apply Forall_forall. intros x Hx. rewrite <- in_rev in Hx. apply H1 in Hx. lia.
  - intros x y Hx [<-|Hy]; [auto|apply A3; assumption].
Qed.

Definition of_stale (os : list op) (c : stale) : Prop := exists d t m f, added os d t m /\ period d = Some f /\ enc d = Ok (k_enc c) /\ c = Stale (d_name d) (k_enc c) (t + Z.max f m) (t + f).
Definition of_plain (os : list op) (c : plain) : Prop := exists d t m, added os d t m /\ period d = None /\ enc d = Ok (p_enc c) /\ p_name c = d_name d.
Record inv (t0 : Z) (os : list op) (s : state) : Prop := Inv {
  i_sorted : sorted (s_stale s);
  i_min' : s_min s = min_life os;
  i_next : s_next s - interval <= clock t0 os;
  i_after : forall c, In c (s_stale s) -> s_next s - interval <= k_removal c;
  i_stale : forall c, In c (s_stale s) -> of_stale os c;
  i_plain : forall c, In c (s_plain s) -> of_plain os c;
  i_stale_has : forall d t m f b, added os d t m -> period d = Some f -> enc d = Ok b -> In (Stale (d_name d) b (t + Z.max f m) (t + f)) (s_stale s) \/ t + Z.max f m <= clock t0 os;
  i_plain_has : forall d t m b, added os d t m -> period d = None -> enc d = Ok b -> In (Plain (d_name d) b) (s_plain s) }.

Lemma of_stale_snoc os o c : of_stale os c -> of_stale (os ++ [o]) c.
Proof. intros (d & t & m & f & H & R). exists d, t, m, f. split; [apply added_snoc; now left|exact R]. Qed.
Lemma of_plain_snoc os o c : of_plain os c -> of_plain (os ++ [o]) c.
Proof. intros (d & t & m & H & R). exists d, t, m. split; [apply added_snoc; now left|exact R]. Qed.

(** The cleanup at time [now], not before the last call. *)
Lemma cleanup_inv t0 os s now : inv t0 os s -> clock t0 os <= now -> 0 <= interval ->
  let s' := doCleanup interval s now in
  sorted (s_stale s') /\ s_min s' = s_min s /\ s_plain s' = s_plain s /\ s_next s' - interval <= now /\
  (forall c, In c (s_stale s') -> In c (s_stale s) /\ s_next s' - interval <= k_removal c /\ now < k_removal c + interval) /\
  (forall c, In c (s_stale s) -> now < k_removal c -> In c (s_stale s')).
Proof.
  intros I Hn Hi s'. unfold s', doCleanup. destruct I as [I1 I2 I3 I4 _ _ _ _]. destruct (s_next s <=? now) eqn:E; cbn [s_stale s_min s_plain s_next].
  - split; [now apply purge_sorted|]. split; [reflexivity|]. split; [reflexivity|]. split; [lia|].
    split; [intros c Hc; apply purge_spec in Hc; [|exact I1]; destruct Hc; split; [assumption|lia]|].
    intros c Hc Hr. apply purge_spec; auto.
  - split; [exact I1|]. split; [reflexivity|]. split; [reflexivity|]. split; [lia|]. split; [|auto].
    intros c Hc. split; [exact Hc|]. specialize (I4 c Hc). lia.
Qed.
Lemma cleanup_rest s now : let s' := doCleanup interval s now in s_handlers s' = s_handlers s /\ s_pend s' = s_pend s /\ s_nextSer s' = s_nextSer s /\ s_log s' = s_log s /\ s_plain s' = s_plain s /\ s_min s' = s_min s.
Proof. unfold doCleanup. destruct (s_next s <=? now); cbn; auto 6. Qed.

(** What a call does to the two lists. *)
Lemma add_lists s d now fails : let s1 := doCleanup interval s now in let s' := add enc interval s d now fails in
  s_min s' = s_min s1 /\ s_next s' = s_next s1 /\
  match enc d with
  | Err _ => s_stale s' = s_stale s1 /\ s_plain s' = s_plain s1
  | Ok b => match period d with
            | Some f => s_stale s' = rev (insert_back (rev (s_stale s1)) (Stale (d_name d) b (now + Z.max f (s_min s1)) (now + f))) /\ s_plain s' = s_plain s1
            | None => s_stale s' = s_stale s1 /\ s_plain s' = s_plain s1 ++ [Plain (d_name d) b]
            end
  end.
Proof.
  intros s1 s'. unfold s', add. fold s1. destruct (enc d) as [b|x]; [|cbn; auto]. unfold period.
  destruct (mi_freshness (d_meta d)) as [f|]; [destruct (0 <=? f)|];
  match goal with |- context[answer ?a ?b ?c ?dd ?e] => destruct (answer a b c dd e) as [[stay l] [x|]] end; cbn; auto.
Qed.

Lemma period_nonneg d f : period d = Some f -> 0 <= f.
Proof. unfold period. destruct (mi_freshness (d_meta d)) as [f'|]; [|discriminate]. destruct (0 <=? f') eqn:E; [|discriminate]. intro H; injection H as <-. lia. Qed.

Lemma same_lists t0 os s o s' : inv t0 os s -> (forall d t fa, o <> MAdd d t fa) -> clock t0 os <= clock t0 (os ++ [o]) ->
  s_min s' = min_life (os ++ [o]) -> s_next s' - interval <= clock t0 (os ++ [o]) -> sorted (s_stale s') -> s_plain s' = s_plain s ->
  (forall c, In c (s_stale s') -> In c (s_stale s) /\ s_next s' - interval <= k_removal c) ->
  (forall c, In c (s_stale s) -> In c (s_stale s') \/ k_removal c <= clock t0 (os ++ [o])) -> inv t0 (os ++ [o]) s'.
Proof.
  intros I Hno Hc Hm Hn Hs Hp H1 H2. destruct I as [I1 I2 I3 I4 I5 I6 I7 I8]. split; try assumption.
  - intros c Hi. apply H1, Hi.
  - intros c Hi. apply of_stale_snoc, I5, H1, Hi.
  - intros c Hi. apply of_plain_snoc, I6. now rewrite <- Hp.
  - intros d t m f b Ha Hf He. apply added_snoc in Ha. destruct Ha as [Ha|(fa & -> & _)]; [|edestruct Hno; reflexivity].
    destruct (I7 _ _ _ _ _ Ha Hf He) as [Hi|Hi]; [|right; lia]. destruct (H2 _ Hi) as [Hi'|Hi']; [left; exact Hi'|right; exact Hi'].
  - intros d t m b Ha Hf He. apply added_snoc in Ha. destruct Ha as [Ha|(fa & -> & _)]; [|edestruct Hno; reflexivity]. rewrite Hp. eauto.
Qed.

Theorem inv_run t0 os : 0 <= interval -> timed t0 os -> inv t0 os (run (init t0) os).
Proof.
  intros Hi. induction os as [|o os IH] using rev_ind; intro Ht.
  - split; cbn; unfold clock; cbn; try lia; try (intros; contradiction); try (apply SSorted_nil); try reflexivity.
    + intros d t m f b (l1 & fa & l2 & E & _). destruct l1; discriminate.
    + intros d t m b (l1 & fa & l2 & E & _). destruct l1; discriminate.
  - apply timed_snoc in Ht. destruct Ht as [Ht Hc]. specialize (IH Ht). rewrite run_snoc. set (s := run (init t0) os) in *.
    destruct o as [d now fails|p i f now fails|i f now|m|p h|]; cbn [op_time] in Hc.
    + destruct (cleanup_inv t0 os s now IH Hc Hi) as (C1 & C2 & C3 & C4 & C5 & C6). set (s1 := doCleanup interval s now) in *.
      destruct (add_lists s d now fails) as (A1 & A2 & A3). fold s1 in A1, A2, A3. cbn [step]. set (s' := add enc interval s d now fails) in *.
      destruct IH as [I1 I2 I3 I4 I5 I6 I7 I8].
      assert (K : clock t0 (os ++ [MAdd d now fails]) = now) by (rewrite clock_snoc; reflexivity).
      assert (Km : s_min s1 = min_life os) by congruence.
      assert (Base_has : forall d0 t m f b, added os d0 t m -> period d0 = Some f -> enc d0 = Ok b -> In (Stale (d_name d0) b (t + Z.max f m) (t + f)) (s_stale s1) \/ t + Z.max f m <= now).
      { intros d0 t m f b Ha Hf He. destruct (I7 _ _ _ _ _ Ha Hf He) as [Hx|Hx]; [|right; lia].
        destruct (Z.le_gt_cases (t + Z.max f m) now); [right; assumption|left; apply C6; [exact Hx|cbn; lia]]. }
      destruct (enc d) as [b|x] eqn:Ee.
      * destruct (period d) as [fr|] eqn:Ep; destruct A3 as [A3 A4].
        -- pose proof (period_nonneg _ _ Ep) as Hfr. split.
           ++ rewrite A3. now apply insert_sorted.
           ++ rewrite A1, min_snoc. congruence.
           ++ rewrite A2, K. exact C4.
           ++ intros c Hcc. rewrite A3 in Hcc. apply insert_in in Hcc. rewrite A2. destruct Hcc as [->|Hcc]; [cbn; lia|apply C5, Hcc].
           ++ intros c Hcc. rewrite A3 in Hcc. apply insert_in in Hcc. destruct Hcc as [->|Hcc]; [|apply of_stale_snoc, I5, C5, Hcc].
              exists d, now, (min_life os), fr. split; [apply added_snoc; right; exists fails; auto|]. split; [exact Ep|]. split; [exact Ee|]. cbn. now rewrite Km.
           ++ intros c Hcc. rewrite A4, C3 in Hcc. apply of_plain_snoc, I6, Hcc.
           ++ intros d0 t m f0 b0 Ha Hf He. rewrite A3, K. apply added_snoc in Ha. destruct Ha as [Ha|(fa & E & ->)].
              ** destruct (Base_has _ _ _ _ _ Ha Hf He) as [Hx|Hx]; [left; apply insert_in; now right|now right].
              ** injection E as <- <- _. rewrite Ep in Hf. injection Hf as <-. rewrite Ee in He. injection He as <-. left. apply insert_in. left. now rewrite Km.
           ++ intros d0 t m b0 Ha Hf He. rewrite A4, C3. apply added_snoc in Ha. destruct Ha as [Ha|(fa & E & ->)]; [eauto|]. injection E as <- <- _. congruence.
        -- split.
           ++ now rewrite A3.
           ++ rewrite A1, min_snoc. congruence.
           ++ rewrite A2, K. exact C4.
           ++ intros c Hcc. rewrite A3 in Hcc. rewrite A2. apply C5, Hcc.
           ++ intros c Hcc. rewrite A3 in Hcc. apply of_stale_snoc, I5, C5, Hcc.
           ++ intros c Hcc. rewrite A4, C3 in Hcc. apply in_app_or in Hcc. destruct Hcc as [Hcc|[<-|[]]]; [apply of_plain_snoc, I6, Hcc|].
              exists d, now, (min_life os). split; [apply added_snoc; right; exists fails; auto|auto].
           ++ intros d0 t m f0 b0 Ha Hf He. rewrite A3, K. apply added_snoc in Ha. destruct Ha as [Ha|(fa & E & ->)]; [eauto|]. injection E as <- <- _. congruence.
           ++ intros d0 t m b0 Ha Hf He. rewrite A4, C3. apply in_or_app. apply added_snoc in Ha. destruct Ha as [Ha|(fa & E & ->)]; [left; eauto|].
              injection E as <- <- _. rewrite Ee in He. injection He as <-. right. now left.
      * destruct A3 as [A3 A4]. split.
           ++ now rewrite A3.
           ++ rewrite A1, min_snoc. congruence.
           ++ rewrite A2, K. exact C4.
           ++ intros c Hcc. rewrite A3 in Hcc. rewrite A2. apply C5, Hcc.
           ++ intros c Hcc. rewrite A3 in Hcc. apply of_stale_snoc, I5, C5, Hcc.
           ++ intros c Hcc. rewrite A4, C3 in Hcc. apply of_plain_snoc, I6, Hcc.
           ++ intros d0 t m f0 b0 Ha Hf He. rewrite A3, K. apply added_snoc in Ha. destruct Ha as [Ha|(fa & E & ->)]; [eauto|]. injection E as <- <- _. congruence.
           ++ intros d0 t m b0 Ha Hf He. rewrite A4, C3. apply added_snoc in Ha. destruct Ha as [Ha|(fa & E & ->)]; [eauto|]. injection E as <- <- _. congruence.
    + destruct (cleanup_inv t0 os s now IH Hc Hi) as (C1 & C2 & C3 & C4 & C5 & C6). set (s1 := doCleanup interval s now) in *.
      assert (E : s_stale (step s (MInterest p i f now fails)) = s_stale s1 /\ s_plain (step s (MInterest p i f now fails)) = s_plain s1 /\ s_min (step s (MInterest p i f now fails)) = s_min s1 /\ s_next (step s (MInterest p i f now fails)) = s_next s1).
      { cbn [step]. unfold onInterest. fold s1. destruct (scan i None (items s1 now)) as [[b|]|x]; [destruct fails|destruct (lookup (n_toUri p false) (s_handlers s1))|]; cbn; auto. }
      destruct E as (E1 & E2 & E3 & E4). pose proof (clock_snoc t0 os (MInterest p i f now fails)) as K. cbn [op_time] in K.
      eapply same_lists; [exact IH|intros; discriminate|rewrite K; exact Hc|..].
      * rewrite E3, C2, min_snoc. apply IH.
      * now rewrite E4, K.
      * now rewrite E1.
      * congruence.
      * intros c Hcc. rewrite E1 in Hcc. rewrite E4. split; apply C5, Hcc.
      * intros c Hcc. rewrite E1, K. destruct (Z.le_gt_cases (k_removal c) now); [now right|left; apply C6; [exact Hcc|lia]].
    + eapply same_lists; [exact IH|intros; discriminate|rewrite clock_snoc; exact Hc|rewrite min_snoc; apply IH|rewrite clock_snoc; cbn; destruct IH; cbn in *; lia|apply IH|reflexivity|intros c Hcc; split; [exact Hcc|apply IH, Hcc]|auto].
    + eapply same_lists; [exact IH|intros; discriminate|rewrite clock_snoc; cbn; lia|rewrite min_snoc; reflexivity|rewrite clock_snoc; apply IH|apply IH|reflexivity|intros c Hcc; split; [exact Hcc|apply IH, Hcc]|auto].
    + eapply same_lists with (s' := step s (MFilter p h)); [exact IH|intros; discriminate|rewrite clock_snoc; cbn; lia|..]; rewrite ?min_snoc, ?clock_snoc; destruct h as [h|]; cbn [MccModel.step setHandler op_time s_min s_next s_stale s_plain]; try apply IH; try reflexivity; try (intros c Hcc; split; [exact Hcc|apply IH, Hcc]); auto.
    + eapply same_lists; [exact IH|intros; discriminate|rewrite clock_snoc; cbn; lia|rewrite min_snoc; apply IH|rewrite clock_snoc; apply IH|apply IH|reflexivity|intros c Hcc; split; [exact Hcc|apply IH, Hcc]|auto].
Qed.
End Mcc.
