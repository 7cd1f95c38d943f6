(** * Proofs about the group manager: the interval and the keys of the members. *)
From Verif Require Import Base BaseLemmas NameModel NameSpec NameProofs NameProps DictModel DictProofs CertModel TlvSpec TlvProofs TlvDecProofs WireModel WireSpec WireProofs WireProps BlobModel CalModel CalSpec CalProps SchedModel SchedSpec SchedProps SchedWireProps CtlModel CtlSpec CtlProps EncrModel GmModel GmSpec GmProofs.
From Coq Require Import Permutation Sorted.

(** ** The bounds of a covering interval: whole hours of the day of the time slot *)
Definition Bd (D : Z) (i : iv) : Prop := D <= iv_start i <= iv_end i /\ iv_end i <= D + DAY /\ (HOUR | iv_start i) /\ (HOUR | iv_end i).
Lemma new_inv : forall s e i, iv_new s e = Ok i -> i = Iv s e true /\ s < e.
Proof. intros s e i. unfold iv_new. destruct (s <? e) eqn:E; [|discriminate]. intros [= <-]. split; [reflexivity|lia]. Qed.
Lemma hour_date : forall us, (HOUR | dateOnly us).
Proof.
  intros us. unfold dateOnly. set (x := round1000 us). exists (24 * (x / DAY)). rewrite Z.mod_eq by (unfold DAY; lia). unfold DAY, HOUR. lia.
Qed.
Lemma hour_add : forall D k, (HOUR | D) -> (HOUR | D + k * HOUR).
Proof. intros D k H. apply Z.divide_add_r; [exact H|]. apply Z.divide_factor_r. Qed.
Lemma getInterval_bd : forall r us p i, made r -> ri_getInterval r us = Ok (p, i) -> iv_valid i = true /\ Bd (dateOnly us) i /\ iv_start i < iv_end i.
Proof.
  intros r us p i M H. destruct (made_facts r M) as (_ & _ & _ & _ & _ & _ & _ & H1 & H2 & _). pose proof (hour_date us) as HD. unfold ri_getInterval in H.
  assert (HE : (HOUR | dateOnly us + DAY)) by (apply (hour_add _ 24); exact HD).
  assert (H24 : 24 * HOUR = DAY) by reflexivity.
  destruct (hasIntervalOnDate r us) as [h|e]; [|discriminate H]. cbn [rbind] in H. destruct h; cbn [negb] in H.
  - set (D := dateOnly us) in *.
    assert (A1 : (HOUR | D + ri_startHour r * HOUR)) by (apply hour_add; exact HD). assert (A2 : (HOUR | D + ri_endHour r * HOUR)) by (apply hour_add; exact HD).
    destruct (us <? _); [|destruct (_ <? us)].
    all: match type of H with rbind (iv_new ?a ?b) _ = _ => destruct (iv_new a b) as [j|e] eqn:E; [|discriminate H] end; cbn [rbind] in H; injection H as <- <-; apply new_inv in E; destruct E as [-> E]; unfold Bd; cbn [iv_start iv_end iv_valid]; unfold HOUR, DAY in *; (split; [reflexivity|]); (split; [|lia]); (split; [lia|]); (split; [lia|]); auto.
  - destruct (iv_new (dateOnly us) (dateOnly us + 24 * HOUR)) as [j|e] eqn:E; [|discriminate H]. cbn [rbind] in H. injection H as <- <-. apply new_inv in E. destruct E as [-> E].
    unfold Bd. cbn [iv_start iv_end iv_valid]. rewrite H24 in *. split; [reflexivity|]. split; [|lia]. split; [lia|]. split; [lia|]. auto.
Qed.
Lemma intersect_bd : forall D i j k, Bd D i -> Bd D j -> iv_intersectWith i j = Ok k -> iv_valid k = true /\ Bd D k.
Proof.
  intros D [s e v] [s' e' v'] k (A1 & A2 & A3 & A4) (B1 & B2 & B3 & B4). cbn [iv_start iv_end] in *. unfold iv_intersectWith, iv_isEmpty. cbn [iv_start iv_end iv_valid].
  destruct v; [|discriminate]. destruct v'; [|discriminate]. cbn [negb rbind]. unfold Bd.
  destruct ((s =? e) || (s' =? e')) eqn:E1; [intros [= <-]; cbn [iv_start iv_end iv_valid]; split; [reflexivity|]; split; [lia|]; split; [lia|auto]|].
  destruct ((e' <=? s) || (e <=? s')) eqn:E2; [intros [= <-]; cbn [iv_start iv_end iv_valid]; split; [reflexivity|]; split; [lia|]; split; [lia|auto]|].
  intros [= <-]. cbn [iv_start iv_end iv_valid]. split; [reflexivity|]. destruct (s <=? s') eqn:E3, (e' <? e) eqn:E4; (split; [lia|]); (split; [lia|]); auto.
Qed.
Definition Bpos (D : Z) (i : iv) : Prop := i = iv_default true \/ iv_valid i = true /\ Bd D i.
Lemma union_bd : forall D i j k, Bpos D i -> iv_valid j = true -> Bd D j -> iv_unionWith i j = Ok k -> Bpos D k.
Proof.
  intros D i [s' e' v'] k P V' (B1 & B2 & B3 & B4). cbn [iv_start iv_end iv_valid] in *. subst v'. destruct P as [-> |[V (A1 & A2 & A3 & A4)]].
  - unfold iv_unionWith, iv_isEmpty, iv_default. cbn [iv_start iv_end iv_valid negb rbind]. rewrite Z.eqb_refl. cbn [iv_start iv_end iv_valid]. intros H. injection H as <-. right. split; [reflexivity|]. unfold Bd. cbn [iv_start iv_end]. auto.
  - destruct i as [s e v]. cbn [iv_start iv_end iv_valid] in *. subst v. unfold iv_unionWith, iv_isEmpty. cbn [iv_start iv_end iv_valid negb rbind]. unfold Bpos, Bd.
    destruct (s =? e) eqn:E1; [intros [= <-]; right; cbn [iv_start iv_end iv_valid]; auto|].
    destruct (s' =? e') eqn:E2; [intros [= <-]; right; cbn [iv_start iv_end iv_valid]; auto|].
    destruct (_ || _); [discriminate|]. intros [= <-]. right. cbn [iv_start iv_end iv_valid]. split; [reflexivity|].
    destruct (s' <? s) eqn:E3, (e <? e') eqn:E4; (split; [lia|]); (split; [lia|]); auto.
Qed.
Definition Bneg (D : Z) (i : iv) : Prop := iv_valid i = false \/ iv_valid i = true /\ Bd D i.
Lemma calc_bd : forall us l pos neg p n, Forall made l -> Bpos (dateOnly us) pos -> Bneg (dateOnly us) neg ->
  calculateIntervalResult l us pos neg = Ok (p, n) -> Bpos (dateOnly us) p /\ Bneg (dateOnly us) n.
Proof.
  induction l as [|r l IH]; intros pos neg p n M P N H; cbn [calculateIntervalResult] in H; [injection H as <- <-; auto|].
  inversion M as [|? ? M1 M2]; subst. destruct (ri_getInterval r us) as [[isP temp]|e] eqn:E; [|discriminate H]. cbn [rbind] in H.
  destruct (getInterval_bd r us isP temp M1 E) as (V & B & _). destruct isP.
  - destruct (iv_unionWith pos temp) as [pos'|e] eqn:Eu; [|discriminate H]. cbn [rbind] in H. eapply IH; [exact M2| |exact N|exact H]. exact (union_bd _ _ _ _ P V B Eu).
  - destruct (iv_valid neg) eqn:Vn; cbn [negb] in H.
    + destruct (iv_intersectWith neg temp) as [neg'|e] eqn:Ei; [|discriminate H]. cbn [rbind] in H. eapply IH; [exact M2|exact P| |exact H]. destruct N as [N|[_ N]]; [congruence|]. right. exact (intersect_bd _ _ _ _ N B Ei).
    + eapply IH; [exact M2|exact P| |exact H]. right. auto.
Qed.
Lemma empty_def : forall i b, iv_isEmpty i = Ok b -> iv_valid i = true.
Proof. intros i b. unfold iv_isEmpty. destruct (iv_valid i); [reflexivity|discriminate]. Qed.
Lemma pos_nonempty : forall D i, Bpos D i -> iv_isEmpty i = Ok false -> iv_valid i = true /\ Bd D i.
Proof. intros D i [-> |H] E; [|exact H]. unfold iv_isEmpty, iv_default in E. cbn [iv_valid negb iv_start iv_end] in E. rewrite Z.eqb_refl in E. discriminate E. Qed.
Lemma cover_bd : forall s us p i, Forall made (sc_white s) -> Forall made (sc_black s) -> sc_getCoveringInterval s us = Ok (p, i) -> iv_valid i = true /\ Bd (dateOnly us) i.
Proof.
  intros s us p i MW MB H. unfold sc_getCoveringInterval in H.
  assert (P0 : Bpos (dateOnly us) (iv_default true)) by (left; reflexivity). assert (N0 : Bneg (dateOnly us) (iv_default false)) by (left; reflexivity).
  destruct (calculateIntervalResult (sc_black s) us _ _) as [[bp bn]|e] eqn:Eb; [|discriminate H]. cbn [rbind] in H. destruct (calc_bd _ _ _ _ _ _ MB P0 N0 Eb) as [Pb Nb].
  destruct (iv_isEmpty bp) as [be|e] eqn:Ee; [|discriminate H]. cbn [rbind] in H. destruct be; cbn [negb] in H.
  2: { injection H as <- <-. apply pos_nonempty; assumption. }
  destruct (calculateIntervalResult (sc_white s) us _ _) as [[wp wn]|e] eqn:Ew; [|discriminate H]. cbn [rbind] in H. destruct (calc_bd _ _ _ _ _ _ MW P0 N0 Ew) as [Pw Nw].
  destruct (iv_isEmpty wp) as [we|e] eqn:Ee'; [|discriminate H]. cbn [rbind] in H. destruct we; cbn [negb andb] in H.
  - destruct Nw as [Nw|[Vw Bw]].
    + rewrite Nw in H. cbn [negb] in H. destruct (iv_new (dateOnly us) (dateOnly us + DAY)) as [j|e] eqn:E; [|discriminate H]. cbn [rbind] in H. injection H as <- <-. apply new_inv in E. destruct E as [-> E].
      pose proof (hour_date us) as HD. assert (HE : (HOUR | dateOnly us + DAY)) by (apply (hour_add _ 24); exact HD). unfold Bd. cbn [iv_start iv_end iv_valid]. split; [reflexivity|]. split; [lia|]. split; [lia|auto].
    + rewrite Vw in H. cbn [negb] in H. injection H as <- <-. auto.
  - destruct (pos_nonempty _ _ Pw Ee') as [Vp Bp]. destruct (iv_valid bn) eqn:Vb.
    + destruct (iv_intersectWith wp bn) as [j|e] eqn:Ei; [|discriminate H]. cbn [rbind] in H. injection H as <- <-. destruct Nb as [Nb|[_ Nb]]; [congruence|]. eapply intersect_bd; [exact Bp|exact Nb|exact Ei].
    + injection H as <- <-. auto.
Qed.

(** ** Facts about the group *)
Definition stored (g : group) : Prop := forall n s, g_sched g n = Some s -> storable s /\ n <> [].
Lemma storable_made : forall s, storable s -> Forall made (sc_white s) /\ Forall made (sc_black s).
Proof.
  intros s (ops & -> & H & _). pose proof (C39_sets ops) as Sets. split; apply Forall_forall; intros r Hr; apply H; [left|right]; apply Sets; exact Hr.
Qed.
Lemma get_sched : forall d g n s, rep d g -> g_sched g n = Some s -> getSchedule d n = Ok s.
Proof. intros d g n s R H. destruct (row_of d g R n s H) as (r & _ & _ & D & F). unfold getSchedule. rewrite F, D. reflexivity. Qed.
Definition holds (g : group) (kn : name) (k : bytes) : Prop := exists i sn, g_member g i = Some (sn, kn, k).
Lemma holds_fun : forall d g kn k k', rep d g -> holds g kn k -> holds g kn k' -> k = k' /\ fits kn.
Proof.
  intros d g kn k k' R (i & sn & H) (i' & sn' & H'). pose proof (proj1 (r_member d g R _ _ _ _) H) as (_ & _ & _ & _ & _ & _ & (F & _ & E & _)). pose proof (proj1 (r_member d g R _ _ _ _) H') as (_ & _ & _ & _ & _ & _ & (_ & _ & E' & _)).
  subst i i'. split; [congruence|exact F].
Qed.
Lemma name_valid : forall n, name_ok n -> Forall c_valid n.
Proof. intros n H. eapply Forall_impl; [|exact H]. intros a Ha. apply Ha. Qed.
Lemma neq_eq : forall a b, fits a -> fits b -> (n_equals a b = true <-> a = b).
Proof. intros a b [A _] [B _]. apply C09_compare_zero_iff_equals; apply name_valid; assumption. Qed.
Notation Dom := (dom (V := bytes) fits).

Lemma dset_more : forall d g (acc : dict name bytes) kn k, rep d g -> Dom acc -> (forall x y, dget n_equals acc x = Some y -> fits x -> holds g x y) -> holds g kn k ->
  Dom (dset n_equals acc kn k) /\ forall x y, fits x -> (dget n_equals (dset n_equals acc kn k) x = Some y <-> dget n_equals acc x = Some y \/ (x, y) = (kn, k)).
Proof.
  intros d g acc kn k R Da Ha Hk. destruct (holds_fun d g kn k k R Hk Hk) as [_ Fk]. split; [apply dset_dom; assumption|]. intros x y Fx.
  rewrite (dset_get _ _ neq_eq) by assumption. destruct (eqb_case _ _ neq_eq kn x Fk Fx) as [[-> E]|[Ne E]]; rewrite E.
  - split; [intros [= <-]; right; reflexivity|]. intros [H|H]; [|congruence]. f_equal. apply (holds_fun d g x k y R Hk). apply Ha; assumption.
  - split; [intros H; left; exact H|intros [H|H]; [exact H|congruence]].
Qed.
Lemma memberDict_ok : forall d g l acc, rep d g -> (forall m, In m l -> In m (db_mem d)) -> Dom acc -> uniq acc ->
  (forall x y, dget n_equals acc x = Some y -> fits x -> holds g x y) ->
  exists M, memberDict l acc = Ok M /\ Dom M /\ uniq M /\ forall x y, fits x -> (dget n_equals M x = Some y <-> dget n_equals acc x = Some y \/ exists m i, In m l /\ mem_of m i x y).
Proof.
  intros d g l. induction l as [|m l IH]; intros acc R Sub Da Ua Ha; cbn [memberDict].
  - exists acc. split; [reflexivity|]. split; [exact Da|]. split; [exact Ua|]. intros x y Fx. split; [auto|]. intros [H|(m & i & [] & _)]. exact H.
  - destruct (r_mems d g R m (Sub m (or_introl eq_refl))) as ((i & kn & k & M) & r & Ir & Er).
    assert (Hk : holds g kn k) by (exists i, (s_name r); apply (r_member d g R); exists m, r; split; [apply Sub; left; reflexivity|auto]).
    pose proof M as (Fk & Fi & _ & _ & Ek & Ep). rewrite Ek. rewrite (proj2 (C08_name_round_trip kn (proj1 Fk) (proj2 Fk))). rewrite Ep.
    destruct (dset_more d g acc kn k R Da Ha Hk) as [Dd Dg].
    destruct (IH (dset n_equals acc kn k) R (fun m' H => Sub m' (or_intror H)) Dd (dset_uniq _ _ neq_eq _ _ _ Da Fk Ua)) as (Mx & E & D1 & U1 & G1).
    { intros x y H Fx. apply Dg in H; [|exact Fx]. destruct H as [H|H]; [apply Ha; assumption|]. injection H as -> ->. exact Hk. }
    exists Mx. split; [exact E|]. split; [exact D1|]. split; [exact U1|]. intros x y Fx. rewrite G1 by exact Fx. rewrite Dg by exact Fx. split.
    + intros [[H|H]|(m' & i' & I' & H)]; [left; exact H| |right; exists m', i'; split; [right; exact I'|exact H]]. injection H as -> ->. right. exists m, i. split; [left; reflexivity|exact M].
    + intros [H|(m' & i' & [<-|I'] & H)]; [left; left; exact H| |right; exists m', i'; auto]. left. right. destruct (mem_fun _ _ _ _ _ _ _ M H) as (_ & -> & ->). reflexivity.
Qed.
Lemma addAll_ok : forall d g M acc, rep d g -> Dom M -> Dom acc -> uniq acc -> (forall x y, In (x, y) M -> holds g x y) ->
  (forall x y, dget n_equals acc x = Some y -> fits x -> holds g x y) ->
  Dom (addAll acc M) /\ uniq (addAll acc M) /\ forall x y, fits x -> (dget n_equals (addAll acc M) x = Some y <-> dget n_equals acc x = Some y \/ In (x, y) M).
Proof.
  intros d g. unfold addAll. induction M as [|[kn k] M IH]; intros acc R DM Da Ua HM Ha; cbn [fold_left fst snd].
  - split; [exact Da|]. split; [exact Ua|]. intros x y _. cbn [In]. tauto.
  - inversion DM as [|? ? D1 D2]; subst. cbn [fst] in D1. assert (Hk : holds g kn k) by (apply HM; left; reflexivity).
    destruct (dset_more d g acc kn k R Da Ha Hk) as [Dd Dg].
    destruct (IH (dset n_equals acc kn k) R D2 Dd (dset_uniq _ _ neq_eq _ _ _ Da D1 Ua) (fun x y H => HM x y (or_intror H))) as (A & B & C).
    { intros x y H Fx. apply Dg in H; [|exact Fx]. destruct H as [H|H]; [apply Ha; assumption|]. injection H as -> ->. exact Hk. }
    split; [exact A|]. split; [exact B|]. intros x y Fx. rewrite C by exact Fx. rewrite Dg by exact Fx. cbn [In]. intuition congruence.
Qed.

Section Loop.
Variable orderS : Z -> list srow -> list srow.
Variable orderM : Z -> list mrow -> list mrow.
Hypothesis permS : forall q l, Permutation (orderS q l) l.
Hypothesis permM : forall q l, Permutation (orderM q l) l.

Lemma members_ok : forall d g n q, rep d g -> exists M, getScheduleMembers orderM d n q = Ok M /\ Dom M /\ uniq M /\
  forall x y, fits x -> (dget n_equals M x = Some y <-> exists i, g_member g i = Some (n, x, y)).
Proof.
  intros d g n q R. unfold getScheduleMembers. set (l := filter _ _).
  destruct (memberDict_ok d g l [] R) as (M & E & D & U & G).
  - intros m H. unfold l in H. apply filter_In in H. apply (Permutation_in _ (permM q (db_mem d))). apply H.
  - constructor. - constructor. - intros x y H. discriminate H.
  - exists M. split; [exact E|]. split; [exact D|]. split; [exact U|]. intros x y Fx. rewrite G by exact Fx. split.
    + intros [H|(m & i & I & H)]; [discriminate H|]. exists i. apply (r_member d g R). unfold l in I. apply filter_In in I. destruct I as [I K]. apply existsb_exists in K. destruct K as (r & Ir & K).
      apply andb_true_iff in K. destruct K as [K1 K2]. apply s_is_iff in K1. apply Z.eqb_eq in K2. exists m, r. split; [apply (Permutation_in _ (permM q (db_mem d))); exact I|auto].
    + intros (i & H). right. apply (r_member d g R) in H. destruct H as (m & r & Im & Ir & Er & En & X). exists m, i. split; [|exact X]. unfold l. apply filter_In. split; [apply (Permutation_in _ (Permutation_sym (permM q (db_mem d)))); exact Im|].
      apply existsb_exists. exists r. split; [exact Ir|]. apply andb_true_iff. split; [apply s_is_iff; exact En|apply Z.eqb_eq; exact Er].
Qed.

(** The state of the loop after the schedules [done] *)
Definition one_side (g : group) (us : Z) (b : bool) (done : list str) (i : iv) : Prop :=
  iv_valid i = false /\ (forall n s, In n done -> g_sched g n = Some s -> ~ (if b then allowed s us else ~ allowed s us)) \/
  iv_valid i = true /\ Bd (dateOnly us) i /\ inside_us i us /\ (exists n s, In n done /\ g_sched g n = Some s /\ if b then allowed s us else ~ allowed s us) /\
  forall n s t, In n done -> g_sched g n = Some s -> (if b then allowed s us else ~ allowed s us) -> inside_us i t -> if b then allowed s t else ~ allowed s t.
Definition key_side (g : group) (us : Z) (done : list str) (keys : dict name bytes) : Prop :=
  Dom keys /\ uniq keys /\ forall x y, fits x -> (dget n_equals keys x = Some y <-> exists n i s, In n done /\ g_member g i = Some (n, x, y) /\ g_sched g n = Some s /\ allowed s us).

Lemma proper_in : forall i us, iv_valid i = true -> inside_us i us -> proper i.
Proof. intros i us V [A B]. split; [exact V|lia]. Qed.
Lemma side_step : forall g us b done i n s temp, one_side g us b done i -> g_sched g n = Some s -> (if b then allowed s us else ~ allowed s us) ->
  iv_valid temp = true -> Bd (dateOnly us) temp -> inside_us temp us -> (forall t, inside_us temp t -> if b then allowed s t else ~ allowed s t) ->
  exists i', iv_intersectWith (if negb (iv_valid i) then temp else i) temp = Ok i' /\ one_side g us b (done ++ [n]) i'.
Proof.
  intros g us b done i n s temp I Hs A V B In1 Al. set (j := if negb (iv_valid i) then temp else i).
  assert (J : iv_valid j = true /\ Bd (dateOnly us) j /\ inside_us j us /\ forall n s t, In n done -> g_sched g n = Some s -> (if b then allowed s us else ~ allowed s us) -> inside_us j t -> if b then allowed s t else ~ allowed s t).
  { unfold j. destruct I as [[V' N]|(V' & B' & I' & _ & F')]; rewrite V'; cbn [negb]; [|auto]. split; [exact V|]. split; [exact B|]. split; [exact In1|]. intros n' s' t Hn Hs' Ha. elim (N n' s' Hn Hs'). exact Ha. }
  destruct J as (Vj & Bj & Ij & Fj). destruct (C37_intersect j temp (proper_in j us Vj Ij) (proper_in temp us V In1)) as (k & E & P & K).
  exists k. split; [exact E|]. right. destruct (intersect_bd _ _ _ _ Bj B E) as [Vk Bk]. split; [exact Vk|]. split; [exact Bk|].
  assert (Ku : forall t, inside_us k t <-> inside_us j t /\ inside_us temp t) by (intros t; rewrite !inside_us_ms; apply K).
  split; [apply Ku; auto|]. split; [exists n, s; split; [apply in_app_iff; right; left; reflexivity|auto]|].
  intros n' s' t Hn Hs' Ha Ht. apply Ku in Ht. apply in_app_iff in Hn. destruct Hn as [Hn|[<-|[]]].
  - exact (Fj n' s' t Hn Hs' Ha (proj1 Ht)).
  - assert (s' = s) by congruence. subst s'. apply Al. apply Ht.
Qed.
Lemma side_skip : forall g us b done i n s, one_side g us b done i -> g_sched g n = Some s -> ~ (if b then allowed s us else ~ allowed s us) -> one_side g us b (done ++ [n]) i.
Proof.
  intros g us b done i n s I Hs A. destruct I as [[V N]|(V & B & I & (n0 & s0 & X) & F)]; [left|right]; (split; [exact V|]).
  - intros n' s' Hn Hs'. apply in_app_iff in Hn. destruct Hn as [Hn|[<-|[]]]; [exact (N n' s' Hn Hs')|]. assert (s' = s) by congruence. subst s'. exact A.
  - split; [exact B|]. split; [exact I|]. split; [exists n0, s0; split; [apply in_app_iff; left; apply X|apply X]|]. intros n' s' t Hn Hs' Ha. apply in_app_iff in Hn. destruct Hn as [Hn|[<-|[]]]; [exact (F n' s' t Hn Hs' Ha)|]. assert (s' = s) by congruence. subst s'. contradiction.
Qed.

Lemma calcLoop_ok : forall d g us q, rep d g -> stored g -> good_slot g us -> forall names done pos neg keys,
  (forall n, In n names -> exists s, g_sched g n = Some s) -> one_side g us true done pos -> one_side g us false done neg -> key_side g us done keys ->
  exists pos' neg' keys', calcLoop orderM d q us names pos neg keys = Ok (pos', neg', keys') /\
    one_side g us true (done ++ names) pos' /\ one_side g us false (done ++ names) neg' /\ key_side g us (done ++ names) keys'.
Proof.
  intros d g us q R St [NL Good]. induction names as [|n names IH]; intros done pos neg keys Hn P N K; cbn [calcLoop].
  - exists pos, neg, keys. rewrite app_nil_r. auto.
  - destruct (Hn n (or_introl eq_refl)) as (s & Hs). rewrite (get_sched d g n s R Hs). cbn [rbind]. destruct (Good n s Hs) as (UW & UB & NC).
    destruct (C39_access s us UW UB NL NC) as (b & temp & E & In1 & A1 & A2 & A3). rewrite E. cbn [rbind].
    destruct (storable_made s (proj1 (St n s Hs))) as [MW MB]. destruct (cover_bd s us b temp MW MB E) as [V B].
    replace (done ++ n :: names) with ((done ++ [n]) ++ names) by (rewrite <- app_assoc; reflexivity).
    assert (Hn' : forall n, In n names -> exists s, g_sched g n = Some s) by (intros n' H; apply Hn; right; exact H).
    destruct b.
    + assert (Al : allowed s us) by (apply A1; reflexivity). destruct (side_step g us true done pos n s temp P Hs Al V B In1 (A2 eq_refl)) as (pos' & Ep & P'). rewrite Ep. cbn [rbind].
      destruct (members_ok d g n q R) as (M & EM & DM & UM & GM). rewrite EM. cbn [rbind].
      apply IH; [exact Hn'|exact P'|apply (side_skip g us false done neg n s N Hs); tauto|].
      destruct K as (DK & UK & GK).
      assert (Hk : forall x y, dget n_equals keys x = Some y -> fits x -> holds g x y) by (intros x y H Fx; apply GK in H; [|exact Fx]; destruct H as (n0 & i0 & s0 & _ & H & _); exists i0, n0; exact H).
      assert (HM : forall x y, In (x, y) M -> holds g x y).
      { intros x y H. pose proof (in_dget _ _ neq_eq M x y DM UM H) as H'. apply GM in H'; [destruct H' as (i & H'); exists i, n; exact H'|]. unfold dom in DM. rewrite Forall_forall in DM. apply (DM (x, y) H). }
      destruct (addAll_ok d g M keys R DM DK UK HM Hk) as (D1 & U1 & G1). split; [exact D1|]. split; [exact U1|]. intros x y Fx. rewrite G1 by exact Fx. rewrite GK by exact Fx. split.
      * intros [(n0 & i0 & s0 & H0 & H1)|H]; [exists n0, i0, s0; split; [apply in_app_iff; left; exact H0|exact H1]|].
        apply (in_dget _ _ neq_eq M x y DM UM) in H. apply GM in H; [|exact Fx]. destruct H as (i & H). exists n, i, s. split; [apply in_app_iff; right; left; reflexivity|auto].
      * intros (n0 & i0 & s0 & H0 & H1 & H2 & H3). apply in_app_iff in H0. destruct H0 as [H0|[<-|[]]]; [left; exists n0, i0, s0; auto|]. right. apply (dget_in _ _ neq_eq M x y DM Fx). apply GM; [exact Fx|]. exists i0. exact H1.
    + assert (Al : ~ allowed s us) by (intros H; apply A1 in H; discriminate H). destruct (side_step g us false done neg n s temp N Hs Al V B In1 (A3 eq_refl)) as (neg' & Ep & N'). rewrite Ep. cbn [rbind].
      apply IH; [exact Hn'|apply (side_skip g us true done pos n s P Hs); exact Al|exact N'|].
      destruct K as (DK & UK & GK). split; [exact DK|]. split; [exact UK|]. intros x y Fx. rewrite GK by exact Fx. split; intros (n0 & i0 & s0 & H0 & H1 & H2 & H3).
      * exists n0, i0, s0. split; [apply in_app_iff; left; exact H0|auto].
      * apply in_app_iff in H0. destruct H0 as [H0|[<-|[]]]; [exists n0, i0, s0; auto|]. assert (s0 = s) by congruence. subst s0. contradiction.
Qed.

(** at any time slot *)
Lemma calcLoop_bd : forall d g us q, rep d g -> stored g -> forall names pos neg keys pos' neg' keys', Bneg (dateOnly us) pos -> Bneg (dateOnly us) neg ->
  calcLoop orderM d q us names pos neg keys = Ok (pos', neg', keys') -> Bneg (dateOnly us) pos' /\ Bneg (dateOnly us) neg'.
Proof.
  intros d g us q R St. induction names as [|n names IH]; intros pos neg keys pos' neg' keys' P N H; cbn [calcLoop] in H; [injection H as <- <- _; auto|].
  destruct (getSchedule d n) as [s|e] eqn:Es; [|discriminate H]. cbn [rbind] in H. destruct (sc_getCoveringInterval s us) as [[b temp]|e] eqn:E; [|discriminate H]. cbn [rbind] in H.
  assert (Hs : g_sched g n = Some s).
  { unfold getSchedule in Es. destruct (find (s_is n) (db_sched d)) as [r|] eqn:F; [|discriminate Es]. apply find_some in F. destruct F as [I F]. apply s_is_iff in F. apply (r_sched d g R). exists r. split; [exact I|]. split; [exact F|]. destruct (sc_wireDecode (s_blob r)); [congruence|discriminate Es]. }
  destruct (storable_made s (proj1 (St n s Hs))) as [MW MB]. destruct (cover_bd s us b temp MW MB E) as [V B].
  assert (Step : forall i i', Bneg (dateOnly us) i -> iv_intersectWith (if negb (iv_valid i) then temp else i) temp = Ok i' -> Bneg (dateOnly us) i').
  { intros i i' Hi X. right. apply (intersect_bd _ _ _ _) with (3 := X); [|exact B]. destruct Hi as [Vi|[Vi Bi]]; rewrite Vi; cbn [negb]; assumption. }
  destruct b.
  - destruct (iv_intersectWith (if negb (iv_valid pos) then temp else pos) temp) as [p1|e] eqn:Ep; [|discriminate H]. cbn [rbind] in H. destruct (getScheduleMembers orderM d n q) as [m|e]; [|discriminate H]. cbn [rbind] in H. exact (IH _ _ _ _ _ _ (Step _ _ P Ep) N H).
  - destruct (iv_intersectWith (if negb (iv_valid neg) then temp else neg) temp) as [n1|e] eqn:Ep; [|discriminate H]. cbn [rbind] in H. exact (IH _ _ _ _ _ _ P (Step _ _ N Ep) H).
Qed.
Lemma calc_any : forall d g us q i keys, rep d g -> stored g -> calculateInterval orderS orderM d q us = Ok (i, keys) -> iv_valid i = true -> Bd (dateOnly us) i.
Proof.
  intros d g us q i keys R St H V. unfold calculateInterval in H. destruct (calcLoop orderM d q us _ _ _ _) as [[[pos neg] ks]|e] eqn:E; [|discriminate H]. cbn [rbind] in H.
  assert (B0 : Bneg (dateOnly us) (iv_default false)) by (left; reflexivity).
  destruct (calcLoop_bd d g us q R St _ _ _ _ _ _ _ B0 B0 E) as [P N].
  destruct P as [P|[P BP]]; rewrite P in H; cbn [negb] in H; [injection H as <- _; discriminate V|].
  destruct N as [N|[N BN]]; rewrite N in H; [injection H as <- _; exact BP|].
  destruct (iv_intersectWith pos neg) as [k|e] eqn:Ei; [|discriminate H]. cbn [rbind] in H. injection H as <- _. eapply intersect_bd; [exact BP|exact BN|exact Ei].
Qed.

Lemma calc_ok : forall d g us q, rep d g -> stored g -> good_slot g us -> exists i keys, calculateInterval orderS orderM d q us = Ok (i, keys) /\
  Dom keys /\ uniq keys /\ (forall x y, fits x -> (dget n_equals keys x = Some y <-> entitled g us x y)) /\
  (iv_valid i = false /\ (forall n s, g_sched g n = Some s -> ~ allowed s us) \/
   iv_valid i = true /\ Bd (dateOnly us) i /\ slot_interval g us (iv_start i) (iv_end i) /\ exists n s, g_sched g n = Some s /\ allowed s us).
Proof.
  intros d g us q R St G. unfold calculateInterval. set (names := listAllScheduleNames orderS d q).
  assert (Hin : forall n, In n names <-> exists s, g_sched g n = Some s).
  { intros n. unfold names, listAllScheduleNames. rewrite in_map_iff. split.
    - intros (r & En & I). apply (Permutation_in _ (permS q (db_sched d))) in I. destruct (r_rows d g R r I) as (_ & s & D). exists s. apply (r_sched d g R). exists r. auto.
    - intros (s & H). apply (r_sched d g R) in H. destruct H as (r & I & En & _). exists r. split; [exact En|]. apply (Permutation_in _ (Permutation_sym (permS q (db_sched d)))). exact I. }
  destruct (calcLoop_ok d g us q R St G names [] (iv_default false) (iv_default false) []) as (pos & neg & keys & E & P & N & (DK & UK & GK)).
  - intros n H. apply Hin. exact H.
  - left. split; [reflexivity|]. intros n s [].
  - left. split; [reflexivity|]. intros n s [].
  - split; [constructor|]. split; [constructor|]. intros x y _. split; [discriminate|intros (n & i & s & [] & _)].
  - rewrite E. cbn [rbind app] in *.
    assert (Ent : forall x y, fits x -> (dget n_equals keys x = Some y <-> entitled g us x y)).
    { intros x y Fx. rewrite GK by exact Fx. split; [intros (n & i & s & _ & H); exists i, n, s; exact H|]. intros (i & n & s & H1 & H2 & H3). exists n, i, s. split; [apply Hin; exists s; exact H2|auto]. }
    assert (Dec : forall n s, g_sched g n = Some s -> allowed s us \/ ~ allowed s us).
    { intros n s H. destruct G as [NL Good]. destruct (Good n s H) as (UW & UB & NC). destruct (C39_access s us UW UB NL NC) as (b & temp & _ & _ & A1 & _).
      destruct b; [left; apply A1; reflexivity|right; intros X; apply A1 in X; discriminate X]. }
    assert (All : forall n s, g_sched g n = Some s -> In n names) by (intros n s H; apply Hin; exists s; exact H).
    destruct P as [[V P]|(V & B & I & (n0 & s0 & X & Hs0 & Al0) & F)]; rewrite V; cbn [negb].
    + eexists _, keys. split; [reflexivity|]. split; [exact DK|]. split; [exact UK|]. split; [exact Ent|]. left. split; [reflexivity|]. intros n s H. apply (P n s); [apply (All n s H)|exact H].
    + destruct N as [[V' N]|(V' & B' & I' & _ & F')]; rewrite V'.
      * eexists _, keys. split; [reflexivity|]. split; [exact DK|]. split; [exact UK|]. split; [exact Ent|]. right. split; [exact V|]. split; [exact B|]. split; [|exists n0, s0; auto]. split; [exact I|].
        intros n s t H Ht. destruct (Dec n s H) as [Al|Al]; [|elim (N n s (All n s H) H Al)]. split; [intros _; exact Al|intros _; exact (F n s t (All n s H) H Al Ht)].
      * destruct (C37_intersect pos neg (proper_in pos us V I) (proper_in neg us V' I')) as (k & Ek & _ & K). rewrite Ek. cbn [rbind]. destruct (intersect_bd _ _ _ _ B B' Ek) as [Vk Bk].
        assert (Ku : forall t, inside_us k t <-> inside_us pos t /\ inside_us neg t) by (intros t; rewrite !inside_us_ms; apply K).
        eexists _, keys. split; [reflexivity|]. split; [exact DK|]. split; [exact UK|]. split; [exact Ent|]. right. split; [exact Vk|]. split; [exact Bk|]. split; [|exists n0, s0; auto]. split; [apply Ku; auto|].
        intros n s t H Ht. apply Ku in Ht. destruct (Dec n s H) as [Al|Al].
        -- split; [intros _; exact Al|intros _; exact (F n s t (All n s H) H Al (proj1 Ht))].
        -- split; [intros Y; elim (F' n s t (All n s H) H Al (proj2 Ht) Y)|contradiction].
Qed.
End Loop.
