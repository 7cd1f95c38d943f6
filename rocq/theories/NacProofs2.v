(** * DecryptorV2: the invariant of requests *)
From Verif Require Import Base BaseLemmas NameModel NameSpec NameProofs DictModel DictProofs CertProofs WireModel CtlModel HierModel PibModel PibSpec PibProps FrontModel FrontProofs5 BagModel ChainModel CmdProps NacModel NacSpec NacProofs.

Lemma requests_app : forall a b, requests (a ++ b) = requests a ++ requests b.
Proof. induction a as [|o a IH]; intros b; [reflexivity|]. destruct o; cbn [app requests]; rewrite IH; reflexivity. Qed.
Lemma ids_app : forall a b, ids (a ++ b) = ids a ++ ids b. Proof. intros a b. unfold ids. apply flat_map_app. Qed.
Lemma answers_app : forall a b, answers (a ++ b) = answers a ++ answers b.
Proof. induction a as [|o a IH]; intros b; [reflexivity|]. destruct o; cbn [app answers]; rewrite IH; reflexivity. Qed.
Lemma asks_app : forall a b k, asks (a ++ b) k = asks a k ++ asks b k. Proof. intros. unfold asks. rewrite requests_app, filter_app. reflexivity. Qed.
Lemma asks_in : forall l k q, In q (asks l k) <-> In q (requests l) /\ usable (snd q) = true /\ ck_of (snd q) = k.
Proof. intros l k q. unfold asks, wants. rewrite filter_In, Bool.andb_true_iff. destruct (name_dec (ck_of (snd q)) k); split; intros (A & B & C); auto; try discriminate C; contradiction. Qed.
Lemma nodup_app_l : forall A (a b : list A), NoDup (a ++ b) -> NoDup a.
Proof. intros A a b H. induction a as [|x a IH]; [constructor|]. inversion H; subst. constructor; [|auto]. intros I. apply H2. apply in_or_app. auto. Qed.
Lemma nodup_app_disj : forall A (a b : list A) x, NoDup (a ++ b) -> In x a -> In x b -> False.
Proof. intros A a b x H I J. induction a as [|y a IH]; [destruct I|]. inversion H; subst. destruct I as [-> |I]; [apply H2, in_or_app; auto|auto]. Qed.
Lemma nodup_app : forall A (a b : list A), NoDup a -> NoDup b -> (forall x, In x a -> ~ In x b) -> NoDup (a ++ b).
Proof. intros A a b Ha Hb D. induction a as [|x a IH]; [exact Hb|]. inversion Ha; subst. constructor; [|apply IH; auto; intros y Y; apply D; right; exact Y]. intros I. apply in_app_or in I. destruct I as [I|I]; [contradiction|]. exact (D x (or_introl eq_refl) I). Qed.
Lemma proper_app : forall a b, proper (a ++ b) -> proper a.
Proof.
  intros a b (H1 & H2 & H3 & H4). rewrite requests_app, map_app in H1. rewrite ids_app in H2, H3. split; [apply (nodup_app_l _ _ _ H1)|]. split; [apply (nodup_app_l _ _ _ H2)|]. split; [apply Forall_app in H3; apply H3|].
  intros r e I. apply (H4 r e). rewrite requests_app. apply in_or_app. auto.
Qed.
Lemma request_unique : forall l r e e', NoDup (map fst (requests l)) -> In (r, e) (requests l) -> In (r, e') (requests l) -> e = e'.
Proof.
  intros l r e e'. generalize (requests l). induction l0 as [|[r0 e0] l0 IH]; intros N I J; [destruct I|]. cbn in N. inversion N; subst. destruct I as [I|I], J as [J|J].
  - congruence.
  - injection I as -> ->. exfalso. apply H1. apply (in_map fst) in J. exact J.
  - injection J as -> ->. exfalso. apply H1. apply (in_map fst) in I. exact I.
  - auto.
Qed.
Lemma ask_key : forall l r e k k', NoDup (map fst (requests l)) -> In (r, e) (asks l k) -> In r (map fst (asks l k')) -> k = k'.
Proof.
  intros l r e k k' N I J. apply in_map_iff in J. destruct J as ([r' e'] & E & J). cbn in E. subst r'. apply asks_in in I, J. destruct I as (I & _ & <-), J as (J & _ & <-). rewrite (request_unique _ _ _ _ N I J). reflexivity.
Qed.
Lemma nodup_asks : forall l k, NoDup (map fst (requests l)) -> NoDup (map fst (asks l k)).
Proof.
  intros l k. unfold asks. generalize (requests l) as q. induction q as [|x q IH]; intros N; [constructor|]. cbn in N. inversion N; subst. cbn [filter]. destruct (wants k x); [|auto]. cbn. constructor; [|auto]. intros I. apply H1. apply in_map_iff in I. destruct I as (y & <- & I). apply filter_In in I. apply in_map, I.
Qed.
Lemma answered_app : forall a b r, answered (a ++ b) r <-> answered a r \/ answered b r.
Proof. intros a b r. unfold answered. rewrite answers_app. split; [intros [o I]; apply in_app_or in I; destruct I; [left|right]; eauto|intros [[o I]|[o I]]; exists o; apply in_or_app; auto]. Qed.
Lemma failed_app : forall a b r, failed a r \/ failed b r -> failed (a ++ b) r.
Proof. intros a b r [[c I]|[c I]]; exists c; rewrite answers_app; apply in_or_app; auto. Qed.
Lemma failed_answered : forall l r, failed l r -> answered l r. Proof. intros l r [c I]. eexists. exact I. Qed.
Lemma dset_same : forall K V (eqb : K -> K -> bool) (d : dict K V) k v, dget eqb d k = Some v -> dset eqb d k v = d.
Proof. intros K V eqb d k v. induction d as [|[k0 v0] d IH]; cbn [dget dset]; [discriminate|]. destruct (eqb k0 k); [intros [= ->]; reflexivity|]. intros H. rewrite IH by exact H. reflexivity. Qed.

Section N.
Variable P : Type.
Variable psign : Z -> P -> bytes -> bytes.
Variable pverify : bytes -> bytes -> bytes -> res bool.
Variable ktype : bytes -> res Z.
Variable load : bytes -> option bytes -> res P.
Variable ord : list name -> list name.
Variable pdec : P -> bytes -> res bytes.
Variable cbc_inv : bytes -> bytes -> bytes -> res bytes.
Variable credentials : name.
Notation dstate := (dstate P).
Notation do_decrypt := (do_decrypt cbc_inv).
Notation d_step := (d_step P psign pverify ktype load ord pdec cbc_inv credentials).
Notation d_run := (d_run P psign pverify ktype load ord pdec cbc_inv credentials).
Notation done := (done P cbc_inv credentials).

(** The phases of a CK: retrieved, waiting, or given up *)
Definition KI (l : list event) (s : dstate) (k : name) (oc : option ckey) : Prop :=
  match oc with
  | None => asks l k = []
  | Some c =>
      match ck_bits c with
      | Some bits => ck_queue c = [] /\ ck_pending c = 0 /\ asks l k <> [] /\ forall q, In q (asks l k) -> In (fst q, do_decrypt (snd q) bits) (answers (d_out s))
      | None =>
          (exists p, 0 < ck_pending c /\ In (ck_pending c, p) (d_pend s) /\ pend_ck p = k /\ (exists q t, asks l k = q :: t /\ fst q = pend_request p) /\ ck_queue c = asks l k /\ forall q, In q (asks l k) -> ~ answered (d_out s) (fst q)) \/
          (ck_pending c = 0 /\ exists qa qb, asks l k = qa ++ qb /\ qa <> [] /\ (forall q, In q qa -> failed (d_out s) (fst q)) /\ forall q, In q qb -> ~ answered (d_out s) (fst q))
      end
  end.
Record inv (l : list event) (s : dstate) : Prop := {
  i_dom : dom nval (d_keys s);
  i_uniq : uniq (d_keys s);
  i_pend : uniq (d_pend s);
  i_once : NoDup (map fst (answers (d_out s)));
  i_req : forall r, answered (d_out s) r -> In r (map fst (requests l));
  i_bad : forall r e, In (r, e) (requests l) -> usable e = false -> failed (d_out s) r;
  i_ids : forall id p, In (id, p) (d_pend s) -> In id (ids l);
  i_pk : forall id p, In (id, p) (d_pend s) -> nval (pend_ck p) /\ exists c, dget n_equals (d_keys s) (pend_ck p) = Some c /\ ck_pending c = id;
  i_ck : forall k, nval k -> KI l s k (dget n_equals (d_keys s) k) }.

Lemma inv_new : forall c, inv [] (d_new c).
Proof. intros c. constructor; cbn; try (intros; contradiction); try constructor. intros r [o []]. Qed.
(** A step about the CK [k] *)
Lemma touch : forall l o s k c' pend' chain' new, inv l s -> proper (l ++ [o]) -> nval k ->
  (forall k', k' <> k -> asks [o] k' = []) -> (forall r e, In (r, e) (requests [o]) -> usable e = true) ->
  NoDup (map fst (answers new)) -> (forall r, In r (map fst (answers new)) -> In r (map fst (asks (l ++ [o]) k)) /\ ~ answered (d_out s) r) ->
  uniq pend' -> (forall id p, In (id, p) pend' -> (In (id, p) (d_pend s) /\ pend_ck p <> k) \/ (pend_ck p = k /\ id = ck_pending c' /\ In id (ids (l ++ [o])))) -> (forall id p, In (id, p) (d_pend s) -> pend_ck p <> k -> In (id, p) pend') ->
  let s' := DState (dset n_equals (d_keys s) k c') pend' chain' (d_out s ++ new) in KI (l ++ [o]) s' k (Some c') -> inv (l ++ [o]) s'.
Proof.
  intros l o s k c' pend' chain' new I Pr Vk Ao Uo Nn An Up Hp Hp' s' K. pose proof Pr as (Nr & _). constructor; unfold s'; cbn [d_keys d_pend d_chain d_out].
  - apply (dset_dom n_equals nval); [apply I|exact Vk].
  - apply (dset_uniq n_equals nval Heqn); [apply I|exact Vk|apply I].
  - exact Up.
  - rewrite answers_app, map_app. apply nodup_app; [apply I|exact Nn|]. intros r R R'. destruct (An r R') as [_ X]. apply X. apply in_map_iff in R. destruct R as ([r' o'] & <- & R). exists o'. exact R.
  - intros r A. apply answered_app in A. rewrite requests_app, map_app. apply in_or_app. destruct A as [A|[o' A]]; [left; apply (i_req _ _ I _ A)|]. apply (in_map fst) in A. destruct (An _ A) as [B _]. cbn [fst] in B. apply in_map_iff in B. destruct B as (q & <- & B). apply asks_in in B. destruct B as [B _]. rewrite requests_app in B. apply in_app_or in B. destruct B as [B|B]; [left|right]; apply in_map, B.
  - intros r e J U. apply failed_app. left. rewrite requests_app in J. apply in_app_or in J. destruct J as [J|J]; [apply (i_bad _ _ I _ _ J U)|]. rewrite (Uo _ _ J) in U. discriminate U.
  - intros id p J. destruct (Hp _ _ J) as [[J' _]|(_ & _ & J')]; [|exact J']. rewrite ids_app. apply in_or_app. left. apply (i_ids _ _ I _ _ J').
  - intros id p J. destruct (Hp _ _ J) as [[J' N]|(E & -> & _)].
    + destruct (i_pk _ _ I _ _ J') as (V & c & G & E). split; [exact V|]. exists c. split; [|exact E]. rewrite (dset_get n_equals nval Heqn) by (auto; apply I). rewrite equals_dec by auto. destruct (name_dec k (pend_ck p)); [congruence|exact G].
    + rewrite E. split; [exact Vk|]. exists c'. split; [|reflexivity]. apply dget_dset, eq_refl_n.
  - intros k' V'. rewrite (dset_get n_equals nval Heqn) by (auto; apply I). rewrite equals_dec by auto. destruct (name_dec k k') as [<-|Nk]; [exact K|]. pose proof (i_ck _ _ I k' V') as K'.
    assert (Ea : asks (l ++ [o]) k' = asks l k') by (rewrite asks_app, Ao by congruence; apply app_nil_r).
    assert (Fr : forall q, In q (asks l k') -> answered (d_out s ++ new) (fst q) -> answered (d_out s) (fst q)).
    { intros [r e] J A. apply answered_app in A. destruct A as [A|[o' A]]; [exact A|]. exfalso. apply (in_map fst) in A. destruct (An _ A) as [B _]. apply Nk. rewrite <- Ea in J. symmetry. apply (ask_key _ _ _ _ _ Nr J B). }
    unfold KI in *. destruct (dget n_equals (d_keys s) k') as [c|] eqn:Ek; [|rewrite Ea; exact K']. destruct (ck_bits c) as [bits|]; rewrite Ea; cbn [d_out d_pend].
    + destruct K' as (A & B & C & D). split; [exact A|]. split; [exact B|]. split; [exact C|]. intros q J. rewrite answers_app. apply in_or_app. left. apply D, J.
    + destruct K' as [(p & A & B & C & D & E & F)|(A & qa & qb & B & C & D & E)]; [left|right].
      * exists p. split; [exact A|]. split; [apply Hp'; [exact B|congruence]|]. split; [exact C|]. split; [exact D|]. split; [exact E|]. intros q J X. apply (F q J). apply Fr; assumption.
      * split; [exact A|]. exists qa, qb. split; [exact B|]. split; [exact C|]. split; [intros q J; apply failed_app; left; apply D, J|]. intros q J X. apply (E q J). apply Fr; [rewrite B; apply in_or_app; right; exact J|exact X].
Qed.

Lemma in_drop : forall V (d : dict Z V) id i v, uniq d -> (In (i, v) (dremove Z.eqb d id) <-> In (i, v) d /\ i <> id).
Proof.
  intros V d id i v. induction d as [|[j w] d IH]; intros U; cbn [dremove]; [split; [intros []|intros [[] _]]|]. inversion U as [|? ? U1 U2]; subst. destruct (Z.eqb_spec j id) as [-> |N].
  - split; [intros H; split; [right; exact H|intros ->; apply U1; apply (in_map fst) in H; exact H]|]. intros [[H|H] N]; [congruence|exact H].
  - cbn [In]. rewrite (IH U2). split; [intros [H|[H N']]; [injection H as <- <-; auto|auto]|intros [[H|H] N']; auto].
Qed.
Lemma zeq : forall a b : Z, True -> True -> (Z.eqb a b = true <-> a = b). Proof. intros. apply Z.eqb_eq. Qed.
Lemma zdom : forall V (d : dict Z V), dom (fun _ => True) d. Proof. intros V d. apply Forall_forall. intros; exact Logic.I. Qed.
Lemma map_fst_pend : forall A (f : A -> Z) (g : A -> outcome) l, map fst (answers (map (fun q => Answer (f q) (g q)) l)) = map f l.
Proof. intros A f g l. induction l as [|q l IH]; [reflexivity|]. cbn. rewrite IH. reflexivity. Qed.
(** A handler keeps the invariant *)
Lemma done_inv : forall l o s s0 k r x N got (next : pend -> Prop) s' c0 q t, inv l s -> proper (l ++ [o]) -> nval k ->
  (forall k', k' <> k -> asks [o] k' = []) -> (forall r e, In (r, e) (requests [o]) -> usable e = true) ->
  asks (l ++ [o]) k = q :: t -> fst q = r -> (forall q, In q (asks (l ++ [o]) k) -> ~ answered (d_out s) (fst q)) ->
  d_keys s0 = dset n_equals (d_keys s) k c0 -> ck_bits c0 = None -> ck_pending c0 = 0 -> ck_queue c0 = q :: t -> d_out s0 = d_out s ->
  uniq (d_pend s0) -> (forall id p, In (id, p) (d_pend s0) <-> In (id, p) (d_pend s) /\ pend_ck p <> k) ->
  (forall p, next p -> pend_ck p = k /\ pend_request p = r) -> (forall id, x = Some id -> In id (id_of o)) ->
  done s0 k r x N got next s' -> inv (l ++ [o]) s'.
Proof.
  intros l o s s0 k r x N got next s' c0 q t I Pr Vk Ao Uo Ea Er Na Ek Eb Ep Eq Eo Up Hp Hn Hx D. pose proof Pr as (Nr & Ni & Hpos & _).
  assert (Ec : ck P s0 k = c0). { unfold ck. rewrite Ek, dget_dset by apply eq_refl_n. reflexivity. }
  pose proof (nodup_asks _ k Nr) as Nk. rewrite Ea in Nk. cbn in Nk. destruct D as [chain' code G|id p n cp mf chain' Ex Hnp Hs G|bits chain' Hg G]; rewrite ?Ec, ?Eb, ?Ep, ?Eq, ?Eo, ?Ek, ?dset_dset by apply eq_refl_n.
  - apply (touch l o s k c0); auto.
    + cbn. repeat constructor. intros [].
    + intros r' [<-|[]]. rewrite Ea. split; [left; exact Er|]. cbn [fst]. rewrite <- Er. apply Na. rewrite Ea. left. reflexivity.
    + intros id p J. left. apply Hp, J.
    + intros id p J N'. apply Hp. auto.
    + unfold KI. rewrite Eb. right. split; [exact Ep|]. exists [q], t. rewrite Ea. split; [reflexivity|]. split; [discriminate|]. cbn [d_out]. split.
      * intros q' [<-|[]]. apply failed_app. right. exists code. left. rewrite Er. reflexivity.
      * intros q' J A. apply answered_app in A. destruct A as [A|[o' A]]; [apply (Na q'); [rewrite Ea; right; exact J|exact A]|]. destruct A as [A|[]]. injection A as A _. inversion Nk as [|? ? X _]; subst. apply X. rewrite A. apply in_map, J.
  - specialize (Hx _ Ex). destruct (Hn p Hnp) as [Pk Prq]. assert (Hf : ~ In id (dkeys (d_pend s0))).
    { intros J. apply in_map_iff in J. destruct J as ([id' p'] & E & J). cbn in E. subst id'. apply Hp in J. destruct J as [J _]. apply (i_ids _ _ I) in J. rewrite ids_app in Ni. apply (nodup_app_disj _ _ _ id Ni J). unfold ids. cbn. rewrite app_nil_r. exact Hx. }
    assert (Hid : In id (ids (l ++ [o]))). { rewrite ids_app. apply in_or_app. right. unfold ids. cbn. rewrite app_nil_r. exact Hx. }
    apply (touch l o s k); auto.
    + constructor.
    + intros r' [].
    + apply (dset_uniq Z.eqb (fun _ => True) zeq); [apply zdom|exact Logic.I|exact Up].
    + intros id' p' J. rewrite (dset_new Z.eqb (fun _ => True) zeq) in J; [|apply zdom|exact Logic.I|exact Hf]. apply in_app_or in J. destruct J as [J|[J|[]]]; [left; apply Hp, J|]. injection J as <- <-. right. cbn [ck_pending]. auto.
    + intros id' p' J N'. rewrite (dset_new Z.eqb (fun _ => True) zeq); [|apply zdom|exact Logic.I|exact Hf]. apply in_or_app. left. apply Hp. auto.
    + unfold KI. cbn [ck_bits ck_pending ck_queue d_pend d_out]. left. exists p. rewrite Forall_forall in Hpos. split; [apply Hpos, Hid|]. split; [rewrite (dset_new Z.eqb (fun _ => True) zeq); [|apply zdom|exact Logic.I|exact Hf]; apply in_or_app; right; left; reflexivity|]. split; [exact Pk|]. split; [exists q, t; split; [exact Ea|congruence]|]. split; [symmetry; exact Ea|].
      intros q' J A. apply answered_app in A. destruct A as [A|[o' []]]. apply (Na q' J A).
  - apply (touch l o s k); auto.
    + rewrite map_fst_pend. exact Nk.
    + intros r' J. rewrite map_fst_pend in J. rewrite Ea. split; [exact J|]. apply in_map_iff in J. destruct J as (q' & <- & J). apply Na. rewrite Ea. exact J.
    + intros id p J. left. apply Hp, J.
    + intros id p J N'. apply Hp. auto.
    + unfold KI. cbn [ck_bits ck_pending ck_queue d_pend d_out]. split; [reflexivity|]. split; [reflexivity|]. rewrite Ea. split; [discriminate|]. intros q' J. rewrite answers_app. apply in_or_app. right. clear - J. induction (q :: t) as [|a u IH]; [destruct J|]. destruct J as [-> |J]; [left; reflexivity|right; apply IH, J].
Qed.
(** The same step without requests *)
Lemma inv_skip : forall l o s, inv l s -> requests [o] = [] -> inv (l ++ [o]) s.
Proof.
  intros l o s I R. assert (Ea : forall k, asks (l ++ [o]) k = asks l k) by (intros k; rewrite asks_app; unfold asks at 2; rewrite R; apply app_nil_r). assert (Er : requests (l ++ [o]) = requests l) by (rewrite requests_app, R; apply app_nil_r). destruct I as [A B C D E F G H J]. constructor; auto.
  - rewrite Er. exact E.
  - rewrite Er. exact F.
  - intros id p X. rewrite ids_app. apply in_or_app. left. apply (G _ _ X).
  - intros k V. specialize (J k V). unfold KI in *. rewrite Ea. exact J.
Qed.
Lemma step_unusable : forall l r e x s, inv l s -> proper (l ++ [EDecrypt r e x]) -> usable e = false -> inv (l ++ [EDecrypt r e x]) (fst (d_step (EDecrypt r e x) s)).
Proof.
  intros l r e x s I Pr U. destruct (unusable_step P psign pverify ktype load ord pdec cbc_inv credentials r e x s U) as [code E]. rewrite E. cbn [fst]. pose proof Pr as (Nr & _). set (o := EDecrypt r e x) in *.
  assert (Ea : forall k, asks (l ++ [o]) k = asks l k). { intros k. rewrite asks_app. unfold asks at 2, wants. cbn. rewrite U. apply app_nil_r. }
  rewrite requests_app, map_app in Nr. cbn in Nr. assert (Fr : ~ In r (map fst (requests l))) by (intros J; apply (nodup_app_disj _ _ _ r Nr J); left; reflexivity).
  assert (Fa : forall k q, In q (asks l k) -> fst q <> r). { intros k q J X. apply asks_in in J. apply Fr. rewrite <- X. apply in_map, J. }
  destruct I as [A B C D E' F G H J]. constructor; cbn [d_keys d_pend d_chain d_out]; auto.
  - rewrite answers_app, map_app. cbn. apply nodup_app; [exact D|repeat constructor; intros []|]. intros r' R [<-|[]]. apply Fr, E'. apply in_map_iff in R. destruct R as ([r' o'] & <- & R). exists o'. exact R.
  - intros r' X. rewrite requests_app, map_app. apply in_or_app. apply answered_app in X. destruct X as [X|[o' [X|[]]]]; [left; apply E', X|]. right. left. injection X as X _. exact X.
  - intros r' e' X U'. rewrite requests_app in X. apply failed_app. apply in_app_or in X. destruct X as [X|[X|[]]]; [left; apply (F _ _ X U')|]. injection X as <- <-. right. exists code. left. reflexivity.
  - intros id p X. rewrite ids_app. apply in_or_app. left. apply (G _ _ X).
  - intros k V. specialize (J k V). assert (X : forall q, In q (asks l k) -> answered (d_out s ++ [Answer r (Failure code)]) (fst q) -> answered (d_out s) (fst q)). { intros q Y Z. apply answered_app in Z. destruct Z as [Z|[o' [Z|[]]]]; [exact Z|]. injection Z as Z _. exfalso. apply (Fa _ _ Y). auto. }
    unfold KI in *. destruct (dget n_equals (d_keys s) k) as [c|]; rewrite Ea; [|exact J]. cbn [d_out d_pend]. destruct (ck_bits c) as [bits|].
    + destruct J as (J1 & J2 & J3 & J4). split; [exact J1|]. split; [exact J2|]. split; [exact J3|]. intros q Y. rewrite answers_app. apply in_or_app. left. apply J4, Y.
    + destruct J as [(p & J1 & J2 & J3 & J4 & J5 & J6)|(J1 & qa & qb & J2 & J3 & J4 & J5)]; [left|right].
      * exists p. split; [exact J1|]. split; [exact J2|]. split; [exact J3|]. split; [exact J4|]. split; [exact J5|]. intros q Y Z. apply (J6 q Y). apply X; assumption.
      * split; [exact J1|]. exists qa, qb. split; [exact J2|]. split; [exact J3|]. split; [intros q Y; apply failed_app; left; apply J4, Y|]. intros q Y Z. apply (J5 q Y). apply X; [rewrite J2; apply in_or_app; auto|exact Z].
Qed.
Lemma step_usable : forall l r e x s, inv l s -> proper (l ++ [EDecrypt r e x]) -> usable e = true -> inv (l ++ [EDecrypt r e x]) (fst (d_step (EDecrypt r e x) s)).
Proof.
  intros l r e x s I Pr U. pose proof (usable_step P psign pverify ktype load ord pdec cbc_inv credentials r e x s U) as E. cbv zeta in E. set (o := EDecrypt r e x) in *. set (k := ck_of e) in *. pose proof Pr as (Nr & _ & _ & Hv).
  assert (Vk : nval k). { apply (Hv r e). rewrite requests_app. apply in_or_app. right. left. reflexivity. }
  assert (Ao : forall k', k' <> k -> asks [o] k' = []). { intros k' N'. unfold asks, wants. cbn. fold k. destruct (name_dec k k'); [congruence|]. rewrite Bool.andb_false_r. reflexivity. }
  assert (Ek : asks (l ++ [o]) k = asks l k ++ [(r, e)]). { rewrite asks_app. f_equal. unfold asks, wants. cbn. rewrite U. fold k. destruct (name_dec k k); [reflexivity|congruence]. }
  assert (Uo : forall r' e', In (r', e') (requests [o]) -> usable e' = true) by (intros r' e' [J|[]]; injection J as <- <-; exact U).
  assert (Fr : ~ In r (map fst (requests l))). { rewrite requests_app, map_app in Nr. intros J. apply (nodup_app_disj _ _ _ r Nr J). left. reflexivity. }
  assert (Nw : ~ answered (d_out s) r) by (intros A; apply Fr; apply (i_req _ _ I _ A)).
  pose proof (i_ck _ _ I k Vk) as K. destruct (dget n_equals (d_keys s) k) as [c|] eqn:Eg.
  - unfold KI in K. destruct (ck_bits c) as [bits|] eqn:Eb.
    + rewrite E. cbn [fst]. destruct K as (K1 & K2 & K3 & K4). rewrite <- (dset_same _ _ n_equals (d_keys s) k c Eg). apply (touch l o s k c); auto.
      * cbn. repeat constructor. intros [].
      * intros r' [<-|[]]. split; [|exact Nw]. rewrite Ek, map_app. apply in_or_app. right. left. reflexivity.
      * apply I.
      * intros id p J. left. split; [exact J|]. intros Ep. destruct (i_pk _ _ I _ _ J) as (_ & c' & Ec & Ei). rewrite Ep, Eg in Ec. injection Ec as <-. assert (0 < id); [|lia]. destruct (proper_app l [o] Pr) as (_ & _ & Hpos & _). rewrite Forall_forall in Hpos. apply Hpos, (i_ids _ _ I _ _ J).
      * unfold KI. rewrite Eb, Ek. split; [exact K1|]. split; [exact K2|]. split; [destruct (asks l k); discriminate|]. intros q J. cbn [d_out]. rewrite answers_app. apply in_or_app. apply in_app_or in J. destruct J as [J|[<-|[]]]; [left; apply K4, J|right; left; reflexivity].
    + rewrite E. cbn [fst]. rewrite <- (app_nil_r (d_out s)). apply (touch l o s k); auto.
      * constructor.
      * intros r' [].
      * apply I.
      * intros id p J. cbn [ck_pending]. destruct (name_dec (pend_ck p) k) as [Ep|Np]; [|auto]. right. split; [exact Ep|]. destruct (i_pk _ _ I _ _ J) as (_ & c' & Ec & Ei). rewrite Ep, Eg in Ec. injection Ec as <-. split; [auto|]. rewrite ids_app. apply in_or_app. left. apply (i_ids _ _ I _ _ J).
      * rewrite app_nil_r. unfold KI. cbn [ck_bits ck_pending ck_queue d_out d_pend]. rewrite Ek. destruct K as [(p & K1 & K2 & K3 & (q & t & K4 & K5) & K6 & K7)|(K1 & qa & qb & K2 & K3 & K4 & K5)]; [left|right].
        -- exists p. split; [exact K1|]. split; [exact K2|]. split; [exact K3|]. split; [exists q, (t ++ [(r, e)]); rewrite K4; auto|]. split; [rewrite K6; reflexivity|]. intros q' J. apply in_app_or in J. destruct J as [J|[<-|[]]]; [apply K7, J|exact Nw].
        -- split; [exact K1|]. exists qa, (qb ++ [(r, e)]). split; [rewrite K2, app_assoc; reflexivity|]. split; [exact K3|]. split; [exact K4|]. intros q' J. apply in_app_or in J. destruct J as [J|[<-|[]]]; [apply K5, J|exact Nw].
  - destruct E as (s' & E & D). rewrite E. cbn [fst]. unfold KI in K. rewrite K in Ek. cbn [app] in Ek.
    refine (done_inv l o s (DState (dset n_equals (d_keys s) k (CKey None 0 [(r, e)])) (d_pend s) (d_chain s) (d_out s)) k r x _ _ _ s' (CKey None 0 [(r, e)]) (r, e) [] I Pr Vk Ao Uo Ek eq_refl _ eq_refl eq_refl eq_refl eq_refl eq_refl _ _ _ _ D).
    + intros q J. rewrite Ek in J. destruct J as [<-|[]]. exact Nw.
    + cbn [d_pend]. apply I.
    + cbn [d_pend]. intros id p. split; [|intros [J _]; exact J]. intros J. split; [exact J|]. intros Ep. destruct (i_pk _ _ I _ _ J) as (_ & c' & Ec & _). rewrite Ep, Eg in Ec. discriminate Ec.
    + intros p ->. auto.
    + intros id ->. left. reflexivity.
Qed.
Lemma pos_id : forall l s id p, inv l s -> proper l -> In (id, p) (d_pend s) -> 0 < id.
Proof. intros l s id p I (_ & _ & Hpos & _) J. rewrite Forall_forall in Hpos. apply Hpos, (i_ids _ _ I _ _ J). Qed.
Lemma step_event : forall l o id s, inv l s -> proper (l ++ [o]) -> about o = Some id -> inv (l ++ [o]) (fst (d_step o s)).
Proof.
  intros l o id s I Pr A. assert (R : requests [o] = []) by (destruct o; try discriminate A; reflexivity). destruct (dget Z.eqb (d_pend s) id) as [p|] eqn:Eg.
  2: { rewrite (about_none P psign pverify ktype load ord pdec cbc_inv credentials o id s A Eg). apply inv_skip; assumption. }
  destruct (about_some P psign pverify ktype load ord pdec cbc_inv credentials o id s p A Eg) as (s' & E & D). rewrite E. cbn [fst]. set (k := pend_ck p) in *.
  assert (J : In (id, p) (d_pend s)) by (apply (dget_in Z.eqb (fun _ => True) zeq); [apply zdom|exact Logic.I|exact Eg]). destruct (i_pk _ _ I _ _ J) as (Vk & c & Ec & Ei). fold k in Vk, Ec. pose proof (pos_id l s id p I (proper_app _ _ Pr) J) as Ps.
  assert (Ao : forall k', asks [o] k' = []) by (intros k'; unfold asks; rewrite R; reflexivity). pose proof (i_ck _ _ I k Vk) as K. unfold KI in K. rewrite Ec in K. destruct (ck_bits c) as [bits|] eqn:Eb; [lia|]. destruct K as [(p' & K1 & K2 & K3 & (q & t & K4 & K5) & K6 & K7)|[K1 _]]; [|lia].
  rewrite Ei in K2. assert (p' = p). { pose proof (in_dget Z.eqb (fun _ => True) zeq (d_pend s) id p' (zdom _ _) (i_pend _ _ I) K2) as X. congruence. } subst p'. assert (Ek : asks (l ++ [o]) k = q :: t) by (rewrite asks_app, Ao, app_nil_r; exact K4).
  refine (done_inv l o s (begin_handler P s id k) k (pend_request p) (x_of o) _ _ _ s' (CKey None 0 (q :: t)) q t I Pr Vk _ _ Ek K5 _ _ eq_refl eq_refl eq_refl eq_refl _ _ _ _ D).
  - intros k' _. apply Ao.
  - intros r e X. rewrite R in X. destruct X.
  - intros q' X. apply K7. rewrite Ek in X. rewrite K4. exact X.
  - unfold begin_handler, ck. cbn [d_keys]. rewrite Ec, Eb, K6, K4. reflexivity.
  - cbn [begin_handler d_pend]. apply (dremove_uniq Z.eqb), I.
  - intros id' p'. cbn [begin_handler d_pend]. rewrite in_drop by apply I. split; intros [X Y]; (split; [exact X|]).
    + intros Z. apply Y. destruct (i_pk _ _ I _ _ X) as (_ & c' & Ec' & Ei'). rewrite Z, Ec in Ec'. congruence.
    + intros ->. apply Y. pose proof (in_dget Z.eqb (fun _ => True) zeq (d_pend s) id p' (zdom _ _) (i_pend _ _ I) X) as Z. unfold k. congruence.
  - intros p' Hn. destruct o as [|? d ? ? ?|? ?| |], p as [k' t' rr|k' pre ckd t' rr]; cbn in Hn; try contradiction.
    + destruct Hn as (pre & i & key & _ & ->). auto.
    + destruct Hn as [_ ->]. auto.
    + destruct Hn as [_ ->]. auto.
  - intros id' X. destruct o as [|? ? ? ? x|? x| |]; cbn in X; try discriminate X; subst x; left; reflexivity.
Qed.
(** Shutdown, one CK *)
Definition shut (s : dstate) (k : name) : dstate :=
  let c := ck P s k in
  if 0 <? ck_pending c then DState (dset n_equals (d_keys s) k (CKey (ck_bits c) 0 [])) (dremove Z.eqb (d_pend s) (ck_pending c)) (d_chain s) (d_out s ++ map (fun q => Answer (fst q) (Failure E_CkRetrievalFailure)) (ck_queue c))
  else s.
Lemma fail_all_ok : forall q (s : dstate), fail_all P q s = (DState (d_keys s) (d_pend s) (d_chain s) (d_out s ++ map (fun q => Answer (fst q) (Failure E_CkRetrievalFailure)) q), Ok tt).
Proof. induction q as [|[r e] q IH]; intros s; cbn [fail_all map]; [rewrite app_nil_r; destruct s; reflexivity|]. unfold bind, fail, emit, put. rewrite IH. cbn [d_keys d_pend d_chain d_out fst]. rewrite <- app_assoc. reflexivity. Qed.
Lemma shutdown_ok : forall ks (s : dstate), shutdown_keys P ks s = (fold_left shut ks s, Ok tt).
Proof.
  induction ks as [|k ks IH]; intros s; [reflexivity|]. cbn [shutdown_keys fold_left]. unfold bind at 1, the_ck, get. fold (ck P s k). unfold bind at 1. unfold shut at 2. cbv zeta. destruct (0 <? ck_pending (ck P s k)); [|apply IH]. unfold bind at 1, take. unfold bind at 1. rewrite fail_all_ok. unfold set_key, put. cbn [d_keys d_pend d_chain d_out]. apply IH.
Qed.
Lemma shut_inv : forall l k s, inv l s -> proper l -> nval k -> inv l (shut s k) /\ ck_pending (ck P (shut s k) k) = 0 /\ (forall k', nval k' -> ck_pending (ck P s k') = 0 -> ck_pending (ck P (shut s k) k') = 0) /\ (forall k', In k' (dkeys (d_keys (shut s k))) -> In k' (dkeys (d_keys s))).
Proof.
  intros l k s I Pr Vk. unfold shut. cbv zeta. destruct (Z.ltb_spec 0 (ck_pending (ck P s k))) as [L|L].
  - assert (Hc : exists c, dget n_equals (d_keys s) k = Some c /\ ck P s k = c). { unfold ck in *. destruct (dget n_equals (d_keys s) k) as [c|]; [exists c; auto|cbn in L; lia]. } destruct Hc as (c & Ec & Ek). rewrite Ek in *. clear Ek.
    pose proof (i_ck _ _ I k Vk) as K. unfold KI in K. rewrite Ec in K. destruct (ck_bits c) as [bits|] eqn:Eb; [lia|]. destruct K as [(p & K1 & K2 & K3 & (q & t & K4 & K5) & K6 & K7)|[K1 _]]; [|lia].
    split; [|split; [|split]].
    + pose proof Pr as (Nr & _). pose proof (nodup_asks _ k Nr) as Nk. assert (X : inv (l ++ [EShutdown]) (DState (dset n_equals (d_keys s) k (CKey None 0 [])) (dremove Z.eqb (d_pend s) (ck_pending c)) (d_chain s) (d_out s ++ map (fun q => Answer (fst q) (Failure E_CkRetrievalFailure)) (ck_queue c)))).
      { assert (Ea : forall k, asks (l ++ [EShutdown]) k = asks l k) by (intros k'; rewrite asks_app; apply app_nil_r). apply (touch l EShutdown s k); auto.
        - unfold proper. rewrite requests_app, ids_app, !app_nil_r. exact Pr.
        - rewrite map_fst_pend, K6. exact Nk.
        - intros r X. rewrite map_fst_pend, K6 in X. rewrite Ea. split; [exact X|]. apply in_map_iff in X. destruct X as (q' & <- & X). apply K7, X.
        - apply (dremove_uniq Z.eqb), I.
        - intros id p' X. apply in_drop in X; [|apply I]. left. split; [apply X|]. intros Z. destruct X as [X Y]. apply Y. destruct (i_pk _ _ I _ _ X) as (_ & c' & Ec' & Ei'). rewrite Z, Ec in Ec'. congruence.
        - intros id p' X Y. apply in_drop; [apply I|]. split; [exact X|]. intros ->. apply Y. pose proof (in_dget Z.eqb (fun _ => True) zeq (d_pend s) _ p' (zdom _ _) (i_pend _ _ I) X) as Z. pose proof (in_dget Z.eqb (fun _ => True) zeq (d_pend s) _ p (zdom _ _) (i_pend _ _ I) K2) as Z'. congruence.
        - unfold KI. cbn [ck_bits ck_pending ck_queue d_out]. right. split; [reflexivity|]. exists (asks l k), []. rewrite Ea, app_nil_r. split; [reflexivity|]. split; [rewrite K4; discriminate|]. split; [|intros q' []]. intros q' X. apply failed_app. right. exists E_CkRetrievalFailure. rewrite K6. clear - X. induction (asks l k) as [|a u IH]; [destruct X|]. destruct X as [-> |X]; [left; reflexivity|right; apply IH, X]. }
      destruct X as [A B C D E F G H J]. assert (Er : requests (l ++ [EShutdown]) = requests l) by (rewrite requests_app; apply app_nil_r). assert (Ei : ids (l ++ [EShutdown]) = ids l) by (rewrite ids_app; apply app_nil_r). assert (Ea : forall k, asks (l ++ [EShutdown]) k = asks l k) by (intros k'; rewrite asks_app; apply app_nil_r).
      rewrite Er in *. rewrite Ei in *. constructor; auto. intros k' V. specialize (J k' V). unfold KI in *. rewrite Ea in J. exact J.
    + unfold ck. cbn [d_keys]. rewrite dget_dset by apply eq_refl_n. reflexivity.
    + intros k' V' Z. unfold ck in *. cbn [d_keys]. rewrite (dset_get n_equals nval Heqn) by (auto; apply I). destruct (n_equals k k'); [reflexivity|exact Z].
    + intros k' X. cbn [d_keys] in X. rewrite (dset_keys n_equals nval Heqn) in X by (auto; apply I). unfold din in X. rewrite Ec in X. exact X.
  - split; [exact I|]. split; [|auto]. assert (X : 0 <= ck_pending (ck P s k)); [|lia]. unfold ck. pose proof (i_ck _ _ I k Vk) as K. unfold KI in K. destruct (dget n_equals (d_keys s) k) as [c|]; [|cbn; lia]. destruct (ck_bits c); [lia|]. destruct K as [(p & K1 & _)|[K1 _]]; lia.
Qed.
Lemma fold_shut : forall ks l s, inv l s -> proper l -> Forall nval ks -> inv l (fold_left shut ks s) /\ (forall k, In k ks -> ck_pending (ck P (fold_left shut ks s) k) = 0) /\ (forall k, nval k -> ck_pending (ck P s k) = 0 -> ck_pending (ck P (fold_left shut ks s) k) = 0) /\ (forall k, In k (dkeys (d_keys (fold_left shut ks s))) -> In k (dkeys (d_keys s))).
Proof.
  induction ks as [|k ks IH]; intros l s I Pr V; cbn [fold_left]; [split; [exact I|]; split; [intros k []|]; auto|]. inversion V; subst. destruct (shut_inv l k s I Pr) as (I' & Z & Z' & Kk); [assumption|]. destruct (IH l (shut s k) I' Pr H2) as (I2 & A & B & C). split; [exact I2|]. split; [|split].
  - intros k' [<-|J]; [apply B; assumption|apply A, J].
  - intros k' V' X. apply B; auto.
  - auto.
Qed.
Lemma step_shutdown : forall l s, inv l s -> proper l -> inv (l ++ [EShutdown]) (fst (d_step EShutdown s)) /\ d_pend (fst (d_step EShutdown s)) = [].
Proof.
  intros l s I Pr. unfold NacModel.d_step, shutdown, bind, get. rewrite shutdown_ok. cbn [fst]. assert (V : Forall nval (dkeys (d_keys s))). { apply Forall_forall. intros k J. apply in_map_iff in J. destruct J as ([k' c] & <- & J). pose proof (i_dom _ _ I) as D. unfold dom in D. rewrite Forall_forall in D. apply (D _ J). }
  destruct (fold_shut _ l s I Pr V) as (I' & A & _ & C). split; [apply inv_skip; [exact I'|reflexivity]|]. set (s' := fold_left shut _ s) in *. destruct (d_pend s') as [|[id p] d] eqn:E; [reflexivity|]. exfalso. assert (J : In (id, p) (d_pend s')) by (rewrite E; left; reflexivity). pose proof (pos_id _ _ _ _ I' Pr J) as Ps. destruct (i_pk _ _ I' _ _ J) as (Vk & c & Ec & Ei).
  assert (X : In (pend_ck p) (dkeys (d_keys s'))) by (apply (dget_some_key n_equals nval Heqn _ _ c); [apply I'|exact Vk|exact Ec]). apply C in X. specialize (A _ X). unfold ck in A. rewrite Ec in A. lia.
Qed.
Theorem run_inv : forall l c, proper l -> inv l (d_run (d_new c) l).
Proof.
  intros l c. induction l as [|o l IH] using rev_ind; intros Pr; [apply inv_new|]. specialize (IH (proper_app _ _ Pr)). unfold NacModel.d_run in *. rewrite fold_left_app. cbn [fold_left]. set (s := fold_left _ l _) in *. destruct o as [r e x|id d cred rnd x|id x|id|].
  - destruct (usable e) eqn:U; [apply step_usable|apply step_unusable]; assumption.
  - apply (step_event l _ id); auto.
  - apply (step_event l _ id); auto.
  - apply (step_event l _ id); auto.
  - apply step_shutdown; [exact IH|apply (proper_app _ _ Pr)].
Qed.
End N.
