(** * Properties C49 (PSyncState) and C50 (InMemoryStorageRetaining) *)
From Verif Require Import Base BaseLemmas TlvModel TlvSpec TlvProofs TlvDecProofs NameModel NameSpec NameProofs WireModel WireSpec WireProofs WireSafety WireProps
  DictModel DictProofs PsyncProofs MatchProps StoreModel StoreSpec.
From Coq Require Import ZifyBool.
Local Open Scope res_scope.

(** ** C49 *)
Lemma enc_names_ok : forall l out, Forall name_ok l -> enc_names l out = elems (map name_el l) ++ out.
Proof.
  induction l as [|n l IH]; intros out H; [reflexivity|]. inversion H as [|? ? H1 H2]; subst. cbn [enc_names map].
  rewrite IH, enc_name_ok by assumption. cbn [fst]. rewrite elems_one', elems_cons', <- app_assoc. reflexivity.
Qed.
Lemma dec_names_ok : forall l fuel inp off acc, Forall name_ok l -> At inp off (zlen inp) (map name_el l) -> (length l < fuel)%nat ->
  dec_names fuel acc inp off = Ok (rev acc ++ l, zlen inp).
Proof.
  induction l as [|n l IH]; intros fuel inp off acc H A F; (destruct fuel as [|fuel]; [lia|]); cbn [dec_names map] in *; unfold dbind at 1 2, d_getOffset, d_inputLength.
  - apply At_nil in A. rewrite A, Z.ltb_irrefl, app_nil_r. reflexivity.
  - inversion H as [|? ? H1 H2]; subst. pose proof (At_pos _ _ _ _ _ A) as P. replace (off <? zlen inp) with true by lia.
    destruct (dec_name_ok _ _ _ _ _ H1 A) as [E A']. dstep E. rewrite IH; [|assumption|exact A'|cbn [length] in F; lia].
    cbn [fst rev]. rewrite <- app_assoc. reflexivity.
Qed.
Theorem C49_round_trip : forall l, Forall name_ok l -> zlen (pst_wireEncode l) < 2 ^ 64 ->
  pst_wireEncode l = tlv 128 (concat (map encodeName l)) /\ pst_wireDecode (pst_wireEncode l) = Ok l.
Proof.
  intros l H L.
  assert (E0 : pst_wireEncode l = tlv 128 (elems (map name_el l))).
  { unfold pst_wireEncode. rewrite enc_names_ok, app_nil_r by assumption. rewrite <- (app_nil_r (elems (map name_el l))) at 2. rewrite e_TL_tlv by lia. apply app_nil_r. }
  assert (EC : concat (map encodeName l) = elems (map name_el l)).
  { clear L E0. induction H as [|n l H1 H2 IH]; [reflexivity|]. cbn [map concat]. rewrite IH, elems_cons'. f_equal. unfold encodeName. rewrite enc_name_ok by assumption.
    cbn [fst]. rewrite app_nil_r, elems_one'. reflexivity. }
  rewrite EC. split; [exact E0|]. rewrite E0 in *. set (es := map name_el l) in *.
  assert (E1 : tlv 128 (elems es) = elems [(128, elems es)]) by (rewrite elems_one; reflexivity). rewrite E1 in *.
  assert (S0 : small [(128, elems es)]) by (apply small_of_len; [constructor; [cbn [fst]; unfold u64; lia|constructor]|exact L]).
  assert (S1 : small es).
  { apply small_of_len; [unfold es; apply Forall_forall; intros x Hx; apply in_map_iff in Hx; destruct Hx as (n & <- & _); cbn [name_el fst]; unfold u64; lia|].
    inversion S0 as [|? ? [_ K] _]; exact K. }
  pose proof (At_whole _ S0) as A. unfold pst_wireDecode, dec_pst.
  assert (EZ : zlen (tlv 128 (elems es)) = zlen (elems [(128, elems es)])) by (rewrite E1; reflexivity).
  set (inp := elems [(128, elems es)]) in *. destruct (At_nested _ _ _ _ _ _ A S1) as [R A1]. rewrite !Z.add_0_l, EZ in *. dstep R.
  unfold dfuel. unfold dbind at 1. rewrite (dec_names_ok l (S (length inp)) inp _ [] H A1).
  2: { pose proof (At_fuel _ _ _ _ A1) as F. unfold es in F. rewrite map_length in F. lia. }
  cbn [rev app]. unfold dbind. rewrite finish_at_end. reflexivity.
Qed.
Lemma dec_names_safe : forall fuel acc inp off, bytes_ok inp -> 0 <= off <= zlen inp -> zlen inp - off < Z.of_nat fuel ->
  match dec_names fuel acc inp off with Ok (_, off') => off' = zlen inp | Err x => decode_error x end.
Proof.
  induction fuel as [|fuel IH]; intros acc inp off B O F; [lia|]. cbn [dec_names]. unfold dbind, d_getOffset, d_inputLength.
  destruct (off <? zlen inp) eqn:E; [|unfold dret; lia]. pose proof (dec_name_safe inp off B O) as P.
  destruct (dec_name inp off) as [[r o]|x]; [|exact P]. destruct P as (P1 & P2 & _). apply IH; [assumption|lia|lia].
Qed.
(** On arbitrary bytes: a list of names or a decoding error; and what is accepted is one
    element spanning the whole input. *)
Theorem C49_safe : forall inp, bytes_ok inp -> match pst_wireDecode inp with
  | Ok _ => exists h, d_readNestedTlvsStart 128 inp 0 = Ok (zlen inp, h)
  | Err e => decode_error e end.
Proof.
  intros inp B. unfold pst_wireDecode, dec_pst. pose proof (zlen_nonneg _ inp) as Z0. unfold dbind at 1.
  pose proof (dsafe_readNested 128 inp 0 B ltac:(lia)) as P. destruct (d_readNestedTlvsStart 128 inp 0) as [[e o]|x]; [|exact P].
  unfold dbind at 1, dfuel. pose proof (dec_names_safe (S (length inp)) [] inp o B ltac:(lia) ltac:(unfold zlen in *; lia)) as Q.
  destruct (dec_names (S (length inp)) [] inp o) as [[l o']|x]; [|exact Q]. subst o'. unfold dbind.
  pose proof (dsafe_finish e false inp (zlen inp) B ltac:(lia)) as R. destruct (d_finishNestedTlvs e false inp (zlen inp)) as [[u o'']|x]; [|exact R].
  unfold dret. exists o. f_equal. f_equal. lia.
Qed.
(** Bytes after the element are refused. *)
Theorem C49_trailing : forall l x, Forall name_ok l -> bytes_ok (pst_wireEncode l ++ x) -> zlen (pst_wireEncode l) < 2 ^ 64 -> x <> [] ->
  exists e, pst_wireDecode (pst_wireEncode l ++ x) = Err e /\ decode_error e.
Proof.
  intros l x H B L N. pose proof (C49_safe _ B) as S. destruct (pst_wireDecode (pst_wireEncode l ++ x)) as [r|e]; [|eauto].
  destruct S as (h & S). exfalso.
  assert (E0 : pst_wireEncode l = elems [(128, elems (map name_el l))]).
  { unfold pst_wireEncode. rewrite enc_names_ok, app_nil_r, elems_one by assumption. rewrite <- (app_nil_r (elems (map name_el l))) at 2. rewrite e_TL_tlv by lia. apply app_nil_r. }
  rewrite E0 in *. set (es := map name_el l) in *.
  assert (S0 : small [(128, elems es)]) by (apply small_of_len; [constructor; [cbn [fst]; unfold u64; lia|constructor]|exact L]).
  assert (A : At (elems [(128, elems es)] ++ x) 0 (zlen (elems [(128, elems es)])) [(128, elems es)]).
  { split; [exact S0|]. exists [], x. split; [reflexivity|]. split; reflexivity. }
  assert (S1 : small es).
  { apply small_of_len; [unfold es; apply Forall_forall; intros y Hy; apply in_map_iff in Hy; destruct Hy as (n & <- & _); cbn [name_el fst]; unfold u64; lia|].
    inversion S0 as [|? ? [_ K] _]; exact K. }
  destruct (At_nested _ _ _ _ _ _ A S1) as [R _]. rewrite R in S. assert (S' : 0 + zlen (tlv 128 (elems es)) = zlen (elems [(128, elems es)] ++ x)) by congruence. clear S. rename S' into S. rewrite <- elems_one in S. rewrite zlen_app in S.
  destruct x; [congruence|]. pose proof (zlen_nonneg _ x). rewrite zlen_cons in S. lia.
Qed.

(** ** C50 *)
Section C50.
Context {D : Type}.
Variable fullName : D -> name.
Notation holds := (holds fullName).
Notation born := (born fullName).
Notation st_run := (st_run fullName).
Definition valid_key (k : name) : Prop := Forall c_valid k.
Let Heq : forall a b, valid_key a -> valid_key b -> (n_equals a b = true <-> a = b) := fun a b Ha Hb => valid_equals a b Ha Hb.

Lemma under_iff : forall p k, n_isPrefixOf p k = true <-> under p k.
Proof. intros p k. unfold n_isPrefixOf. rewrite n_match_iff. unfold prefix, under. split; intros [r E]; exists r; congruence. Qed.

Lemma filter_all : forall (A : Type) (f : A -> bool) (l : list A), (forall x, In x l -> f x = true) -> filter f l = l.
Proof. induction l as [|x l IH]; intros H; [reflexivity|]. cbn [filter]. rewrite (H x (or_introl eq_refl)), IH; [reflexivity|]. intros y Hy. apply H. right. exact Hy. Qed.
Lemma remove_filter : forall s p, dom valid_key s -> uniq s -> st_remove s p = Ok (filter (fun x : name * D => negb (n_isPrefixOf p (fst x))) s).
Proof.
  intros s p Hd Hu. unfold st_remove.
  (* generalise: deleting the matching keys of the tail of s, when the head has none *)
  assert (G : forall s1 s2, dom valid_key (s1 ++ s2) -> uniq (s1 ++ s2) -> (forall x, In x s1 -> n_isPrefixOf p (fst x) = false) ->
    fold_left (fun r k => (s <-- r ;; ddel n_equals s k)) (filter (n_isPrefixOf p) (dkeys s2)) (Ok (s1 ++ s2)) = Ok (s1 ++ filter (fun x : name * D => negb (n_isPrefixOf p (fst x))) s2)).
  { intros s1 s2. revert s1. induction s2 as [|[k d] s2 IH]; intros s1 Hd' Hu' H1; [reflexivity|].
    cbn [dkeys map fst filter]. destruct (n_isPrefixOf p k) eqn:E; cbn [negb fold_left].
    - assert (Ik : In k (dkeys (s1 ++ (k, d) :: s2))) by (unfold dkeys; rewrite map_app; apply in_or_app; right; left; reflexivity).
      assert (Vk : valid_key k) by (unfold dom in Hd'; rewrite Forall_forall in Hd'; apply (Hd' (k, d)); apply in_or_app; right; left; reflexivity).
      assert (X : ddel n_equals (s1 ++ (k, d) :: s2) k = Ok (s1 ++ s2)).
      { unfold ddel. pose proof (proj2 (din_iff n_equals valid_key Heq _ _ Hd' Vk) Ik) as Din. rewrite Din. f_equal.
        assert (NK : forall x, In x s1 -> n_equals (fst x) k = false).
        { intros x Hx. destruct (n_equals (fst x) k) eqn:Ex; [|reflexivity]. apply Heq in Ex; [|unfold dom in Hd'; rewrite Forall_forall in Hd'; apply Hd'; apply in_or_app; left; exact Hx|exact Vk].
          specialize (H1 x Hx). rewrite Ex in H1. congruence. }
        clear -NK Vk Heq. induction s1 as [|[k1 d1] s1 IH]; cbn [app dremove].
        - rewrite (proj2 (Heq k k Vk Vk) eq_refl). reflexivity.
        - pose proof (NK (k1, d1) (or_introl eq_refl)) as NK1. cbn [fst] in NK1. rewrite NK1. rewrite IH; [reflexivity|]. intros x Hx. apply NK. right. exact Hx. }
      cbn [rbind]. rewrite X. apply IH; [| |exact H1].
      + unfold dom in *. apply Forall_app in Hd'. destruct Hd' as [Q1 Q2]. inversion Q2; subst. apply Forall_app. split; assumption.
      + unfold uniq, dkeys in *. rewrite map_app in *. cbn [map fst] in Hu'. eapply NoDup_remove_1. exact Hu'.
    - replace (s1 ++ (k, d) :: s2) with ((s1 ++ [(k, d)]) ++ s2) in * by (rewrite <- app_assoc; reflexivity).
      etransitivity; [apply (IH (s1 ++ [(k, d)]) Hd' Hu')|].
      2: { rewrite <- app_assoc. reflexivity. }
      + intros x Hx. apply in_app_or in Hx. destruct Hx as [Hx|[<-|[]]]; [auto|exact E]. }
  apply (G [] s Hd Hu). intros x [].
Qed.

Definition good (ops : list (@st_op D)) : Prop := forall d, In (Insert d) ops -> valid_key (fullName d).

Lemma holds_snoc_insert : forall ops d k d', holds (ops ++ [Insert d]) k d' <-> (fullName d = k /\ d' = d) \/ (fullName d <> k /\ holds ops k d').
Proof.
  intros ops d k d'. unfold StoreSpec.holds. split.
  - intros (o1 & o2 & E & F & N & R). destruct o2 as [|x o2 _] using rev_ind.
    + apply app_inj_tail in E. destruct E as [E1 E2]. injection E2 as ->. left. tauto.
    + rewrite app_comm_cons, app_assoc in E. apply app_inj_tail in E. destruct E as [-> <-]. right. split; [apply N; apply in_or_app; right; left; reflexivity|].
      exists o1, o2. split; [reflexivity|]. split; [exact F|]. split; intros; [apply N|apply R]; apply in_or_app; left; assumption.
  - intros [[F ->]|[F (o1 & o2 & -> & F' & N & R)]].
    + exists ops, []. split; [reflexivity|]. split; [exact F|]. split; intros ? [].
    + exists o1, (o2 ++ [Insert d]). split; [rewrite <- app_assoc; reflexivity|]. split; [exact F'|]. split.
      * intros d1 Hd. apply in_app_or in Hd. destruct Hd as [Hd|[Hd|[]]]; [auto|injection Hd as <-; exact F].
      * intros p Hp. apply in_app_or in Hp. destruct Hp as [Hp|[Hp|[]]]; [auto|discriminate].
Qed.
Lemma holds_snoc_remove : forall ops p k d', holds (ops ++ [Remove p]) k d' <-> ~ under p k /\ holds ops k d'.
Proof.
  intros ops p k d'. unfold StoreSpec.holds. split.
  - intros (o1 & o2 & E & F & N & R). destruct o2 as [|x o2 _] using rev_ind.
    + apply app_inj_tail in E. destruct E as [_ E2]. discriminate.
    + rewrite app_comm_cons, app_assoc in E. apply app_inj_tail in E. destruct E as [-> <-]. split; [apply R; apply in_or_app; right; left; reflexivity|].
      exists o1, o2. split; [reflexivity|]. split; [exact F|]. split; intros; [apply N|apply R]; apply in_or_app; left; assumption.
  - intros [F (o1 & o2 & -> & F' & N & R)]. exists o1, (o2 ++ [Remove p]). split; [rewrite <- app_assoc; reflexivity|]. split; [exact F'|]. split.
    + intros d1 Hd. apply in_app_or in Hd. destruct Hd as [Hd|[Hd|[]]]; [auto|discriminate].
    + intros q Hp. apply in_app_or in Hp. destruct Hp as [Hp|[Hp|[]]]; [auto|injection Hp as <-; exact F].
Qed.
Lemma run_snoc : forall ops o s, st_run ops = Ok s -> st_run (ops ++ [o]) = st_step fullName s o.
Proof. intros ops o s H. unfold StoreModel.st_run in *. rewrite fold_left_app, H. reflexivity. Qed.

(** The contents of the storage after any history, and the number of packets. *)
Theorem C50_contents : forall ops, good ops -> exists s, st_run ops = Ok s /\ NoDup (dkeys s) /\ (forall k d, In (k, d) s <-> holds ops k d).
Proof.
  intros ops G. cut (exists s, st_run ops = Ok s /\ dom valid_key s /\ uniq s /\ (forall k d, In (k, d) s <-> holds ops k d)).
  { intros (s & A & _ & B & C). exists s. tauto. }
  induction ops as [|o ops IH] using rev_ind.
  - exists []. split; [reflexivity|]. split; [constructor|]. split; [constructor|]. intros k d. split; [intros []|]. intros (o1 & o2 & E & _). destruct o1; discriminate.
  - destruct IH as (s & E & Hd & Hu & H); [intros d Hi; apply G; apply in_or_app; left; exact Hi|]. rewrite (run_snoc _ _ _ E). destruct o as [d|p]; cbn [st_step].
    + assert (V : valid_key (fullName d)) by (apply G; apply in_or_app; right; left; reflexivity).
      eexists. split; [reflexivity|]. unfold st_insert. split; [apply dset_dom; assumption|].
      pose proof (dset_uniq n_equals valid_key Heq s (fullName d) d Hd V Hu) as U. split; [exact U|].
      intros k d'. rewrite holds_snoc_insert, <- H.
      pose proof (dset_dom n_equals valid_key s (fullName d) d Hd V) as Hd'.
      assert (K : In (k, d') (dset n_equals s (fullName d) d) -> valid_key k) by (intros I; unfold dom in Hd'; rewrite Forall_forall in Hd'; exact (Hd' _ I)).
      assert (K2 : In (k, d') s -> valid_key k) by (intros I; unfold dom in Hd; rewrite Forall_forall in Hd; exact (Hd _ I)).
      assert (Main : valid_key k -> (In (k, d') (dset n_equals s (fullName d) d) <-> fullName d = k /\ d' = d \/ fullName d <> k /\ In (k, d') s)).
      { intros Vk. rewrite <- (dget_iff n_equals valid_key Heq _ k d' Hd' U Vk), <- (dget_iff n_equals valid_key Heq _ k d' Hd Hu Vk).
        rewrite (dset_get n_equals valid_key Heq) by assumption. destruct (eqb_case n_equals valid_key Heq _ _ V Vk) as [[-> Eb]|[N Eb]]; rewrite Eb.
        - split; [intros [= ->]; left; tauto|]. intros [[_ ->]|[X _]]; [reflexivity|congruence].
        - split; [intros X; right; tauto|]. intros [[X _]|[_ X]]; [congruence|exact X]. }
      split; [intros I; apply Main; auto|]. intros [[F ->]|[F I]]; apply Main; auto. rewrite <- F. exact V.
    + rewrite (remove_filter s p Hd Hu). eexists. split; [reflexivity|]. split; [|split].
      * unfold dom in *. rewrite Forall_forall in *. intros x Hx. apply filter_In in Hx. apply Hd. tauto.
      * unfold uniq, dkeys in *. clear -Hu. induction s as [|x s IH]; [constructor|]. inversion Hu as [|? ? U1 U2]; subst. cbn [filter]. destruct (negb _); [|auto].
        cbn [map]. constructor; [|auto]. intros I. apply U1. apply in_map_iff in I. destruct I as (y & Ey & Hy). apply filter_In in Hy. apply in_map_iff. exists y. tauto.
      * intros k d'. rewrite filter_In, holds_snoc_remove, H. cbn [fst]. rewrite <- under_iff. destruct (n_isPrefixOf p k); cbn [negb]; split; intros; intuition congruence.
Qed.
Theorem C50_size : forall ops s, good ops -> st_run ops = Ok s ->
  exists keys, NoDup keys /\ st_size s = zlen keys /\ (forall k, In k keys <-> exists d, holds ops k d).
Proof.
  intros ops s G E. destruct (C50_contents ops G) as (s' & E' & N & H). assert (s' = s) by congruence. subst s'.
  exists (dkeys s). split; [exact N|]. split; [unfold st_size, dkeys; rewrite zlen_map; reflexivity|]. intros k. split.
  - intros I. apply in_map_iff in I. destruct I as ([k' d] & <- & I). exists d. apply H. exact I.
  - intros (d & I). apply H in I. apply (in_map fst) in I. exact I.
Qed.

(** find: a stored packet under the name, and there is one when one is stored. *)
Lemma find_split : forall (s : dict name D) n d, st_find s n = Some d <-> exists a k b, s = a ++ (k, d) :: b /\ n_isPrefixOf n k = true /\ (forall x, In x a -> n_isPrefixOf n (fst x) = false).
Proof.
  induction s as [|[k0 d0] s IH]; intros n d; cbn [st_find].
  - split; [discriminate|]. intros (a & k & b & E & _). destruct a; discriminate.
  - destruct (n_isPrefixOf n k0) eqn:E.
    + split.
      * intros [= ->]. exists [], k0, s. split; [reflexivity|]. split; [exact E|]. intros x [].
      * intros (a & k & b & E' & E2 & Ha). destruct a as [|x a]; [injection E' as _ <- _; reflexivity|]. cbn [app] in E'. injection E' as <- _. specialize (Ha _ (or_introl eq_refl)). cbn [fst] in Ha. congruence.
    + rewrite IH. split.
      * intros (a & k & b & -> & E2 & Ha). exists ((k0, d0) :: a), k, b. split; [reflexivity|]. split; [exact E2|]. intros x [<-|Hx]; auto.
      * intros (a & k & b & E' & E2 & Ha). destruct a as [|x a]; [injection E' as -> _ _; congruence|]. cbn [app] in E'. injection E' as <- ->. exists a, k, b. split; [reflexivity|]. split; [exact E2|]. intros y Hy. apply Ha. right. exact Hy.
Qed.
Lemma find_none : forall (s : dict name D) n, st_find s n = None <-> forall k d, In (k, d) s -> n_isPrefixOf n k = false.
Proof.
  induction s as [|[k0 d0] s IH]; intros n; cbn [st_find].
  - split; [intros _ k d []|reflexivity].
  - destruct (n_isPrefixOf n k0) eqn:E.
    + split; [discriminate|]. intros H. specialize (H k0 d0 (or_introl eq_refl)). congruence.
    + rewrite IH. split; [intros H k d [[= <- <-]|I]; eauto|]. intros H k d I. apply (H k d). right. exact I.
Qed.

Lemma born_snoc_insert : forall ops d k b, born (ops ++ [Insert d]) k b ->
  (born ops k b /\ (b < length ops)%nat) \/ (b = length ops /\ fullName d = k /\ forall d', ~ holds ops k d').
Proof.
  intros ops d k b (o1 & d1 & o2 & E & L & F & N & R). destruct o2 as [|x o2 _] using rev_ind.
  - apply app_inj_tail in E. destruct E as [-> E2]. injection E2 as ->. right. auto.
  - rewrite app_comm_cons, app_assoc in E. apply app_inj_tail in E. destruct E as [-> <-]. left. split.
    + exists o1, d1, o2. split; [reflexivity|]. split; [exact L|]. split; [exact F|]. split; [exact N|]. intros p Hp. apply R. apply in_or_app. left. exact Hp.
    + rewrite app_length. cbn [length]. lia.
Qed.
Lemma born_snoc_remove : forall ops p k b, born (ops ++ [Remove p]) k b -> born ops k b.
Proof.
  intros ops p k b (o1 & d1 & o2 & E & L & F & N & R). destruct o2 as [|x o2 _] using rev_ind.
  - apply app_inj_tail in E. destruct E as [_ E2]. discriminate.
  - rewrite app_comm_cons, app_assoc in E. apply app_inj_tail in E. destruct E as [-> <-].
    exists o1, d1, o2. split; [reflexivity|]. split; [exact L|]. split; [exact F|]. split; [exact N|]. intros q Hq. apply R. apply in_or_app. left. exact Hq.
Qed.
(** keys in the dict are ordered by birth *)
Definition before (l : list name) (k k' : name) : Prop := exists a b c, l = a ++ k :: b ++ k' :: c.
Lemma before_filter : forall (f : name -> bool) l k k', before (filter f l) k k' -> before l k k'.
Proof.
  intros f l k k' (a & b & c & E). unfold before.
  assert (Sp : forall l a x c, filter f l = a ++ x :: c -> exists a' c', l = a' ++ x :: c' /\ filter f a' = a /\ filter f c' = c).
  { clear. induction l as [|y l IH]; intros a x c E; [destruct a; discriminate|]. cbn [filter] in E. destruct (f y) eqn:Fy.
    - destruct a as [|z a]; cbn [app] in E.
      + injection E as -> E. exists [], l. cbn [app filter]. auto.
      + injection E as -> E. destruct (IH a x c E) as (a' & c' & -> & E1 & E2). exists (z :: a'), c'. cbn [app filter]. rewrite Fy, E1. auto.
    - destruct (IH a x c E) as (a' & c' & -> & E1 & E2). exists (y :: a'), c'. cbn [app filter]. rewrite Fy. auto. }
  destruct (Sp _ _ _ _ E) as (a' & c' & -> & _ & E2). destruct (Sp _ _ _ _ E2) as (b' & c'' & -> & _ & _). eauto.
Qed.
Lemma dkeys_filter : forall (f : name -> bool) (s : dict name D), dkeys (filter (fun x => f (fst x)) s) = filter f (dkeys s).
Proof. intros f s. unfold dkeys. induction s as [|x s IH]; [reflexivity|]. cbn [filter map]. destruct (f (fst x)); cbn [map]; rewrite IH; reflexivity. Qed.
Lemma birth_order : forall ops s, good ops -> st_run ops = Ok s -> forall k k' b b', before (dkeys s) k k' -> born ops k b -> born ops k' b' -> (b < b')%nat.
Proof.
  induction ops as [|o ops IH] using rev_ind; intros s G E k k' b b' Bf B B'.
  - injection E as <-. destruct Bf as (? & ? & ? & X). destruct x; discriminate.
  - assert (G0 : good ops) by (intros d Hi; apply G; apply in_or_app; left; exact Hi).
    destruct (C50_contents ops G0) as (s0 & E0 & N0 & H0). rewrite (run_snoc _ _ _ E0) in E.
    assert (Hd0 : dom valid_key s0).
    { unfold dom. apply Forall_forall. intros [k0 d0] I. apply H0 in I. destruct I as (o1 & o2 & -> & <- & _). apply G0. apply in_or_app. right. left. reflexivity. }
    destruct o as [d|p]; cbn [st_step] in E.
    + injection E as <-. unfold st_insert in Bf. assert (V : valid_key (fullName d)) by (apply G; apply in_or_app; right; left; reflexivity).
      rewrite (dset_keys n_equals valid_key Heq s0 _ d Hd0 V) in Bf.
      pose proof (din_iff n_equals valid_key Heq s0 _ Hd0 V) as DI.
      assert (Nd : In (fullName d) (dkeys s0) -> ~ (forall d', ~ holds ops (fullName d) d')).
      { intros I N. apply in_map_iff in I. destruct I as ([k1 d1] & Ek & I). cbn [fst] in Ek. subst k1. apply H0 in I. exact (N _ I). }
      destruct (din n_equals s0 (fullName d)) eqn:Dn.
      * assert (I : In (fullName d) (dkeys s0)) by (apply DI; reflexivity).
        apply born_snoc_insert in B, B'. destruct B as [[B _]|(_ & <- & N)]; [|elim (Nd I N)]. destruct B' as [[B' _]|(_ & <- & N)]; [|elim (Nd I N)].
        exact (IH s0 G0 E0 k k' b b' Bf B B').
      * destruct Bf as (x & y & z & X).
        assert (Last : z = [] /\ k' = fullName d \/ exists z', z = z' ++ [fullName d] /\ dkeys s0 = x ++ k :: y ++ k' :: z').
        { destruct z as [|e z _] using rev_ind.
          - left. assert (X' : dkeys s0 ++ [fullName d] = (x ++ k :: y) ++ [k']) by (rewrite X, <- app_assoc; reflexivity). apply app_inj_tail in X'. destruct X' as [_ ->]. auto.
          - right. exists z. assert (X' : dkeys s0 ++ [fullName d] = (x ++ k :: y ++ k' :: z) ++ [e]) by (rewrite X; rewrite <- !app_assoc; cbn [app]; rewrite <- !app_assoc; reflexivity). apply app_inj_tail in X'. destruct X' as [X1 X2]. subst e. auto. }
        destruct Last as [[-> ->]|(z' & -> & X2)].
        -- assert (X1 : dkeys s0 = x ++ k :: y) by (assert (X' : dkeys s0 ++ [fullName d] = (x ++ k :: y) ++ [fullName d]) by (rewrite X, <- app_assoc; reflexivity); apply app_inj_tail in X'; tauto).
           apply born_snoc_insert in B, B'.
           assert (Kin : In k (dkeys s0)) by (rewrite X1; apply in_or_app; right; left; reflexivity).
           assert (NI : ~ In (fullName d) (dkeys s0)) by (intros I; apply DI in I; congruence).
           destruct B as [[B Lb]|(_ & <- & _)]; [|contradiction].
           destruct B' as [[B' Lb']|(-> & _ & _)]; [|exact Lb].
           exfalso. apply NI. destruct B' as (o1 & d1 & o2 & Eo & _ & F & _ & R).
           assert (P : exists dd, holds ops (fullName d) dd).
           { clear -Eo F R. revert Eo R. revert ops. induction o2 as [|e o2 IHo] using rev_ind; intros ops Eo R.
             - exists d1. exists o1, []. split; [exact Eo|]. split; [exact F|]. split; intros ? [].
             - rewrite app_comm_cons, app_assoc in Eo. destruct (IHo _ eq_refl) as (dd & Hdd); [intros p Hp; apply R; apply in_or_app; left; exact Hp|]. rewrite Eo. destruct e as [de|pe].
               + destruct (list_eq_dec (fun a b : comp => ltac:(decide equality; [apply (list_eq_dec Z.eq_dec)|apply Z.eq_dec|apply Z.eq_dec])) (fullName de) (fullName d)) as [Ed|Ed].
                 * exists de. apply holds_snoc_insert. left. auto.
                 * exists dd. apply holds_snoc_insert. right. auto.
               + exists dd. apply holds_snoc_remove. split; [apply R; apply in_or_app; right; left; reflexivity|exact Hdd]. }
           destruct P as (dd & P). apply H0 in P. apply (in_map fst) in P. exact P.
        -- assert (Kin : In k (dkeys s0) /\ In k' (dkeys s0)) by (rewrite X2; split; apply in_or_app; right; [left; reflexivity|right; apply in_or_app; right; left; reflexivity]).
           assert (NI : ~ In (fullName d) (dkeys s0)) by (intros I; apply DI in I; congruence).
           apply born_snoc_insert in B, B'. destruct B as [[B _]|(_ & <- & _)]; [|tauto]. destruct B' as [[B' _]|(_ & <- & _)]; [|tauto].
           apply (IH s0 G0 E0 k k' b b'); [|exact B|exact B']. exists x, y, z'. exact X2.
    + rewrite (remove_filter s0 p Hd0 N0) in E. injection E as <-.
      rewrite (dkeys_filter (fun k => negb (n_isPrefixOf p k))) in Bf. apply before_filter in Bf.
      apply born_snoc_remove in B, B'. exact (IH s0 G0 E0 k k' b b' Bf B B').
Qed.
(** Every stored name has such a birth, so the order below is total on stored names. *)
Theorem C50_born : forall ops k d, good ops -> holds ops k d -> exists b, born ops k b.
Proof.
  induction ops as [|o ops IH] using rev_ind; intros k d G H.
  - destruct H as (o1 & o2 & E & _). destruct o1; discriminate.
  - assert (G0 : good ops) by (intros x Hi; apply G; apply in_or_app; left; exact Hi).
    assert (Ext : forall b, born ops k b -> (forall p, o = Remove p -> ~ under p k) -> born (ops ++ [o]) k b).
    { intros b (o1 & d1 & o2 & -> & L & F & N & R) Ro. exists o1, d1, (o2 ++ [o]). split; [rewrite <- app_assoc; reflexivity|]. split; [exact L|]. split; [exact F|]. split; [exact N|].
      intros p Hp. apply in_app_or in Hp. destruct Hp as [Hp|[Hp|[]]]; auto. }
    destruct o as [e|p].
    + apply holds_snoc_insert in H. destruct H as [[F ->]|[_ H]].
      * destruct (C50_contents ops G0) as (s0 & _ & _ & H0).
        destruct (in_dec (list_eq_dec (fun a b : comp => ltac:(decide equality; [apply (list_eq_dec Z.eq_dec)|apply Z.eq_dec|apply Z.eq_dec]))) k (dkeys s0)) as [I|I].
        -- apply in_map_iff in I. destruct I as ([k1 d1] & Ek & I). cbn [fst] in Ek. subst k1. apply H0 in I. destruct (IH k d1 G0 I) as [b B]. exists b. apply Ext; [exact B|]. intros p X. discriminate.
        -- exists (length ops), ops, e, []. split; [reflexivity|]. split; [reflexivity|]. split; [exact F|]. split; [|intros p []].
           intros d' Hd. apply H0 in Hd. apply I. apply (in_map fst) in Hd. exact Hd.
      * destruct (IH k d G0 H) as [b B]. exists b. apply Ext; [exact B|]. intros p X. discriminate.
    + apply holds_snoc_remove in H. destruct H as [U H]. destruct (IH k d G0 H) as [b B]. exists b. apply Ext; [exact B|]. intros q X. injection X as <-. exact U.
Qed.
Theorem C50_find : forall ops s n, good ops -> st_run ops = Ok s ->
  match st_find s n with
  | Some d => exists k, holds ops k d /\ under n k /\
      (forall k' d' b b', k' <> k -> holds ops k' d' -> under n k' -> born ops k b -> born ops k' b' -> (b < b')%nat)
  | None => forall k d, holds ops k d -> ~ under n k
  end.
Proof.
  intros ops s n G E. destruct (C50_contents ops G) as (s' & E' & N & H). assert (s' = s) by congruence. subst s'.
  destruct (st_find s n) as [d|] eqn:F.
  - apply find_split in F. destruct F as (a & k & b & -> & P & Ha). exists k. split; [apply H; apply in_or_app; right; left; reflexivity|]. split; [apply under_iff; exact P|].
    intros k' d' bb bb' Nk Hk' U' B B'. apply H in Hk'. apply (birth_order ops _ G E k k'); [|exact B|exact B'].
    apply in_app_or in Hk'. destruct Hk' as [I|[I|I]].
    + apply Ha in I. cbn [fst] in I. apply under_iff in U'. congruence.
    + injection I as I _. congruence.
    + apply in_split in I. destruct I as (b1 & b2 & ->). exists (dkeys a), (dkeys b1), (dkeys b2). unfold dkeys. rewrite map_app. cbn [map fst]. rewrite map_app. reflexivity.
  - rewrite find_none in F. intros k d Hk U. apply H in Hk. apply F in Hk. apply under_iff in U. congruence.
Qed.
End C50.

(** ** Concrete cases *)
Definition ex_names : list name := [[c_generic [65]; c_generic [1]]; []; [c_generic [66; 67]]].
Example C49_ex : Forall name_ok ex_names /\ pst_wireDecode (pst_wireEncode ex_names) = Ok ex_names.
Proof.
  split; [|reflexivity]. unfold ex_names. repeat (apply Forall_cons; [repeat (apply Forall_cons; [apply gen_ok; reflexivity|]); apply Forall_nil|]). apply Forall_nil.
Qed.
(** packets are (name, contents); the second packet /A/1 replaces the first one *)
Definition ex_full (d : name * Z) : name := fst d.
Definition ex_ops : list (@st_op (name * Z)) :=
  [Insert ([c_generic [65]; c_generic [1]], 1); Insert ([c_generic [66]], 2); Insert ([c_generic [65]; c_generic [2]], 3);
   Insert ([c_generic [65]; c_generic [1]], 4); Remove [c_generic [66]]].
Example C50_ex : good ex_full ex_ops /\ exists s, st_run ex_full ex_ops = Ok s /\ st_size s = 2 /\
  st_find s [c_generic [65]] = Some ([c_generic [65]; c_generic [1]], 4) /\ st_find s [c_generic [66]] = None.
Proof.
  split.
  - intros d Hd. unfold ex_ops in Hd. cbn [In] in Hd. unfold valid_key, ex_full.
    repeat match goal with H : _ \/ _ |- _ => destruct H as [H|H] | H : False |- _ => destruct H | H : Insert _ = Insert _ |- _ => injection H as <- | H : Remove _ = Insert _ |- _ => discriminate end;
    cbn [fst]; repeat (apply Forall_cons; [apply MatchProps.gen_valid; repeat constructor; unfold is_byte; lia|]); apply Forall_nil.
  - eexists. split; [reflexivity|]. split; [reflexivity|]. split; reflexivity.
Qed.
Print Assumptions C49_round_trip.
Print Assumptions C49_safe.
Print Assumptions C49_trailing.
Print Assumptions C50_contents.
Print Assumptions C50_size.
Print Assumptions C50_find.
Print Assumptions C50_born.
