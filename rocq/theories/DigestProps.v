(** * Property C34: the digest tree *)
From Verif Require Import Base BaseLemmas BlobModel DigestModel DigestSpec.
From Coq Require Import Sorted Permutation Lia.
Local Open Scope res_scope.

Lemma str_lt_iff : forall a b, str_lt a b = true <-> str_before a b.
Proof.
  induction a as [|x a IH]; intros [|y b]; cbn [str_lt].
  - split; [discriminate|inversion 1].
  - split; [constructor|reflexivity].
  - split; [discriminate|inversion 1].
  - destruct (x =? y) eqn:E.
    + assert (x = y) by lia. subst y. rewrite IH. split; [now constructor|]. inversion 1; subst; [lia|assumption].
    + split; [intro; apply SB_less; lia|]. inversion 1; subst; lia.
Qed.
Lemma str_before_irr a : ~ str_before a a.
Proof. induction a as [|x a IH]; inversion 1; subst; [lia|auto]. Qed.
Lemma str_before_tra a b c : str_before a b -> str_before b c -> str_before a c.
Proof.
  intro H. revert c. induction H as [b y|a b x y L|a b x H IH]; intros c K.
  - inversion K; subst; apply SB_prefix.
  - inversion K; subst; apply SB_less; lia.
  - inversion K; subst; [now apply SB_less|]. apply SB_same. auto.
Qed.
Lemma str_before_tri a : forall b, str_before a b \/ a = b \/ str_before b a.
Proof.
  induction a as [|x a IH]; intros [|y b]; [auto|left; constructor|right; right; constructor|].
  destruct (Z.lt_trichotomy x y) as [H|[<-|H]]; [left; now apply SB_less| |right; right; now apply SB_less].
  destruct (IH b) as [H|[<-|H]]; [left; now apply SB_same|auto|right; right; now apply SB_same].
Qed.
Lemma lessThan_iff a b : lessThan a b = true <-> node_before a b.
Proof.
  unfold lessThan, node_before. destruct (str_lt (n_prefix a) (n_prefix b)) eqn:E.
  - apply str_lt_iff in E. tauto.
  - assert (N : ~ str_before (n_prefix a) (n_prefix b)) by (rewrite <- str_lt_iff; congruence). destruct (str_lt (n_prefix b) (n_prefix a)) eqn:F.
    + apply str_lt_iff in F. split; [discriminate|]. intros [H|[H _]]; [contradiction|]. rewrite H in F. now apply str_before_irr in F.
    + assert (M : ~ str_before (n_prefix b) (n_prefix a)) by (rewrite <- str_lt_iff; congruence). destruct (str_before_tri (n_prefix a) (n_prefix b)) as [K|[K|K]]; [tauto| |tauto].
      split; [intro; right; split; [exact K|lia]|intros [H|[_ H]]; [contradiction|lia]].
Qed.
Lemma node_before_irr a : ~ node_before a a.
Proof. intros [H|[_ H]]; [now apply str_before_irr in H|lia]. Qed.
Lemma node_before_tra a b c : node_before a b -> node_before b c -> node_before a c.
Proof.
  intros [H|[E H]] [K|[F K]]; unfold node_before.
  - left. eapply str_before_tra; eassumption.
  - rewrite <- F. auto.
  - rewrite E. auto.
  - right. split; [congruence|lia].
Qed.
Definition key (n : node) : str * Z := (n_prefix n, n_session n).
Lemma node_before_tri a b : node_before a b \/ key a = key b \/ node_before b a.
Proof.
  unfold node_before, key. destruct (str_before_tri (n_prefix a) (n_prefix b)) as [H|[H|H]]; [auto| |auto].
  destruct (Z.lt_trichotomy (n_session a) (n_session b)) as [L|[L|L]]; [auto|right; left; congruence|right; right; right; split; [congruence|lia]].
Qed.
Lemma node_before_key a a' b b' : key a = key a' -> key b = key b' -> node_before a b -> node_before a' b'.
Proof. unfold key, node_before. intros H K. injection H as -> ->. injection K as -> ->. auto. Qed.

(** Two sorted lists with the same elements are the same. *)
Lemma sorted_ext : forall l l', StronglySorted node_before l -> StronglySorted node_before l' -> (forall n, In n l <-> In n l') -> l = l'.
Proof.
  induction l as [|a l IH]; intros [|b l'] H H' E; [reflexivity|exfalso; apply (E b); now left|exfalso; apply (E a); now left|].
  apply StronglySorted_inv in H. apply StronglySorted_inv in H'. destruct H as [H Ha], H' as [H' Hb]. rewrite Forall_forall in Ha, Hb.
  assert (a = b).
  { destruct (proj1 (E a)) as [X|X]; [now left|auto|]. destruct (proj2 (E b)) as [Y|Y]; [now left|auto|]. exfalso. apply (node_before_irr a). eapply node_before_tra; [apply Ha, Y|apply Hb, X]. }
  subst b. f_equal. apply IH; [exact H|exact H'|]. intro n. split; intro Hn.
  - destruct (proj1 (E n)) as [->|X]; [now right| |exact X]. exfalso. eapply node_before_irr, Ha, Hn.
  - destruct (proj2 (E n)) as [->|X]; [now right| |exact X]. exfalso. eapply node_before_irr, Hb, Hn.
Qed.
Lemma insert_in l x n : In n (insert_sorted l x) <-> n = x \/ In n l.
Proof. induction l as [|a l IH]; cbn [insert_sorted]; [cbn; intuition|]. destruct (negb (lessThan a x)); cbn [In]; [intuition|]. rewrite IH. intuition. Qed.
Lemma insert_sorted_ok l x : StronglySorted node_before l -> (forall n, In n l -> key n <> key x) -> StronglySorted node_before (insert_sorted l x).
Proof.
  induction l as [|a l IH]; intros H K; cbn [insert_sorted]; [repeat constructor|]. pose proof (StronglySorted_inv H) as [H1 H2].
  destruct (lessThan a x) eqn:E; cbn [negb].
  - constructor; [apply IH; [exact H1|intros; apply K; now right]|]. apply Forall_forall. intros n Hn. apply insert_in in Hn. destruct Hn as [->|Hn]; [now apply lessThan_iff|]. rewrite Forall_forall in H2. auto.
  - assert (B : node_before x a).
    { destruct (node_before_tri a x) as [X|[X|X]]; [apply lessThan_iff in X; congruence|edestruct (K a); [now left|exact X]|exact X]. }
    constructor; [exact H|]. constructor; [exact B|]. eapply Forall_impl; [|exact H2]. intros. eapply node_before_tra; eassumption.
Qed.
Lemma set_at_split : forall l i n x, nth_error l i = Some n -> exists a b, l = a ++ n :: b /\ set_at l i x = a ++ x :: b /\ length a = i.
Proof.
  induction l as [|m l IH]; intros [|i] n x H; try discriminate; cbn [nth_error set_at] in *.
  - injection H as ->. exists [], l. auto.
  - destruct (IH i n x H) as (a & b & -> & -> & <-). exists (m :: a), b. auto.
Qed.
Lemma sorted_replace a n x b : key n = key x -> StronglySorted node_before (a ++ n :: b) -> StronglySorted node_before (a ++ x :: b).
Proof.
  intro K. induction a as [|m a IH]; cbn [app]; intro H; apply StronglySorted_inv in H; destruct H as [H1 H2].
  - constructor; [exact H1|]. eapply Forall_impl; [|exact H2]. intros. eapply node_before_key; [exact K|reflexivity|eassumption].
  - constructor; [auto|]. rewrite Forall_app in *. destruct H2 as [H2 H3]. split; [exact H2|]. inversion H3; subst. constructor; [|assumption]. eapply node_before_key; [reflexivity|exact K|assumption].
Qed.
Lemma find_spec : forall l i p s, 0 <= i ->
  (find_from i l p s = -1 /\ forall n, In n l -> key n <> (p, s)) \/
  exists k n, find_from i l p s = i + Z.of_nat k /\ nth_error l k = Some n /\ key n = (p, s).
Proof.
  induction l as [|m l IH]; intros i p s Hi; cbn [find_from]; [left; split; [reflexivity|intros n []]|].
  destruct (zlist_eqb (n_prefix m) p && (n_session m =? s)) eqn:E.
  - right. exists 0%nat, m. split; [lia|]. split; [reflexivity|]. apply andb_prop in E. destruct E as [E1 E2]. apply zlist_eqb_eq in E1. unfold key. f_equal; [exact E1|lia].
  - assert (N : key m <> (p, s)).
    { intro X. unfold key in X. injection X as X1 X2. rewrite X1, X2, Z.eqb_refl, andb_true_r in E. assert (zlist_eqb p p = true) by now apply zlist_eqb_eq. congruence. }
    destruct (IH (i + 1) p s) as [[H1 H2]|(k & n & H1 & H2 & H3)]; [lia| |].
    + left. split; [exact H1|]. intros n [<-|Hn]; auto.
    + right. exists (S k), n. split; [rewrite H1; lia|]. auto.
Qed.
(** ** hexadecimal *)
Lemma unhex_hex d : 0 <= d < 16 -> unhexdigit (hexdigit d) = Ok d.
Proof.
  intro H. unfold hexdigit, unhexdigit. destruct (d <? 10) eqn:E.
  - replace ((48 <=? 48 + d) && (48 + d <=? 57)) with true by lia. f_equal. lia.
  - replace ((48 <=? 87 + d) && (87 + d <=? 57)) with false by lia. replace ((97 <=? 87 + d) && (87 + d <=? 102)) with true by lia. f_equal. lia.
Qed.
Lemma fromhex_toHex b : bytes_ok b -> fromhex (blob_toHex (Some b)) = Ok b.
Proof.
  unfold blob_toHex. induction b as [|x b IH]; intro H; [reflexivity|]. inversion H as [|? ? Hx Hb]; subst. cbn [flat_map app fromhex].
  unfold is_byte in Hx. rewrite !unhex_hex by (split; [try apply Z.div_pos; try apply Z.mod_pos_bound; lia|try (apply Z.div_lt_upper_bound; lia); try apply Z.mod_pos_bound; lia]).
  cbn [rbind]. rewrite (IH Hb). cbn [rbind]. do 2 f_equal. pose proof (Z.div_mod x 16). lia.
Qed.
Lemma le32_eq v : le32 v = le_bytes v.
Proof.
  unfold le32, le_bytes. rewrite !Z.shiftr_shiftr by lia.
  assert (L : forall x, Z.land x 255 = x mod 256) by (intro x; change 255 with (Z.ones 8); rewrite Z.land_ones by lia; reflexivity).
  rewrite !L, !Z.shiftr_div_pow2 by lia. reflexivity.
Qed.

Definition prod_eq_dec' (a b : str * Z) : {a = b} + {a <> b}.
Proof. decide equality; [apply Z.eq_dec|apply list_eq_dec, Z.eq_dec]. Defined.
Section Inv.
Variable sha : bytes -> bytes.
Definition digest_ok (n : node) : Prop := node_digest sha (n_prefix n) (n_session n) (n_seq n) = Ok (n_digest n).
Record inv (us : list (str * Z * Z)) (t : tree) : Prop := Inv {
  v_sorted : StronglySorted node_before (t_nodes t);
  v_digest : forall n, In n (t_nodes t) -> digest_ok n;
  v_nodes : forall p s q, (exists n, In n (t_nodes t) /\ n_prefix n = p /\ n_session n = s /\ n_seq n = q) <-> encodable p /\ latest us p s q }.

Lemma digest_enc n : digest_ok n -> encodable (n_prefix n).
Proof. unfold digest_ok, node_digest, encodable. destruct (utf8_encode (n_prefix n)); [eauto|discriminate]. Qed.
Lemma node_digest_ok p s q : encodable p -> exists d, node_digest sha p s q = Ok d.
Proof. intros (b & E). unfold node_digest. rewrite E. eexists. reflexivity. Qed.
Lemma sorted_key l a b : StronglySorted node_before l -> In a l -> In b l -> key a = key b -> a = b.
Proof.
  induction l as [|x l IH]; intros H Ha Hb K; [contradiction|]. apply StronglySorted_inv in H. destruct H as [H F]. rewrite Forall_forall in F.
  destruct Ha as [->|Ha], Hb as [->|Hb]; [reflexivity| | |now apply IH].
  - exfalso. apply (node_before_irr a). eapply node_before_key; [reflexivity|symmetry; exact K|apply F, Hb].
  - exfalso. apply (node_before_irr b). eapply node_before_key; [reflexivity|exact K|apply F, Ha].
Qed.
Lemma key_dec (a b : str * Z) : a = b \/ a <> b.
Proof. destruct (prod_eq_dec' a b); auto. Qed.
Lemma latest_ex us p s : forall r, In (p, s, r) us -> exists m, latest us p s m.
Proof.
  induction us as [|[[p1 s1] q1] us IH]; intros r H; [contradiction|].
  assert (D : (exists r, In (p, s, r) us) \/ ~ exists r, In (p, s, r) us).
  { clear. induction us as [|[[p1 s1] q1] us IH]; [right; intros (r & [])|]. destruct IH as [(r & IH)|IH]; [left; exists r; now right|].
    destruct (prod_eq_dec' (p1, s1) (p, s)) as [E|E]; [left; exists q1; left; congruence|right]. intros (r & [X|X]); [congruence|eauto]. }
  destruct D as [(r1 & D)|D].
  - destruct (IH r1 D) as (m & M1 & M2). destruct (prod_eq_dec' (p1, s1) (p, s)) as [E|E].
    + injection E as -> ->. exists (Z.max m q1). split.
      * destruct (Z.max_spec m q1) as [[_ ->]|[_ ->]]; [now left|now right].
      * intros q [X|X]; [injection X as ->; lia|]. specialize (M2 _ X). lia.
    + exists m. split; [now right|]. intros q [X|X]; [congruence|auto].
  - destruct H as [H|H]; [|exfalso; eauto]. exists r. split; [left; exact H|]. intros q [X|X]; [|exfalso; eauto]. assert (q = r) by congruence. lia.
Qed.
Lemma latest_snoc us p s q p' s' q' : latest (us ++ [(p', s', q')]) p s q <->
  ((p, s) <> (p', s') /\ latest us p s q) \/ ((p, s) = (p', s') /\ ((latest us p s q /\ q' <= q) \/ (q = q' /\ forall r, In (p, s, r) us -> r <= q))).
Proof.
  unfold latest. split.
  - intros [H1 H2]. apply in_app_or in H1. cbn [In] in H1. destruct H1 as [H1|[H1|[]]].
    + assert (D : (p, s) = (p', s') \/ (p, s) <> (p', s')).
      { apply key_dec. }
      destruct D as [D|D].
      * right. split; [exact D|]. left. injection D as -> ->. split; [split; [exact H1|intros; apply H2, in_or_app; auto]|]. apply H2. apply in_or_app. right. now left.
      * left. split; [exact D|]. split; [exact H1|]. intros. apply H2, in_or_app. auto.
    + injection H1 as -> -> ->. right. split; [reflexivity|]. right. split; [reflexivity|]. intros. apply H2, in_or_app. auto.
  - intros [[D [H1 H2]]|[D [[[H1 H2] L]|[-> H2]]]].
    + split; [apply in_or_app; auto|]. intros r Hr. apply in_app_or in Hr. destruct Hr as [Hr|[Hr|[]]]; [auto|congruence].
    + split; [apply in_or_app; auto|]. intros r Hr. apply in_app_or in Hr. destruct Hr as [Hr|[Hr|[]]]; [auto|]. injection Hr as _ _ <-. exact L.
    + injection D as -> ->. split; [apply in_or_app; right; now left|]. intros r Hr. apply in_app_or in Hr. destruct Hr as [Hr|[Hr|[]]]; [auto|]. injection Hr as <-. lia.
Qed.
(** What a call of update does. *)
Definition set_root (t : tree) (l : list node) (r : tree * res bool) : Prop :=
  match recomputeRoot sha l with Ok h => r = (Tree l h, Ok true) | Err x => r = (Tree l (t_root t), Err x) end.
Inductive updated (t : tree) (p : str) (s q : Z) : tree * res bool -> Prop :=
| UOld n : In n (t_nodes t) -> key n = (p, s) -> q <= n_seq n -> updated t p s q (t, Ok false)
| UHigher n a b d r : t_nodes t = a ++ n :: b -> key n = (p, s) -> n_seq n < q -> node_digest sha p s q = Ok d ->
    set_root t (a ++ Node p s q d :: b) r -> updated t p s q r
| UNew d r : (forall n, In n (t_nodes t) -> key n <> (p, s)) -> node_digest sha p s q = Ok d ->
    set_root t (insert_sorted (t_nodes t) (Node p s q d)) r -> updated t p s q r
| UBad x : ~ encodable p -> updated t p s q (t, Err x).
Lemma update_spec us t p s q : inv us t -> updated t p s q (update sha t p s q).
Proof.
  intros [Is Id In_]. unfold update, find. destruct (find_spec (t_nodes t) 0 p s ltac:(lia)) as [[E N]|(k & n & E & Hn & K)]; rewrite E.
  - cbn [Z.leb Z.compare]. destruct (node_digest sha p s q) as [d|x] eqn:Ed.
    + eapply UNew; [exact N|exact Ed|]. unfold set_root. destruct (recomputeRoot _ _); reflexivity.
    + apply UBad. intro X. destruct (node_digest_ok p s q X). congruence.
  - rewrite Z.add_0_l. replace (0 <=? Z.of_nat k) with true by lia. rewrite Nat2Z.id, Hn. pose proof (nth_error_In _ _ Hn) as Hi. pose proof K as K'. unfold key in K'. injection K' as K1 K2.
    destruct (n_seq n <? q) eqn:L.
    + destruct (node_digest_ok (n_prefix n) (n_session n) q (digest_enc n (Id n Hi))) as (d & Ed). rewrite Ed, K1, K2. rewrite K1, K2 in Ed.
      destruct (set_at_split (t_nodes t) k n (Node p s q d) Hn) as (a & b & Ea & Eb & _). rewrite Eb.
      eapply UHigher; [exact Ea|exact K|lia|exact Ed|]. unfold set_root. destruct (recomputeRoot _ _); reflexivity.
    + eapply UOld; [exact Hi|exact K|lia].
Qed.
Lemma set_root_nodes t l r : set_root t l r -> t_nodes (fst r) = l.
Proof. unfold set_root. destruct (recomputeRoot sha l); intros ->; reflexivity. Qed.
Lemma inv_update us t p s q : inv us t -> inv (us ++ [(p, s, q)]) (fst (update sha t p s q)).
Proof.
  intro I. pose proof (update_spec us t p s q I) as U. destruct I as [Is Id In_].
  assert (Lu : forall n, In n (t_nodes t) -> latest us (n_prefix n) (n_session n) (n_seq n)) by (intros n Hn; apply In_; eauto).
  assert (En : forall n, In n (t_nodes t) -> encodable (n_prefix n)) by (intros n Hn; apply digest_enc, Id, Hn).
  assert (Lq : forall q1 q2 p s, latest us p s q1 -> latest us p s q2 -> q1 = q2) by (intros q1 q2 p0 s0 [A1 A2] [B1 B2]; specialize (A2 _ B1); specialize (B2 _ A1); lia).
  remember (update sha t p s q) as r0 eqn:Er; clear Er. destruct U as [n Hn K L|n a b d r El K L Ed Hr|d r N Ed Hr|x N]; cbn [fst].
  - constructor; [exact Is|exact Id|]. intros p' s' q'. rewrite In_, latest_snoc. split; intros [He H]; (split; [exact He|]).
    + destruct (Lu n Hn) as [Hin Hmax]. unfold key in K. injection K as K1 K2. rewrite K1, K2 in *.
      assert (D : (p', s') = (p, s) \/ (p', s') <> (p, s)).
      { apply key_dec. }
      destruct D as [D|D]; [right|left]; (split; [exact D|]); [|exact H]. left. split; [exact H|]. injection D as -> ->. destruct H as [H1 H2]. specialize (H2 _ Hin). lia.
    + destruct H as [[_ H]|[D [[H _]|[-> H]]]]; [exact H|exact H|]. injection D as -> ->. pose proof (Lu n Hn) as Hl. unfold key in K. injection K as K1 K2. rewrite K1, K2 in *.
      destruct Hl as [Hl1 Hl2]. specialize (H _ Hl1). assert (n_seq n = q) by lia. subst q. split; [exact Hl1|exact Hl2].
  - set (x := Node p s q d) in *. assert (Hn : In n (t_nodes t)) by (rewrite El; apply in_elt).
    assert (Ins : forall m, In m (a ++ x :: b) <-> m = x \/ (In m (t_nodes t) /\ m <> n)).
    { assert (Nd : NoDup (t_nodes t)).
      { clear - Is. induction (t_nodes t) as [|y l IH]; [constructor|]. apply StronglySorted_inv in Is. destruct Is as [H F]. constructor; [|auto]. intro Hy. rewrite Forall_forall in F. eapply node_before_irr, F, Hy. }
      intro m. rewrite El in *. apply NoDup_remove_2 in Nd. rewrite !in_app_iff. cbn [In]. rewrite in_app_iff in Nd. split.
      - intros [H|[H|H]]; [right; split; [auto|intros ->; auto]|auto|right; split; [auto|intros ->; auto]].
      - intros [->|[[H|[->|H]] Hne]]; [auto|auto|congruence|auto]. }
    constructor.
    + rewrite (set_root_nodes _ _ _ Hr). eapply sorted_replace; [|rewrite <- El; exact Is]. exact K.
    + rewrite (set_root_nodes _ _ _ Hr). intros m Hm. apply Ins in Hm. destruct Hm as [->|[Hm _]]; [exact Ed|now apply Id].
    + rewrite (set_root_nodes _ _ _ Hr). intros p' s' q'. rewrite latest_snoc. unfold key in K. injection K as K1 K2. split.
      * intros (m & Hm & E1 & E2 & E3). apply Ins in Hm. destruct Hm as [->|[Hm Hne]].
        -- cbn [x n_prefix n_session n_seq] in *. subst p' s' q'. split; [rewrite <- K1; apply En, Hn|]. right. split; [reflexivity|]. right. split; [reflexivity|].
           intros r0 Hr0. destruct (Lu n Hn) as [_ Hmax]. rewrite K1, K2 in Hmax. specialize (Hmax _ Hr0). lia.
        -- rewrite <- E1, <- E2, <- E3. split; [apply En, Hm|]. left. split; [|apply Lu, Hm]. intro X. apply Hne. eapply sorted_key; [exact Is|exact Hm|exact Hn|]. unfold key. rewrite K1, K2. exact X.
      * intros [He H]. destruct H as [[D H]|[D [[H H']|[-> H]]]].
        -- destruct (proj2 (In_ p' s' q') (conj He H)) as (m & Hm & E1 & E2 & E3). exists m. split; [|auto]. apply Ins. right. split; [exact Hm|]. intros ->. congruence.
        -- exfalso. injection D as -> ->. pose proof (Lu n Hn) as Hl. rewrite K1, K2 in Hl. pose proof (Lq _ _ _ _ H Hl). lia.
        -- injection D as -> ->. exists x. split; [apply Ins; auto|]. auto.
  - constructor.
    + rewrite (set_root_nodes _ _ _ Hr). apply insert_sorted_ok; [exact Is|exact N].
    + rewrite (set_root_nodes _ _ _ Hr). intros m Hm. apply insert_in in Hm. destruct Hm as [->|Hm]; [exact Ed|now apply Id].
    + rewrite (set_root_nodes _ _ _ Hr). intros p' s' q'. rewrite latest_snoc.
      assert (Ep : encodable p) by (unfold node_digest in Ed; unfold encodable; destruct (utf8_encode p); [eauto|discriminate]).
      assert (Nu : forall r0, ~ In (p, s, r0) us).
      { intros r0 Hr0. assert (exists m, latest us p s m) as (m & Hm) by (eapply latest_ex; exact Hr0).
        destruct (proj2 (In_ p s m) (conj Ep Hm)) as (n & Hn & E1 & E2 & _). apply (N n Hn). unfold key. congruence. }
      split.
      * intros (m & Hm & E1 & E2 & E3). apply insert_in in Hm. destruct Hm as [->|Hm].
        -- cbn [n_prefix n_session n_seq] in *. subst p' s' q'. split; [exact Ep|]. right. split; [reflexivity|]. right. split; [reflexivity|]. intros r0 Hr0. edestruct Nu; eassumption.
        -- rewrite <- E1, <- E2, <- E3. split; [apply En, Hm|]. left. split; [apply (N m Hm)|apply Lu, Hm].
      * intros [He H]. destruct H as [[D H]|[D [[[H _] _]|[-> H]]]].
        -- destruct (proj2 (In_ p' s' q') (conj He H)) as (m & Hm & E1 & E2 & E3). exists m. split; [|auto]. apply insert_in. auto.
        -- exfalso. injection D as -> ->. eapply Nu; eassumption.
        -- injection D as -> ->. exists (Node p s q d). split; [apply insert_in; auto|]. auto.
  - constructor; [exact Is|exact Id|]. intros p' s' q'. rewrite In_, latest_snoc. split; intros [He H]; (split; [exact He|]).
    + left. split; [|exact H]. intro X. injection X as -> ->. contradiction.
    + destruct H as [[_ H]|[D _]]; [exact H|]. injection D as -> ->. contradiction.
Qed.
Lemma run_snoc us u : run sha (us ++ [u]) = fst (update sha (run sha us) (fst (fst u)) (snd (fst u)) (snd u)).
Proof. unfold run. rewrite fold_left_app. reflexivity. Qed.
Lemma inv_run us : inv us (run sha us).
Proof.
  induction us as [|[[p s] q] us IH] using rev_ind.
  - constructor; [constructor|intros n []|]. intros p s q. split; [intros (n & [] & _)|intros [_ [[] _]]].
  - rewrite run_snoc. cbn [fst snd]. now apply inv_update.
Qed.
End Inv.

(** ** C34 *)
(** The nodes are sorted by prefix and session, so there is one for each. *)
Theorem C34_sorted : forall sha us, StronglySorted node_before (t_nodes (run sha us)).
Proof. intros. apply (inv_run sha us). Qed.
(** There is a node for each prefix and session that was updated, with the highest sequence number. *)
Theorem C34_nodes : forall sha us p s q,
  (exists n, In n (t_nodes (run sha us)) /\ n_prefix n = p /\ n_session n = s /\ n_seq n = q) <-> encodable p /\ latest us p s q.
Proof. intros. apply (inv_run sha us). Qed.
(** A sequence number never decreases and no node is removed. *)
Theorem C34_monotone : forall sha us us' n, In n (t_nodes (run sha us)) ->
  exists n', In n' (t_nodes (run sha (us ++ us'))) /\ n_prefix n' = n_prefix n /\ n_session n' = n_session n /\ n_seq n <= n_seq n'.
Proof.
  intros sha us us' n Hn. destruct (proj1 (C34_nodes sha us (n_prefix n) (n_session n) (n_seq n))) as [He [H1 H2]]; [eauto|].
  destruct (latest_ex (us ++ us') (n_prefix n) (n_session n) (n_seq n)) as (m & Hm); [apply in_or_app; auto|].
  destruct (proj2 (C34_nodes sha (us ++ us') _ _ m) (conj He Hm)) as (n' & A & B & C & D). exists n'. split; [exact A|]. split; [exact B|]. split; [exact C|]. rewrite D. apply Hm, in_or_app. auto.
Qed.
Lemma digests_ok sha l : sha_fn sha -> (forall n, In n l -> digest_ok sha n) ->
  exists bs, digests l = Ok (concat bs) /\ Forall2 (fun n b => exists p, utf8_encode (n_prefix n) = Ok p /\ b = node_hash sha p (n_session n) (n_seq n)) l bs.
Proof.
  intro Hs. induction l as [|n l IH]; intro H; [exists []; split; [reflexivity|constructor]|]. destruct IH as (bs & E & F); [intros; apply H; now right|].
  pose proof (H n (or_introl eq_refl)) as Hd. unfold digest_ok, node_digest in Hd. destruct (utf8_encode (n_prefix n)) as [p|] eqn:Ep; [|discriminate]. cbn [rbind] in Hd.
  assert (Hd' : n_digest n = blob_toHex (Some (node_hash sha p (n_session n) (n_seq n)))) by (unfold node_hash; rewrite <- !le32_eq; congruence). clear Hd.
  exists (node_hash sha p (n_session n) (n_seq n) :: bs). cbn [digests]. rewrite Hd'. unfold node_hash. rewrite fromhex_toHex by apply Hs. cbn [rbind]. rewrite E. cbn [rbind concat]. split; [reflexivity|]. constructor; [|exact F]. eauto.
Qed.
Lemma root_inv sha us : sha_fn sha ->
  (t_nodes (run sha us) = [] /\ t_root (run sha us) = [48; 48]) \/ (t_nodes (run sha us) <> [] /\ recomputeRoot sha (t_nodes (run sha us)) = Ok (t_root (run sha us))).
Proof.
  intro Hs. induction us as [|[[p s] q] us IH] using rev_ind; [left; split; reflexivity|].
  pose proof (inv_run sha (us ++ [(p, s, q)])) as I'. rewrite run_snoc in *. cbn [fst snd] in *. pose proof (update_spec sha us _ p s q (inv_run sha us)) as U.
  remember (update sha (run sha us) p s q) as r0 eqn:Er. clear Er.
  assert (R : forall l r, set_root sha (run sha us) l r -> (forall n, In n l -> digest_ok sha n) -> t_nodes (fst r) = l /\ recomputeRoot sha l = Ok (t_root (fst r))).
  { intros l r H Hd. unfold set_root in H. destruct (digests_ok sha l Hs Hd) as (bs & E & _). unfold recomputeRoot in *. rewrite E in *. cbn [rbind] in *. subst r. auto. }
  destruct U as [n Hn K L|n a b d r El K L Ed Hr|d r N Ed Hr|x N]; cbn [fst]; [exact IH| | |exact IH].
  - right. pose proof (set_root_nodes _ _ _ _ Hr) as En. destruct (R _ _ Hr) as [R1 R2]; [rewrite <- En; apply I'|]. rewrite En. split; [intro X; destruct a; discriminate|exact R2].
  - right. pose proof (set_root_nodes _ _ _ _ Hr) as En. destruct (R _ _ Hr) as [R1 R2]; [rewrite <- En; apply I'|]. rewrite En. split; [|exact R2].
    intro X. assert (Y : In (Node p s q d) (insert_sorted (t_nodes (run sha us)) (Node p s q d))) by (apply insert_in; auto). rewrite X in Y. contradiction.
Qed.
(** The root is the hash of the hashes of the nodes in order ("00" for no node). *)
Theorem C34_root : forall sha us, sha_fn sha -> t_nodes (run sha us) <> [] ->
  exists bs, t_root (run sha us) = blob_toHex (Some (sha (concat bs))) /\
    Forall2 (fun n b => exists p, utf8_encode (n_prefix n) = Ok p /\ b = node_hash sha p (n_session n) (n_seq n)) (t_nodes (run sha us)) bs.
Proof.
  intros sha us Hs Hn. destruct (root_inv sha us Hs) as [[X _]|[_ R]]; [congruence|].
  destruct (digests_ok sha (t_nodes (run sha us)) Hs) as (bs & E & F); [apply (inv_run sha us)|]. exists bs. split; [|exact F]. unfold recomputeRoot in R. rewrite E in R. injection R as <-. reflexivity.
Qed.
Theorem C34_root_empty : forall sha us, sha_fn sha -> t_nodes (run sha us) = [] -> t_root (run sha us) = [48; 48].
Proof. intros sha us Hs Hn. destruct (root_inv sha us Hs) as [[_ X]|[X _]]; [exact X|congruence]. Qed.
(** The result of a call: true if the update was new, in which case it is recorded; false if not, and then nothing changes. *)
Theorem C34_result : forall sha us p s q, sha_fn sha -> encodable p ->
  (snd (update sha (run sha us) p s q) = Ok true /\ (forall q', In (p, s, q') us -> q' < q)) \/
  (snd (update sha (run sha us) p s q) = Ok false /\ (exists q', In (p, s, q') us /\ q <= q') /\ fst (update sha (run sha us) p s q) = run sha us).
Proof.
  intros sha us p s q Hs He. pose proof (inv_run sha us) as I. pose proof (inv_update sha us _ p s q I) as I'. pose proof (update_spec sha us _ p s q I) as U.
  remember (update sha (run sha us) p s q) as r0 eqn:Er. clear Er.
  assert (R : forall l r, set_root sha (run sha us) l r -> (forall n, In n l -> digest_ok sha n) -> snd r = Ok true).
  { intros l r H Hd. unfold set_root in H. destruct (digests_ok sha l Hs Hd) as (bs & E & _). unfold recomputeRoot in *. rewrite E in *. cbn [rbind] in *. subst r. reflexivity. }
  destruct U as [n Hn K L|n a b d r El K L Ed Hr|d r N Ed Hr|x N]; cbn [fst snd].
  - right. split; [reflexivity|]. split; [|reflexivity]. unfold key in K. injection K as K1 K2. destruct (proj1 (v_nodes _ _ _ I p s (n_seq n))) as [_ [H _]]; [eauto|]. eauto.
  - left. pose proof (set_root_nodes _ _ _ _ Hr) as En. split; [apply (R _ _ Hr); rewrite <- En; apply I'|]. intros q' Hq. unfold key in K. injection K as K1 K2.
    destruct (proj1 (v_nodes _ _ _ I p s (n_seq n))) as [_ [_ H]]; [exists n; split; [rewrite El; apply in_elt|auto]|]. specialize (H _ Hq). lia.
  - left. pose proof (set_root_nodes _ _ _ _ Hr) as En. split; [apply (R _ _ Hr); rewrite <- En; apply I'|]. intros q' Hq. exfalso.
    destruct (latest_ex us p s q' Hq) as (m & Hm). destruct (proj2 (v_nodes _ _ _ I p s m) (conj He Hm)) as (n & Hn & E1 & E2 & _). apply (N n Hn). unfold key. congruence.
  - contradiction.
Qed.
(** Two trees with the same latest sequence numbers are the same, *)
Theorem C34_same : forall sha us us', sha_fn sha -> (forall p s q, encodable p -> (latest us p s q <-> latest us' p s q)) -> run sha us = run sha us'.
Proof.
  intros sha us us' Hs H. assert (E : t_nodes (run sha us) = t_nodes (run sha us')).
  { apply sorted_ext; [apply C34_sorted..|]. assert (K : forall us us', (forall p s q, encodable p -> (latest us p s q -> latest us' p s q)) -> forall n, In n (t_nodes (run sha us)) -> In n (t_nodes (run sha us'))).
    { clear. intros us us' H n Hn. destruct (proj1 (C34_nodes sha us (n_prefix n) (n_session n) (n_seq n))) as [He Hl]; [eauto|].
      destruct (proj2 (C34_nodes sha us' _ _ _) (conj He (H _ _ _ He Hl))) as (m & Hm & E1 & E2 & E3). replace n with m; [exact Hm|].
      pose proof (v_digest _ _ _ (inv_run sha us) n Hn) as D1. pose proof (v_digest _ _ _ (inv_run sha us') m Hm) as D2. unfold digest_ok in *. rewrite E1, E2, E3 in D2. rewrite D1 in D2. injection D2 as D2.
      destruct n, m. cbn in *. congruence. }
    intro n. split; apply K; intros p s q He; apply (H p s q He). }
  destruct (root_inv sha us Hs) as [[X1 X2]|[X1 X2]], (root_inv sha us' Hs) as [[Y1 Y2]|[Y1 Y2]]; destruct (run sha us) as [l r], (run sha us') as [l' r']; cbn [t_nodes t_root] in *; congruence.
Qed.
(** in particular after the same updates in any order, repeated or not. *)
Theorem C34_order : forall sha us us', sha_fn sha -> (forall u, In u us <-> In u us') -> run sha us = run sha us'.
Proof. intros sha us us' Hs H. apply C34_same; [exact Hs|]. intros p s q _. unfold latest. split; intros [H1 H2]; (split; [apply H, H1|intros q' Hq; apply H2, H, Hq]). Qed.
(** But equal roots do not mean equal trees, whatever the hash function: 32 bits of the numbers are hashed. *)
Theorem C34_wrap_refuted : forall sha, exists us us', t_root (run sha us) = t_root (run sha us') /\ map n_seq (t_nodes (run sha us)) <> map n_seq (t_nodes (run sha us')).
Proof.
  intro sha. exists [([47; 97], 1, 1)], [([47; 97], 1, 4294967297)].
  assert (G : forall q, le32 q = [1; 0; 0; 0] -> let d := blob_toHex (Some (sha (sha [47; 97] ++ sha (le32 1 ++ [1; 0; 0; 0])))) in
    t_root (run sha [([47; 97], 1, q)]) = match recomputeRoot sha [Node [47; 97] 1 0 d] with Ok r => r | Err _ => [48; 48] end /\ map n_seq (t_nodes (run sha [([47; 97], 1, q)])) = [q]).
  { intros q Hq d. unfold run, update, find. cbn [fold_left fst snd t_nodes new find_from]. change (0 <=? -1) with false. cbn iota. unfold node_digest. rewrite Hq. cbn [rbind].
    change (utf8_encode [47; 97]) with (Ok [47; 97]). cbn [rbind insert_sorted]. fold d. assert (E : recomputeRoot sha [Node [47; 97] 1 q d] = recomputeRoot sha [Node [47; 97] 1 0 d]) by reflexivity. rewrite E.
    destruct (recomputeRoot sha _); split; reflexivity. }
  destruct (G 1 eq_refl) as [-> ->], (G 4294967297 eq_refl) as [-> ->]. split; [reflexivity|discriminate].
Qed.
Example C34_example : map (fun n => (n_prefix n, n_session n, n_seq n)) (t_nodes (run (fun b => b) [([47; 98], 1, 5); ([47; 97], 2, 1); ([47; 97], 1, 3); ([47; 97], 1, 2); ([47; 98], 1, 7)])) = [([47; 97], 1, 3); ([47; 97], 2, 1); ([47; 98], 1, 7)].
Proof. vm_compute. reflexivity. Qed.
Print Assumptions C34_sorted.
Print Assumptions C34_nodes.
Print Assumptions C34_monotone.
Print Assumptions C34_root.
Print Assumptions C34_root_empty.
Print Assumptions C34_result.
Print Assumptions C34_same.
Print Assumptions C34_order.
Print Assumptions C34_wrap_refuted.
