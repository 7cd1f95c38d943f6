(** * The choice of the reply, stored interests and callbacks of the memory content cache. *)
From Verif Require Import Base BaseLemmas NameModel NameSpec NameProofs UriModel WireModel MatchModel MatchProofs MatchProps MccModel MccSpec ListAux MccProofs.
From Coq Require Import Lia Sorted.
Local Open Scope res_scope.

Section Mcc.
Variable enc : data -> res bytes.
Variable interval : Z.
Notation step := (step enc interval). Notation run := (run enc interval). Notation init := (init interval).

(** ** scan *)
Definition ok (i : interest) (x : name * bytes * bool) : Prop := i_matchesName i (fst (fst x)) = Ok true /\ (i_mustBeFresh i = true -> snd x = true).
Definition ckey (i : interest) (n : name) : key := nth (length (i_name i)) (n_key n) (8, []).
Definition better (cs : Z) (a b : key) : Prop := if cs =? 0 then key_lt a b else key_lt b a.
Lemma better_irr cs a : ~ better cs a a. Proof. unfold better. destruct (cs =? 0); apply key_lt_irr. Qed.
Lemma better_tra cs a b c : better cs a b -> better cs b c -> better cs a c.
Proof. unfold better. destruct (cs =? 0); intros H1 H2; eapply key_lt_tra; eassumption. Qed.

Lemma child_ok i n : exists c, (if zlen (i_name i) <? zlen n then py_getitem n (zlen (i_name i)) else Ok (c_generic [])) = Ok c /\ c_key c = ckey i n.
Proof.
  unfold ckey, n_key. destruct (zlen (i_name i) <? zlen n) eqn:E.
  - destruct (split_at_len _ n (zlen (i_name i))) as (p & c & q & -> & L); [pose proof (zlen_nonneg _ (i_name i)); lia|].
    exists c. rewrite <- L, getitem_split. split; [reflexivity|]. rewrite map_app. cbn [map]. assert (Lp : length (i_name i) = length (map c_key p)) by (rewrite map_length; unfold zlen in L; lia).
    rewrite Lp, nth_middle. reflexivity.
  - exists (c_generic []). split; [reflexivity|]. rewrite nth_overflow; [reflexivity|]. rewrite map_length. unfold zlen in E. lia.
Qed.
Lemma ok_dec i n b fr : forall m, i_matchesName i n = Ok m -> (m && negb (i_mustBeFresh i && negb fr) = true <-> ok i (n, b, fr)).
Proof. intros m H. unfold ok. cbn [fst snd]. rewrite H. destruct m, (i_mustBeFresh i), fr; cbn; intuition congruence. Qed.

Lemma scan_some i : forall l sel b, scan i sel l = Ok (Some b) -> (exists c, sel = Some (c, b)) \/ exists n fr, In (n, b, fr) l /\ ok i (n, b, fr).
Proof.
  induction l as [|[[n b0] fr] l IH]; intros sel b; cbn [scan].
  - destruct sel as [[c b']|]; cbn; [intro H; injection H as <-; left; eauto|discriminate].
  - destruct (i_matchesName i n) as [m|x] eqn:Em; cbn [rbind]; [|discriminate].
    destruct (m && negb (i_mustBeFresh i && negb fr)) eqn:Eo; [apply (ok_dec i n b0 fr m Em) in Eo|].
    + destruct (i_child i) as [cs|]; [|intro H; injection H as <-; right; exists n, fr; split; [now left|exact Eo]].
      destruct (child_ok i n) as (c & -> & _). cbn [rbind]. intro H. apply IH in H. destruct H as [(c' & H)|(n' & fr' & Hi & Ho)]; [|right; exists n', fr'; split; [now right|exact Ho]].
      match type of H with (if ?B then _ else _) = _ => destruct B end; [injection H as <- <-; right; exists n, fr; split; [now left|exact Eo]|left; eauto].
    + intro H. apply IH in H. destruct H as [H|(n' & fr' & Hi & Ho)]; [now left|right; exists n', fr'; split; [now right|exact Ho]].
Qed.
Lemma scan_best i cs : i_child i = Some cs -> forall l sel r, scan i sel l = Ok r ->
  match r with
  | None => sel = None /\ forall x, In x l -> ~ ok i x
  | Some b => exists k, ((exists c, sel = Some (c, b) /\ c_key c = k) \/ exists n fr, In (n, b, fr) l /\ ok i (n, b, fr) /\ k = ckey i n) /\
      (forall c b', sel = Some (c, b') -> ~ better cs (c_key c) k) /\ (forall n b' fr, In (n, b', fr) l -> ok i (n, b', fr) -> ~ better cs (ckey i n) k)
  end.
Proof.
  intro Hc. induction l as [|[[n b0] fr] l IH]; intros sel r; cbn [scan].
  - intro H. injection H as <-. destruct sel as [[c b]|]; cbn [option_map snd]; [|split; [reflexivity|intros ? []]].
    exists (c_key c). split; [left; eauto|]. split; [|intros ? ? ? []]. intros c' b' H. injection H as <- <-. apply better_irr.
  - destruct (i_matchesName i n) as [m|x] eqn:Em; cbn [rbind]; [|discriminate].
    destruct (m && negb (i_mustBeFresh i && negb fr)) eqn:Eo.
    + pose proof (proj1 (ok_dec i n b0 fr m Em) Eo) as Hok. rewrite Hc. destruct (child_ok i n) as (c & -> & Hk). cbn [rbind].
      set (bt := match sel with Some (c0, _) => if cs =? 0 then c_compare c c0 <? 0 else 0 <? c_compare c c0 | None => true end).
      assert (Hbt : forall c0 b', sel = Some (c0, b') -> (bt = true <-> better cs (c_key c) (c_key c0))).
      { intros c0 b' ->. unfold bt, better. destruct (cs =? 0); [apply cmp_lt|apply cmp_gt]. }
      intro H. apply IH in H. destruct r as [b|].
      * destruct H as (k & H1 & H2 & H3). destruct bt eqn:Eb.
        -- exists k. assert (Hnk : ~ better cs (c_key c) k) by (eapply H2; reflexivity). split; [|split].
           ++ destruct H1 as [(c' & E & <-)|(n' & fr' & Hi & Ho & ->)]; [injection E as <- <-; right; exists n, fr; split; [now left|auto]|right; exists n', fr'; split; [now right|auto]].
           ++ intros c0 b' Es Hb. apply Hnk. eapply better_tra; [apply (Hbt _ _ Es); reflexivity|exact Hb].
           ++ intros n' b' fr' [E|Hi] Ho; [injection E as <- <- <-; now rewrite <- Hk|eapply H3; eassumption].
        -- exists k. split; [|split; [exact H2|]].
           ++ destruct H1 as [H1|(n' & fr' & Hi & Ho & ->)]; [now left|right; exists n', fr'; split; [now right|auto]].
           ++ intros n' b' fr' [E|Hi] Ho; [injection E as <- <- <-|eapply H3; eassumption]. rewrite <- Hk. intro Hb.
              destruct sel as [[c0 b1]|]; [|discriminate]. specialize (H2 c0 b1 eq_refl). apply H2.
              destruct (c_compare_cases c c0) as [(_ & Hl)|[(_ & Hl)|(_ & Hl)]].
              ** unfold better in *. destruct (cs =? 0) eqn:E0; [exfalso; apply (Hbt c0 b1) in Hl; congruence|]. eapply key_lt_tra; [exact Hb|exact Hl].
              ** now rewrite <- Hl.
              ** unfold better in *. destruct (cs =? 0) eqn:E0; [eapply key_lt_tra; [exact Hl|exact Hb]|]. exfalso. apply (Hbt c0 b1) in Hl; congruence.
      * destruct H as [H1 _]. exfalso. destruct bt eqn:Eb; [discriminate|]. subst sel. discriminate.
    + assert (Hno : ~ ok i (n, b0, fr)) by (intro K; apply (ok_dec i n b0 fr m Em) in K; congruence).
      intro H. apply IH in H. destruct r as [b|].
      * destruct H as (k & H1 & H2 & H3). exists k. split; [|split; [exact H2|]].
        -- destruct H1 as [H1|(n' & fr' & Hi & Ho & ->)]; [now left|right; exists n', fr'; split; [now right|auto]].
        -- intros n' b' fr' [E|Hi] Ho; [injection E as <- <- <-; contradiction|eapply H3; eassumption].
      * destruct H as [H1 H2]. split; [exact H1|]. intros x [<-|Hi]; [exact Hno|now apply H2].
Qed.
Lemma scan_first i : i_child i = None -> forall l r, scan i None l = Ok r ->
  match r with
  | None => forall x, In x l -> ~ ok i x
  | Some b => exists l1 n fr l2, l = l1 ++ (n, b, fr) :: l2 /\ ok i (n, b, fr) /\ forall x, In x l1 -> ~ ok i x
  end.
Proof.
  intro Hc. induction l as [|[[n b0] fr] l IH]; intros r; cbn [scan].
  - intro H. injection H as <-. cbn [option_map]. intros ? [].
  - destruct (i_matchesName i n) as [m|x] eqn:Em; cbn [rbind]; [|discriminate]. rewrite Hc.
    destruct (m && negb (i_mustBeFresh i && negb fr)) eqn:Eo.
    + intro H. injection H as <-. exists [], n, fr, l. split; [reflexivity|]. split; [now apply (ok_dec i n b0 fr m Em)|intros ? []].
    + assert (Hno : ~ ok i (n, b0, fr)) by (intro K; apply (ok_dec i n b0 fr m Em) in K; congruence).
      intro H. apply IH in H. destruct r as [b|].
      * destruct H as (l1 & n' & fr' & l2 & -> & Ho & H). exists ((n, b0, fr) :: l1), n', fr', l2. split; [reflexivity|]. split; [exact Ho|]. intros x [<-|Hi]; [exact Hno|auto].
      * intros x [<-|Hi]; [exact Hno|auto].
Qed.
Lemma scan_total i : forall l sel, (forall x, In x l -> exists m, i_matchesName i (fst (fst x)) = Ok m) -> exists r, scan i sel l = Ok r.
Proof.
  induction l as [|[[n b0] fr] l IH]; intros sel H; cbn [scan]; [eauto|].
  destruct (H (n, b0, fr) (or_introl eq_refl)) as (m & Em). cbn [fst] in Em. rewrite Em. cbn [rbind].
  assert (H' : forall x, In x l -> exists m, i_matchesName i (fst (fst x)) = Ok m) by (intros; apply H; now right).
  destruct (m && _); [destruct (i_child i); [|eauto]; destruct (child_ok i n) as (c & -> & _); cbn [rbind]|]; apply IH, H'.
Qed.

(** ** The candidates at the time of an interest *)
Lemma items_in s now x : In x (items s now) <-> (exists c, In c (s_stale s) /\ x = (k_name c, k_enc c, now <? k_expiry c)) \/ (exists c, In c (s_plain s) /\ x = (p_name c, p_enc c, true)).
Proof. unfold items. rewrite in_app_iff, !in_map_iff. split; (intros [(c & H1 & H2)|(c & H1 & H2)]; [left|right]; exists c; split; congruence). Qed.

Definition item_of (now : Z) (d : data) (t : Z) (b : bytes) : name * bytes * bool := (d_name d, b, match period d with Some f => now <? t + f | None => true end).
Lemma item_ok i now d t b : ok i (item_of now d t b) <-> eligible i d t now.
Proof.
  unfold ok, eligible, item_of, fresh. cbn [fst snd]. destruct (period d) as [f|]; split; intros [H1 H2]; split; try exact H1; intro H; specialize (H2 H).
  - intros f' E. injection E as <-. lia.
  - specialize (H2 f eq_refl). lia.
  - intros ? [=].
  - reflexivity.
Qed.
Lemma items_from t0 os now x : 0 <= interval -> timed t0 os -> clock t0 os <= now -> In x (items (doCleanup interval (run (init t0) os) now) now) ->
  exists d t m b, added os d t m /\ enc d = Ok b /\ x = item_of now d t b /\ forall f, period d = Some f -> now < t + Z.max f m + interval.
Proof.
  intros Hi Ht Hc Hx. pose proof (inv_run enc interval t0 os Hi Ht) as I. destruct (cleanup_inv enc interval t0 os _ now I Hc Hi) as (_ & _ & C3 & _ & C5 & _).
  apply items_in in Hx. destruct Hx as [(c & Hin & ->)|(c & Hin & ->)].
  - destruct (C5 c Hin) as (Hin' & _ & Hr). apply (i_stale _ _ _ _ _ I) in Hin'. destruct Hin' as (d & t & m & f & Ha & Hp & He & E). exists d, t, m, (k_enc c). split; [exact Ha|]. split; [exact He|].
    rewrite E in Hr |- *. cbn in Hr |- *. unfold item_of. rewrite Hp. split; [reflexivity|]. intros f' E'. injection E' as <-. lia.
  - rewrite C3 in Hin. apply (i_plain _ _ _ _ _ I) in Hin. destruct Hin as (d & t & m & Ha & Hp & He & E). exists d, t, m, (p_enc c). split; [exact Ha|]. split; [exact He|]. rewrite E. unfold item_of. rewrite Hp.
    split; [reflexivity|]. intros ? [=].
Qed.
Lemma items_has t0 os now d t m b : 0 <= interval -> timed t0 os -> clock t0 os <= now -> added os d t m -> enc d = Ok b -> live d t m now ->
  In (item_of now d t b) (items (doCleanup interval (run (init t0) os) now) now).
Proof.
  intros Hi Ht Hc Ha He Hl. pose proof (inv_run enc interval t0 os Hi Ht) as I. destruct (cleanup_inv enc interval t0 os _ now I Hc Hi) as (_ & _ & C3 & _ & _ & C6).
  apply items_in. unfold item_of, live in *. destruct (period d) as [f|] eqn:Ep.
  - left. specialize (Hl f eq_refl). destruct (i_stale_has _ _ _ _ _ I d t m f b Ha Ep He) as [H|H]; [|lia].
    eexists. split; [apply C6; [exact H|cbn; lia]|reflexivity].
  - right. eexists. split; [rewrite C3; exact (i_plain_has _ _ _ _ _ I d t m b Ha Ep He)|reflexivity].
Qed.

(** ** Callbacks for a prefix *)
Lemma handler_inv t0 os uri : lookup uri (s_handlers (run (init t0) os)) = handler os uri.
Proof.
  unfold handler. induction os as [|o os IH] using rev_ind; [reflexivity|]. rewrite run_snoc, fold_left_app. cbn [fold_left]. rewrite <- IH. set (s := run (init t0) os).
  destruct o as [d now fails|p i f now fails|i f now|m|p [h|]|]; try reflexivity.
  - assert (E : s_handlers (step s (MAdd d now fails)) = s_handlers s); [|now rewrite E]. cbn [MccModel.step]. unfold add. destruct (cleanup_rest interval s now) as (E & _).
    destruct (enc d); [|exact E].
    match goal with |- context[answer ?a ?b ?c ?dd ?e] => destruct (answer a b c dd e) as [[stay l] [x|]] end;
    cbn; destruct (mi_freshness (d_meta d)) as [fr|]; try destruct (0 <=? fr); exact E.
  - assert (E : s_handlers (step s (MInterest p i f now fails)) = s_handlers s); [|now rewrite E]. cbn [MccModel.step]. unfold onInterest. destruct (cleanup_rest interval s now) as (E & _).
    destruct (scan _ _ _) as [[b|]|x]; [destruct fails|destruct (lookup (n_toUri p false) (s_handlers (doCleanup interval s now)))|]; exact E.
Qed.

(** ** Stored interests *)
Definition serq (n : nat) (q : pending) : bool := Nat.eqb (q_ser q) n.
Definition pend_ok (d : data) (b : bytes) (now : Z) (q : pending) : Prop := now < q_timeout q /\ i_matchesName (q_int q) (d_name d) = Ok true.
Lemma answer_spec d b now fails : forall rp stay l x, answer d b now fails rp = (stay, l, x) ->
  (forall q, In q stay -> In q rp) /\
  (forall e, In e l -> exists q, e = LPend q b now /\ In q rp /\ pend_ok d b now q) /\
  (forall n, (cnt (serq n) stay + cnt (sent_to n) l <= cnt (serq n) rp)%nat) /\
  (forall q, In q rp -> In q stay \/ q_timeout q <= now \/ In (LPend q b now) l) /\
  ((forall q, In q rp -> exists m, i_matchesName (q_int q) (d_name d) = Ok m) -> (forall f, fails f = false) ->
   x = None /\ forall q, In q rp -> pend_ok d b now q -> In (LPend q b now) l).
Proof.
  induction rp as [|p rp IH]; intros stay l x; cbn [answer].
  - intro H. injection H as <- <- <-. cbn. intuition.
  - destruct (q_timeout p <=? now) eqn:Et.
    + intro H. destruct (IH _ _ _ H) as (H1 & H2 & H3 & H4 & H5). split; [intros q Hq; right; auto|]. split; [intros e He; destruct (H2 e He) as (q & -> & Hq & Ho); exists q; split; [reflexivity|split; [now right|exact Ho]]|].
      split; [intro n; rewrite cnt_cons; specialize (H3 n); lia|]. split; [intros q [<-|Hq]; [right; left; lia|auto]|].
      intros K1 K2. destruct H5 as [H5 H6]; [intros; apply K1; now right|exact K2|]. split; [exact H5|]. intros q [<-|Hq] Ho; [destruct Ho; lia|auto].
    + destruct (i_matchesName (q_int p) (d_name d)) as [[|]|ex] eqn:Em.
      * destruct (fails (q_face p)) eqn:Ef.
        -- intro H. injection H as <- <- <-. split; [auto|]. split; [intros ? []|]. split; [intro n; rewrite cnt_nil; lia|]. split; [auto|]. intros _ K2. rewrite K2 in Ef. discriminate.
        -- destruct (answer d b now fails rp) as [[stay' l'] x'] eqn:Ea. intro H. injection H as <- <- <-. destruct (IH _ _ _ eq_refl) as (H1 & H2 & H3 & H4 & H5).
           split; [intros q Hq; right; auto|].
           split; [intros e [<-|He]; [exists p; split; [reflexivity|split; [now left|split; [lia|exact Em]]]|destruct (H2 e He) as (q & -> & Hq & Ho); exists q; split; [reflexivity|split; [now right|exact Ho]]]|].
           split; [intro n; rewrite !cnt_cons; cbn [sent_to]; unfold serq at 2; specialize (H3 n); destruct (Nat.eqb (q_ser p) n); lia|].
           split; [intros q [<-|Hq]; [right; right; now left|destruct (H4 q Hq) as [?|[?|?]]; [auto|auto|right; right; now right]]|].
           intros K1 K2. destruct H5 as [H5 H6]; [intros; apply K1; now right|exact K2|]. split; [exact H5|]. intros q [<-|Hq] Ho; [now left|right; auto].
      * destruct (answer d b now fails rp) as [[stay' l'] x'] eqn:Ea. intro H. injection H as <- <- <-. destruct (IH _ _ _ eq_refl) as (H1 & H2 & H3 & H4 & H5).
        split; [intros q [<-|Hq]; [now left|right; auto]|].
        split; [intros e He; destruct (H2 e He) as (q & -> & Hq & Ho); exists q; split; [reflexivity|split; [now right|exact Ho]]|].
        split; [intro n; rewrite !cnt_cons; specialize (H3 n); lia|].
        split; [intros q [<-|Hq]; [left; now left|destruct (H4 q Hq) as [?|[?|?]]; [left; now right|auto|auto]]|].
        intros K1 K2. destruct H5 as [H5 H6]; [intros; apply K1; now right|exact K2|]. split; [exact H5|]. intros q [<-|Hq] Ho; [destruct Ho; congruence|auto].
      * intro H. injection H as <- <- <-. split; [auto|]. split; [intros ? []|]. split; [intro n; rewrite cnt_nil; lia|]. split; [auto|].
        intros K1 _. destruct (K1 p (or_introl eq_refl)). congruence.
Qed.

(** The effect of each call on the stored interests and the log. *)
Lemma add_pend s d now fails : exists stay l x, answer d (match enc d with Ok b => b | Err _ => [] end) now fails (match enc d with Ok _ => rev (s_pend s) | Err _ => [] end) = (stay, l, x) /\
  let s' := add enc interval s d now fails in
  s_nextSer s' = s_nextSer s /\
  match enc d with
  | Ok _ => s_pend s' = rev stay /\ s_log s' = s_log s ++ l ++ match x with Some x => [LRaise x] | None => [] end
  | Err e => s_pend s' = s_pend s /\ s_log s' = s_log s ++ [LRaise e]
  end.
Proof.
  destruct (cleanup_rest interval s now) as (E1 & E2 & E3 & E4 & _). unfold add. set (s1 := doCleanup interval s now) in *.
  destruct (enc d) as [b|e] eqn:Ee.
  - destruct (answer d b now fails (rev (s_pend s))) as [[stay l] x] eqn:Ea. exists stay, l, x. split; [reflexivity|].
    destruct (mi_freshness (d_meta d)) as [fr|]; [destruct (0 <=? fr)|]; cbn [s_pend]; rewrite E2, Ea; destruct x; cbn; rewrite ?E3, ?E4, ?app_nil_r, <- ?app_assoc; auto.
  - exists [], [], None. split; [reflexivity|]. cbn. rewrite E2, E3, E4. auto.
Qed.
Lemma interest_rest s p i f now fails : let s' := onInterest interval s p i f now fails in
  s_pend s' = s_pend s /\ s_nextSer s' = s_nextSer s /\ exists l, s_log s' = s_log s ++ l /\ forall n, cnt (sent_to n) l = 0%nat.
Proof.
  unfold onInterest. destruct (cleanup_rest interval s now) as (E1 & E2 & E3 & E4 & _). set (s1 := doCleanup interval s now) in *.
  destruct (scan _ _ _) as [[b|]|x]; [destruct fails|destruct (lookup (n_toUri p false) (s_handlers s1))|]; cbn [logs s_pend s_nextSer s_log]; rewrite E2, E3, E4; (split; [reflexivity|split; [reflexivity|]]);
  try (eexists; split; [reflexivity|intro; reflexivity]).
  exists []. split; [now rewrite app_nil_r|reflexivity].
Qed.

Fixpoint stores (os : list op) : nat := match os with [] => 0 | MStore _ _ _ :: r => S (stores r) | _ :: r => stores r end.
Lemma stores_app a b : stores (a ++ b) = (stores a + stores b)%nat.
Proof. induction a as [|o a IH]; [reflexivity|]. destruct o; cbn; rewrite ?IH; reflexivity. Qed.
Lemma nth_store_app : forall a n b, nth_store n (a ++ b) = if Nat.ltb n (stores a) then nth_store n a else nth_store (n - stores a) b.
Proof.
  induction a as [|o a IH]; intros n b; [cbn; now rewrite Nat.sub_0_r|]. destruct o; cbn [app nth_store stores]; try apply IH.
  destruct n as [|n]; [reflexivity|]. rewrite IH. reflexivity.
Qed.
Lemma nth_store_lt : forall a n x, nth_store n a = Some x -> (n < stores a)%nat.
Proof. induction a as [|o a IH]; intros n x; cbn; [discriminate|]. destruct o; cbn; try apply IH. destruct n; [lia|]. intro H. apply IH in H. lia. Qed.
Lemma nth_store_mono a b n x : nth_store n a = Some x -> nth_store n (a ++ b) = Some x.
Proof. intro H. rewrite nth_store_app. pose proof (nth_store_lt _ _ _ H) as L. apply Nat.ltb_lt in L. now rewrite L. Qed.

Definition info (q : pending) := (q_int q, q_face q, q_timeout q).
Record pinv (t0 : Z) (os : list op) (s : state) : Prop := PInv {
  p_ser : s_nextSer s = stores os;
  p_info : forall q, In q (s_pend s) -> nth_store (q_ser q) os = Some (info q);
  p_once : forall n, (cnt (serq n) (s_pend s) + cnt (sent_to n) (s_log s) <= 1)%nat;
  p_new : forall n, (stores os <= n)%nat -> (cnt (serq n) (s_pend s) + cnt (sent_to n) (s_log s) = 0)%nat;
  p_sent : forall q b now, In (LPend q b now) (s_log s) -> nth_store (q_ser q) os = Some (info q) /\ now < q_timeout q /\
    exists os1 d fails os2, os = os1 ++ MAdd d now fails :: os2 /\ nth_store (q_ser q) os1 = Some (info q) /\ enc d = Ok b /\ i_matchesName (q_int q) (d_name d) = Ok true;
  p_kept : timed t0 os -> forall n i f to, nth_store n os = Some (i, f, to) -> In (Pending n i f to) (s_pend s) \/ (1 <= cnt (sent_to n) (s_log s))%nat \/ to <= clock t0 os }.

Lemma sent_ext os o q b now : (nth_store (q_ser q) os = Some (info q) /\ now < q_timeout q /\
    exists os1 d fails os2, os = os1 ++ MAdd d now fails :: os2 /\ nth_store (q_ser q) os1 = Some (info q) /\ enc d = Ok b /\ i_matchesName (q_int q) (d_name d) = Ok true) ->
  (nth_store (q_ser q) (os ++ [o]) = Some (info q) /\ now < q_timeout q /\
    exists os1 d fails os2, os ++ [o] = os1 ++ MAdd d now fails :: os2 /\ nth_store (q_ser q) os1 = Some (info q) /\ enc d = Ok b /\ i_matchesName (q_int q) (d_name d) = Ok true).
Proof. intros (H1 & H2 & os1 & d & fa & os2 & -> & H3). split; [now apply nth_store_mono|]. split; [exact H2|]. exists os1, d, fa, (os2 ++ [o]). rewrite <- app_assoc. auto. Qed.

Lemma pinv_quiet t0 os s o s' l : pinv t0 os s -> stores [o] = 0%nat -> (match op_time o with Some t' => clock t0 os <= t' | None => True end -> clock t0 os <= clock t0 (os ++ [o])) ->
  s_pend s' = s_pend s -> s_nextSer s' = s_nextSer s -> s_log s' = s_log s ++ l -> (forall n, cnt (sent_to n) l = 0%nat) -> pinv t0 (os ++ [o]) s'.
Proof.
  intros [P1 P2 P3 P4 P5 P6] Ho Hc E1 E2 E3 Hl. assert (Es : stores (os ++ [o]) = stores os) by (rewrite stores_app, Ho; lia).
  assert (Hn : forall n i f to, nth_store n (os ++ [o]) = Some (i, f, to) -> nth_store n os = Some (i, f, to)).
  { intros n i f to. rewrite nth_store_app. destruct (Nat.ltb n (stores os)); [auto|]. intro H. apply nth_store_lt in H. lia. }
  split.
  - congruence.
  - intros q Hq. rewrite E1 in Hq. apply nth_store_mono, P2, Hq.
  - intro n. rewrite E1, E3, cnt_app, Hl. specialize (P3 n). lia.
  - intros n H. rewrite Es in H. rewrite E1, E3, cnt_app, Hl. specialize (P4 n H). lia.
  - intros q b now H. rewrite E3 in H. apply in_app_or in H. destruct H as [H|H]; [apply sent_ext, P5, H|].
    pose proof (cnt_zero _ _ (Hl (q_ser q)) _ H) as K. cbn in K. now rewrite Nat.eqb_refl in K.
  - intros Ht n i f to H. apply timed_snoc in Ht. destruct Ht as [Ht Hc']. apply Hc in Hc'. rewrite E1, E3, cnt_app, Hl. destruct (P6 Ht n i f to (Hn _ _ _ _ H)) as [K|[K|K]]; [auto|right; left; lia|right; right; lia].
Qed.

Theorem pinv_run t0 os : pinv t0 os (run (init t0) os).
Proof.
  induction os as [|o os IH] using rev_ind.
  - split; cbn; try lia; try (intros; contradiction); try discriminate; try reflexivity.
  - rewrite run_snoc. set (s := run (init t0) os) in *.
    destruct o as [d now fails|p i f now fails|i f now|m|p h|].
    + destruct (add_pend s d now fails) as (stay & l & x & Ea & E1 & E2). cbn [MccModel.step]. set (s' := add enc interval s d now fails) in *.
      destruct (enc d) as [b|e] eqn:Ee.
      * destruct E2 as [E2 E3]. destruct (answer_spec _ _ _ _ _ _ _ _ Ea) as (H1 & H2 & H3 & H4 & _).
        destruct IH as [P1 P2 P3 P4 P5 P6].
        assert (Es : stores (os ++ [MAdd d now fails]) = stores os) by (rewrite stores_app; cbn; lia).
        assert (Ex : forall n, cnt (sent_to n) (match x with Some x => [LRaise x] | None => [] end) = 0%nat) by (intro n; destruct x; reflexivity).
        assert (H3' : forall n, (cnt (serq n) (rev stay) + cnt (sent_to n) l <= cnt (serq n) (s_pend s))%nat) by (intro n; rewrite cnt_rev; specialize (H3 n); rewrite cnt_rev in H3; exact H3).
        split.
        -- congruence.
        -- intros q Hq. rewrite E2, <- in_rev in Hq. apply H1 in Hq. rewrite <- in_rev in Hq. apply nth_store_mono, P2, Hq.
        -- intro n. rewrite E2, E3, !cnt_app, Ex. specialize (P3 n). specialize (H3' n). lia.
        -- intros n Hn. rewrite Es in Hn. rewrite E2, E3, !cnt_app, Ex. specialize (P4 n Hn). specialize (H3' n). lia.
        -- intros q b' now' Hi. rewrite E3 in Hi. apply in_app_or in Hi. destruct Hi as [Hi|Hi]; [apply sent_ext, P5, Hi|].
           apply in_app_or in Hi. destruct Hi as [Hi|Hi]; [|destruct x; cbn in Hi; [destruct Hi as [Hi|[]]; discriminate|contradiction]].
           destruct (H2 _ Hi) as (q' & E & Hq & Ho1 & Ho2). injection E as <- <- <-. rewrite <- in_rev in Hq. pose proof (P2 _ Hq) as Hst.
           split; [now apply nth_store_mono|]. split; [exact Ho1|]. exists os, d, fails, []. auto.
        -- intros Ht n i f to Hn. apply timed_snoc in Ht. cbn [op_time] in Ht. destruct Ht as [Ht Hc]. rewrite clock_snoc. cbn [op_time].
           rewrite nth_store_app in Hn. destruct (Nat.ltb n (stores os)); [|cbn in Hn; discriminate].
           rewrite E2, E3, !cnt_app, Ex. destruct (P6 Ht n i f to Hn) as [K|[K|K]]; [|right; left; lia|right; right; lia].
           destruct (H4 (Pending n i f to)) as [K'|[K'|K']]; [now rewrite <- in_rev|left; now rewrite <- in_rev|right; right; exact K'|].
           right; left. assert (1 <= cnt (sent_to n) l)%nat; [|lia]. eapply cnt_pos; [exact K'|cbn; apply Nat.eqb_refl].
      * eapply pinv_quiet; [exact IH|reflexivity|cbn [op_time]; rewrite clock_snoc; auto|apply E2|exact E1|apply E2|reflexivity].
    + destruct (interest_rest s p i f now fails) as (E1 & E2 & l & E3 & E4).
      eapply pinv_quiet; [exact IH|reflexivity|cbn [op_time]; rewrite clock_snoc; auto|exact E1|exact E2|exact E3|exact E4].
    + destruct IH as [P1 P2 P3 P4 P5 P6]. assert (Es : stores (os ++ [MStore i f now]) = S (stores os)) by (rewrite stores_app; cbn; lia).
      assert (Hnew : nth_store (stores os) (os ++ [MStore i f now]) = Some (i, f, now + lifetime i)) by (rewrite nth_store_app, Nat.ltb_irrefl, Nat.sub_diag; reflexivity).
      split; cbn [MccModel.step store s_nextSer s_pend s_log].
      * congruence.
      * intros q Hq. apply in_app_or in Hq. destruct Hq as [Hq|[<-|[]]]; [apply nth_store_mono, P2, Hq|]. cbn [q_ser]. rewrite P1. exact Hnew.
      * intro n. rewrite cnt_app, cnt_cons, cnt_nil. unfold serq at 2. cbn [q_ser]. rewrite P1. destruct (Nat.eqb (stores os) n) eqn:E; [apply Nat.eqb_eq in E; specialize (P4 n ltac:(lia)); lia|specialize (P3 n); lia].
      * intros n Hn. rewrite Es in Hn. rewrite cnt_app, cnt_cons, cnt_nil. unfold serq at 2. cbn [q_ser]. rewrite P1. replace (Nat.eqb (stores os) n) with false by (symmetry; apply Nat.eqb_neq; lia). specialize (P4 n ltac:(lia)). lia.
      * intros q b now' Hi. apply sent_ext, P5, Hi.
      * intros Ht n i0 f0 to Hn. apply timed_snoc in Ht. cbn [op_time] in Ht. destruct Ht as [Ht Hc]. rewrite clock_snoc. cbn [op_time].
        rewrite nth_store_app in Hn. destruct (Nat.ltb n (stores os)) eqn:El.
        -- destruct (P6 Ht n i0 f0 to Hn) as [K|[K|K]]; [left; apply in_or_app; now left|auto|right; right; lia].
        -- apply Nat.ltb_ge in El. pose proof (nth_store_lt _ _ _ Hn) as L. cbn in L. assert (n = stores os) by lia. subst n. rewrite Nat.sub_diag in Hn. cbn in Hn. injection Hn as <- <- <-.
           left. apply in_or_app. right. left. rewrite P1. reflexivity.
    + eapply pinv_quiet with (l := []); [exact IH|reflexivity|cbn [op_time]; rewrite clock_snoc; cbn; lia|reflexivity|reflexivity|cbn; now rewrite app_nil_r|reflexivity].
    + eapply pinv_quiet with (l := []); [exact IH|reflexivity|cbn [op_time]; rewrite clock_snoc; cbn; lia|destruct h; reflexivity|destruct h; reflexivity|destruct h; cbn; now rewrite app_nil_r|reflexivity].
    + eapply pinv_quiet with (l := []); [exact IH|reflexivity|cbn [op_time]; rewrite clock_snoc; cbn; lia|reflexivity|reflexivity|cbn; now rewrite app_nil_r|reflexivity].
Qed.
End Mcc.
