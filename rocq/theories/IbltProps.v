(** * Property C35: the invertible Bloom lookup table *)
From Verif Require Import Base BaseLemmas IbltModel IbltSpec IbltProofs.
From Coq Require Import Permutation Lia.
Local Open Scope res_scope.

(** ** insert and erase *)
(** Every history of insert and erase on a new table succeeds, and the table then holds the signed keys. *)
Theorem C35_contents : forall mmh n ops, 0 < n -> exists b t, run mmh (new n) ops = Ok t /\ holds mmh b t ops.
Proof.
  intros mmh n ops Hn. destruct (new_sized n Hn) as [[Hb _] E]. exists (per_hash n). rewrite E. destruct (holds_run mmh _ ops _ [] (holds_new mmh _ Hb)) as (t & R & H). eauto.
Qed.
(** The order does not matter. *)
Theorem C35_order : forall mmh n ops ops', 0 < n -> Permutation ops ops' -> run mmh (new n) ops = run mmh (new n) ops'.
Proof.
  intros mmh n ops ops' Hn P. destruct (new_sized n Hn) as [[Hb _] E]. rewrite E.
  destruct (holds_run mmh _ ops _ [] (holds_new mmh _ Hb)) as (t & R & H), (holds_run mmh _ ops' _ [] (holds_new mmh _ Hb)) as (t' & R' & H'). rewrite R, R'. f_equal.
  eapply holds_unique; [eapply holds_perm; [exact P|exact H]|exact H'].
Qed.
(** On any table (of a size that the constructor makes): erase undoes insert, insert undoes erase, and two calls commute. *)
Lemma twice mmh b t s k : sized b t -> rbind (update mmh t s k) (fun t => update mmh t (- s) k) = Ok t.
Proof.
  intro H. destruct (update_ok mmh b t s k H) as (t1 & E1 & S1 & N1). rewrite E1. cbn [rbind]. destruct (update_ok mmh b t1 (- s) k S1) as (t2 & E2 & _ & N2). rewrite E2. f_equal. apply nth_ext_eq.
  intro j. rewrite N2, N1. destruct (nth_error t j) as [e|]; [|reflexivity]. cbn [option_map]. f_equal. destruct (falls_inb _ _ _ _); [|reflexivity].
  unfold change. cbn [e_count e_keySum e_keyCheck]. rewrite !Z.lxor_assoc, !Z.lxor_nilpotent, !Z.lxor_0_r. destruct e. cbn. f_equal. lia.
Qed.
Theorem C35_cancel : forall mmh b t k, sized b t ->
  rbind (insert mmh t k) (fun t => erase mmh t k) = Ok t /\ rbind (erase mmh t k) (fun t => insert mmh t k) = Ok t.
Proof. intros mmh b t k H. split; [apply (twice mmh b t 1 k H)|apply (twice mmh b t (-1) k H)]. Qed.
Theorem C35_commute : forall mmh b t s k s' k', sized b t ->
  rbind (update mmh t s k) (fun t => update mmh t s' k') = rbind (update mmh t s' k') (fun t => update mmh t s k).
Proof.
  intros mmh b t s k s' k' H. destruct (update_ok mmh b t s k H) as (t1 & E1 & S1 & N1), (update_ok mmh b t s' k' H) as (t2 & E2 & S2 & N2). rewrite E1, E2. cbn [rbind].
  destruct (update_ok mmh b t1 s' k' S1) as (t3 & E3 & _ & N3), (update_ok mmh b t2 s k S2) as (t4 & E4 & _ & N4). rewrite E3, E4. f_equal. apply nth_ext_eq. intro j. rewrite N3, N4, N1, N2.
  destruct (nth_error t j) as [e|]; [|reflexivity]. cbn [option_map]. f_equal. destruct (falls_inb _ _ k _), (falls_inb _ _ k' _); try reflexivity.
  unfold change. cbn [e_count e_keySum e_keyCheck]. rewrite !Z.lxor_assoc, (Z.lxor_comm k k'), (Z.lxor_comm (murmur mmh N_HASHCHECK k)). f_equal. lia.
Qed.
Lemma e_equals_iff a b : e_equals a b = true <-> a = b.
Proof. destruct a, b. unfold e_equals. cbn. split; [intro H; f_equal; lia|intro H; injection H as -> -> ->; lia]. Qed.
Theorem C35_equals : forall a b, equals a b = true <-> a = b.
Proof.
  intros a b. unfold equals. destruct (zlen a =? zlen b) eqn:E; cbn [negb].
  - assert (L : length a = length b) by (unfold zlen in E; lia). clear E. revert b L. induction a as [|x a IH]; intros [|y b] L; try discriminate; [split; reflexivity|]. cbn [combine forallb fst snd]. cbn in L.
    rewrite andb_true_iff, IH, e_equals_iff by lia. split; [intros [-> ->]; reflexivity|intro H; injection H as -> ->; auto].
  - split; [discriminate|intros ->; lia].
Qed.

(** ** difference *)
(** The difference of two tables is the table that inserts the keys of the first and erases those of the second, *)
Theorem C35_difference : forall mmh n ops ops', 0 < n ->
  exists t t', run mmh (new n) ops = Ok t /\ run mmh (new n) ops' = Ok t' /\ difference t t' = run mmh (new n) (ops ++ map (fun x => (- fst x, snd x)) ops').
Proof.
  intros mmh n ops ops' Hn. destruct (new_sized n Hn) as [[Hb _] E]. rewrite E.
  destruct (holds_run mmh _ ops _ [] (holds_new mmh _ Hb)) as (t & R & H), (holds_run mmh _ ops' _ [] (holds_new mmh _ Hb)) as (t' & R' & H'). exists t, t'. split; [exact R|]. split; [exact R'|].
  destruct (holds_diff mmh _ _ _ _ _ H H') as (d & Ed & Hd). destruct (holds_run mmh _ (ops ++ negate ops') _ [] (holds_new mmh _ Hb)) as (t2 & R2 & H2). rewrite Ed. fold (negate ops'). rewrite R2. f_equal. eapply holds_unique; eassumption.
Qed.
Lemma holds_common mmh b t l ks : holds mmh b t (l ++ inserts ks ++ erases ks) -> holds mmh b t l.
Proof.
  revert l. induction ks as [|k ks IH]; intros l H; [cbn in H; rewrite app_nil_r in H; exact H|]. apply IH. apply (holds_cancel mmh b t _ 1 k). eapply holds_perm; [|exact H].
  rewrite <- app_assoc. apply Permutation_app_head. cbn [inserts erases map]. fold (inserts ks) (erases ks). cbn [app]. eapply perm_trans; [apply perm_skip, Permutation_sym, Permutation_middle|].
  apply (Permutation_app_comm [(1, k); (-1, k)] (inserts ks ++ erases ks)).
Qed.
(** so it depends on the keys of one side only: keys on both sides do not matter. *)
Theorem C35_symmetric : forall mmh n A B C, 0 < n -> exists t t', run mmh (new n) (inserts (A ++ C)) = Ok t /\ run mmh (new n) (inserts (B ++ C)) = Ok t' /\
  difference t t' = run mmh (new n) (inserts A ++ erases B).
Proof.
  intros mmh n A B C Hn. destruct (new_sized n Hn) as [[Hb _] E]. rewrite E.
  destruct (holds_run mmh _ (inserts (A ++ C)) _ [] (holds_new mmh _ Hb)) as (t & R & H), (holds_run mmh _ (inserts (B ++ C)) _ [] (holds_new mmh _ Hb)) as (t' & R' & H'). exists t, t'. split; [exact R|]. split; [exact R'|].
  destruct (holds_diff mmh _ _ _ _ _ H H') as (d & Ed & Hd). destruct (holds_run mmh _ (inserts A ++ erases B) _ [] (holds_new mmh _ Hb)) as (t2 & R2 & H2). rewrite Ed, R2. f_equal.
  eapply holds_unique; [|exact H2]. cbn [app] in *. eapply holds_common with (ks := C). eapply holds_perm; [|exact Hd].
  assert (Ne : negate (inserts (B ++ C)) = erases B ++ erases C) by (unfold negate, inserts, erases; rewrite map_map, map_app; reflexivity). rewrite Ne. unfold inserts at 1. rewrite map_app. fold (inserts A) (inserts C).
  rewrite <- !app_assoc. apply Permutation_app_head. rewrite !app_assoc. apply Permutation_app_tail. apply Permutation_app_comm.
Qed.

(** ** listEntries *)
Lemma signed_nodup P N : NoDup P -> NoDup N -> NoDup (inserts P ++ erases N).
Proof.
  intros HP HN. unfold inserts, erases. induction HP as [|k P Hk HP IH]; cbn [map app].
  - induction HN as [|k N Hk HN IH]; [constructor|]. cbn [map]. constructor; [|exact IH]. intro X. apply in_map_iff in X. destruct X as (y & Ey & Hy). injection Ey as ->. contradiction.
  - constructor; [|exact IH]. intro X. apply in_app_or in X. destruct X as [X|X]; apply in_map_iff in X; destruct X as (y & Ey & Hy); [injection Ey as ->; contradiction|discriminate].
Qed.
Lemma signed_signs P N : Forall (fun x => fst x = 1 \/ fst x = -1) (inserts P ++ erases N).
Proof. apply Forall_app. split; apply Forall_forall; intros x Hx; apply in_map_iff in Hx; destruct Hx as (k & <- & _); auto. Qed.
Lemma in_signed P N k : (In (1, k) (inserts P ++ erases N) <-> In k P) /\ (In (-1, k) (inserts P ++ erases N) <-> In k N).
Proof.
  rewrite !in_app_iff. unfold inserts, erases. rewrite !in_map_iff. split; split.
  - intros [(y & E & H)|(y & E & H)]; [injection E as ->; exact H|discriminate].
  - intro H. left. eauto.
  - intros [(y & E & H)|(y & E & H)]; [discriminate|injection E as ->; exact H].
  - intro H. right. eauto.
Qed.
Lemma filter_all {A} (l : list A) : filter (fun _ => true) l = l.
Proof. induction l as [|x l IH]; [reflexivity|]. cbn. now rewrite IH. Qed.
Lemma list_ok mmh b t P N fuel : NoDup P -> NoDup N -> no_collision mmh (inserts P ++ erases N) -> holds mmh b t (inserts P ++ erases N) ->
  (listEntries mmh fuel t = Err OutOfFuel /\ (fuel <= length P + length N)%nat) \/
  exists p f, listEntries mmh fuel t = Ok (forallb isEmpty (p_table p), p_pos p, p_neg p) /\ state mmh (inserts P ++ erases N) b f (p_table p) (p_pos p) (p_neg p) /\
    (peelable mmh b (filter f (inserts P ++ erases N)) -> peelable mmh b (inserts P ++ erases N)) /\ (forall j e, nth_error (p_table p) j = Some e -> isPure mmh e = false).
Proof.
  intros HP HN HC Hh. assert (H0 : state mmh (inserts P ++ erases N) b (fun _ => true) t [] []).
  { split; [rewrite filter_all; exact Hh|]. split; intro k; (split; [contradiction|intros [_ X]; discriminate]). }
  destruct (rounds_ok mmh _ (signed_nodup P N HP HN) HC b (signed_signs P N) fuel _ _ _ _ H0) as [[R L]|(p & f & R & H & Hp & Hn)]; unfold listEntries; rewrite R; cbn [rbind].
  - left. split; [reflexivity|]. rewrite filter_all, app_length in L. unfold inserts, erases in L. rewrite !map_length in L. exact L.
  - right. exists p, f. rewrite filter_all in Hp. auto.
Qed.
Lemma NoDup_app_snoc {A} (l : list A) x : NoDup l -> ~ In x l -> NoDup (l ++ [x]).
Proof. intros H Hx. apply NoDup_rev in H. rewrite <- (rev_involutive (l ++ [x])), rev_app_distr. apply NoDup_rev. cbn. constructor; [rewrite <- in_rev; exact Hx|exact H]. Qed.
Lemma set_add_nodup x l : NoDup l -> NoDup (set_add x l).
Proof.
  intro H. unfold set_add. destruct (existsb (Z.eqb x) l) eqn:E; [exact H|]. apply NoDup_app_snoc; [exact H|]. intro X. assert (existsb (Z.eqb x) l = true) by (apply existsb_exists; exists x; split; [exact X|apply Z.eqb_refl]). congruence.
Qed.
Lemma pass_nodup mmh : forall js p p', pass mmh js p = Ok p' -> NoDup (p_pos p) -> NoDup (p_neg p) -> NoDup (p_pos p') /\ NoDup (p_neg p').
Proof.
  induction js as [|j js IH]; intros p p'; cbn [pass]; [intro E; injection E as <-; auto|]. destruct (nth_error (p_table p) j) as [e|]; [|discriminate].
  destruct (isPure mmh e); [|apply IH]. destruct (update _ _ _ _) as [t|]; [|discriminate]. cbn [rbind]. intros E H1 H2. apply IH in E; [exact E|cbn [p_pos]; destruct (e_count e =? 1); [now apply set_add_nodup|exact H1]|cbn [p_neg]; destruct (e_count e =? 1); [exact H2|now apply set_add_nodup]].
Qed.
Lemma rounds_nodup mmh : forall fuel t pos neg p, rounds mmh fuel t pos neg = Ok p -> NoDup pos -> NoDup neg -> NoDup (p_pos p) /\ NoDup (p_neg p).
Proof.
  induction fuel as [|fuel IH]; intros t pos neg p; cbn [rounds]; [discriminate|]. destruct (pass _ _ _) as [p1|] eqn:E; [|discriminate]. cbn [rbind]. intros R H1 H2. destruct (pass_nodup mmh _ _ _ E H1 H2) as [N1 N2].
  destruct (0 <? p_erased p1); [eapply IH; eassumption|]. injection R as <-. auto.
Qed.
Lemma list_nodup mmh fuel t r pos neg : listEntries mmh fuel t = Ok (r, pos, neg) -> NoDup pos /\ NoDup neg.
Proof.
  unfold listEntries. destruct (rounds _ _ _ _ _) as [p|] eqn:E; [|discriminate]. cbn [rbind]. intro R. injection R as _ <- <-. eapply rounds_nodup; [exact E|constructor|constructor].
Qed.
(** If it says true, it found exactly the keys inserted and those erased. *)
Theorem C35_list_exact : forall mmh b t P N fuel pos neg, NoDup P -> NoDup N -> no_collision mmh (inserts P ++ erases N) -> holds mmh b t (inserts P ++ erases N) ->
  listEntries mmh fuel t = Ok (true, pos, neg) -> forall k, (In k pos <-> In k P) /\ (In k neg <-> In k N).
Proof.
  intros mmh b t P N fuel pos neg HP HN HC Hh E k. destruct (list_ok mmh b t P N fuel HP HN HC Hh) as [[X _]|(p & f & X & H & _)]; rewrite X in E; [discriminate|]. injection E as E <- <-.
  pose proof (empty_done mmh _ HC b f _ _ _ H E) as K. destruct H as (_ & Hp & Hn). rewrite Hp, Hn. destruct (in_signed P N k) as [I1 I2]. rewrite I1, I2. split; (split; [tauto|]); intro X1; (split; [exact X1|]); apply K; tauto.
Qed.
(** If it says false, what it found is still right. *)
Theorem C35_list_sound : forall mmh b t P N fuel r pos neg, NoDup P -> NoDup N -> no_collision mmh (inserts P ++ erases N) -> holds mmh b t (inserts P ++ erases N) ->
  listEntries mmh fuel t = Ok (r, pos, neg) -> forall k, (In k pos -> In k P) /\ (In k neg -> In k N).
Proof.
  intros mmh b t P N fuel r pos neg HP HN HC Hh E k. destruct (list_ok mmh b t P N fuel HP HN HC Hh) as [[X _]|(p & f & X & H & _)]; rewrite X in E; [discriminate|]. injection E as E <- <-.
  destruct H as (_ & Hp & Hn). rewrite Hp, Hn. destruct (in_signed P N k) as [I1 I2]. rewrite I1, I2. tauto.
Qed.
(** It ends after as many rounds as there are keys, *)
Theorem C35_list_terminates : forall mmh b t P N fuel, NoDup P -> NoDup N -> no_collision mmh (inserts P ++ erases N) -> holds mmh b t (inserts P ++ erases N) ->
  (length P + length N < fuel)%nat -> exists r, listEntries mmh fuel t = Ok r.
Proof.
  intros mmh b t P N fuel HP HN HC Hh L. destruct (list_ok mmh b t P N fuel HP HN HC Hh) as [[_ X]|(p & f & X & _)]; [lia|eauto].
Qed.
(** and says true exactly when the keys can be taken out one after the other. *)
Theorem C35_list_peelable : forall mmh b t P N fuel, NoDup P -> NoDup N -> no_collision mmh (inserts P ++ erases N) -> holds mmh b t (inserts P ++ erases N) ->
  (length P + length N < fuel)%nat -> ((exists pos neg, listEntries mmh fuel t = Ok (true, pos, neg)) <-> peelable mmh b (inserts P ++ erases N)).
Proof.
  intros mmh b t P N fuel HP HN HC Hh L. destruct (list_ok mmh b t P N fuel HP HN HC Hh) as [[_ X]|(p & f & X & H & Hp & Hn)]; [lia|]. split.
  - intros (pos & neg & E). rewrite X in E. injection E as E _ _. pose proof (empty_done mmh _ HC b f _ _ _ H E) as K. apply Hp.
    replace (filter f (inserts P ++ erases N)) with (@nil (Z * Z)); [constructor|]. symmetry. destruct (filter f (inserts P ++ erases N)) as [|x l] eqn:Ef; [reflexivity|].
    assert (Hx : In x (filter f (inserts P ++ erases N))) by (rewrite Ef; now left). apply filter_In in Hx. destruct Hx as [H1 H2]. rewrite (K x H1) in H2. discriminate.
  - intro Q. exists (p_pos p), (p_neg p). rewrite X. rewrite (stuck_empty mmh _ (signed_nodup P N HP HN) b (signed_signs P N) f _ _ _ H Q Hn). reflexivity.
Qed.
(** In particular a difference of one key is found, whatever the hash function. *)
Theorem C35_list_one : forall mmh b t s k fuel, s = 1 \/ s = -1 -> holds mmh b t [(s, k)] -> (1 < fuel)%nat ->
  listEntries mmh fuel t = Ok (true, if s =? 1 then [k] else [], if s =? 1 then [] else [k]).
Proof.
  intros mmh b t s k fuel Hs Hh Hf. assert (HC : no_collision mmh [(s, k)]).
  { intro f. cbn [filter]. destruct (f (s, k)); split.
    - intros _ _. eauto.
    - intro X. rewrite signs_one in X. lia.
    - intros X. unfold signs in X. cbn in X. lia.
    - reflexivity. }
  assert (Hb : 0 < b) by apply Hh. assert (Pl : peelable mmh b [(s, k)]).
  { apply (Peel_step mmh b [] (s, k) [] (0 * b + murmur mmh 0 k mod b)); [exists 0; split; [lia|reflexivity]|intros y []|constructor]. }
  assert (G : forall P N, NoDup P -> NoDup N -> inserts P ++ erases N = [(s, k)] -> (length P + length N <= 1)%nat -> exists pos neg, listEntries mmh fuel t = Ok (true, pos, neg) /\ forall x, (In x pos <-> In x P) /\ (In x neg <-> In x N)).
  { intros P N HP HN E L. rewrite <- E in HC, Hh, Pl. destruct (proj2 (C35_list_peelable mmh b t P N fuel HP HN HC Hh ltac:(lia)) Pl) as (pos & neg & R). exists pos, neg. split; [exact R|]. now apply (C35_list_exact mmh b t P N fuel). }
  assert (Sg : forall (l : list Z) x, (forall y, In y l <-> In y [x]) -> NoDup l -> l = [x]).
  { intros l x Hl Hn. destruct l as [|y [|z l]]; [destruct (proj2 (Hl x)); now left|f_equal; destruct (proj1 (Hl y)) as [E|[]]; [now left|auto]|exfalso].
    assert (y = x) by (destruct (proj1 (Hl y)) as [E|[]]; [now left|auto]). assert (z = x) by (destruct (proj1 (Hl z)) as [E|[]]; [right; now left|auto]). subst. inversion Hn as [|? ? X]; subst. apply X. now left. }
  assert (Em : forall l : list Z, (forall y, In y l <-> In y []) -> l = []) by (intros [|y l] Hl; [reflexivity|destruct (proj1 (Hl y)); now left]).
  assert (Nd : forall pos neg, listEntries mmh fuel t = Ok (true, pos, neg) -> NoDup pos /\ NoDup neg) by (intros pos neg; apply list_nodup).
  destruct Hs as [-> | ->]; cbn [Z.eqb Pos.eqb].
  - destruct (G [k] []) as (pos & neg & R & Hx); [constructor; [intros []|constructor]|constructor|reflexivity|cbn; lia|]. rewrite R. destruct (Nd _ _ R) as [N1 N2].
    rewrite (Sg pos k (fun y => proj1 (Hx y)) N1), (Em neg (fun y => proj2 (Hx y))). reflexivity.
  - destruct (G [] [k]) as (pos & neg & R & Hx); [constructor|constructor; [intros []|constructor]|reflexivity|cbn; lia|]. rewrite R. destruct (Nd _ _ R) as [N1 N2].
    rewrite (Sg neg k (fun y => proj2 (Hx y)) N2), (Em pos (fun y => proj1 (Hx y))). reflexivity.
Qed.

(** But a received table can make listEntries loop for ever: an entry that looks like a single key
    which does not fall in it is never emptied, whatever the hash function. *)
Section Hang.
Variable mmh : Z -> bytes -> Z.
Variables b k s : Z.
Variable j0 : nat.
Hypothesis Hb : 0 < b.
Hypothesis Hs : s = 1 \/ s = -1.
Hypothesis Hj0 : Z.of_nat j0 < 3 * b.
Hypothesis Hout : falls_inb mmh b k (Z.of_nat j0) = false.
Definition odd_entry (c : Z) : entry := Entry c (if Z.odd c then k else 0) (if Z.odd c then murmur mmh 11 k else 0).
Definition stuck (c : Z) (t : table) : Prop := sized b t /\ forall j e, nth_error t j = Some e ->
  e = if (j =? j0)%nat then Entry s k (murmur mmh 11 k) else if falls_inb mmh b k (Z.of_nat j) then odd_entry c else e_new.
Lemma stuck_update c t q : stuck c t -> q = 1 \/ q = -1 -> exists t', update mmh t (- q) k = Ok t' /\ stuck (c - q) t'.
Proof.
  intros [S N] Hq. destruct (update_ok mmh b t (- q) k S) as (t' & E & S' & N'). exists t'. split; [exact E|]. split; [exact S'|]. intros j e Hj. rewrite N' in Hj.
  destruct (nth_error t j) as [e0|] eqn:E0; [|discriminate]. cbn [option_map] in Hj. injection Hj as <-. rewrite (N j e0 E0). destruct (Nat.eqb_spec j j0) as [->|Hne]; [rewrite Hout; reflexivity|].
  destruct (falls_inb mmh b k (Z.of_nat j)); [|reflexivity]. unfold odd_entry, change, N_HASHCHECK. cbn [e_count e_keySum e_keyCheck].
  replace (Z.odd (c - q)) with (negb (Z.odd c)) by (rewrite Z.odd_sub; destruct Hq as [-> | ->]; destruct (Z.odd c); reflexivity).
  destruct (Z.odd c); cbn [negb]; rewrite ?Z.lxor_nilpotent, ?Z.lxor_0_l; reflexivity.
Qed.
Lemma stuck_pure c t j e : stuck c t -> nth_error t j = Some e -> isPure mmh e = true -> (e_count e = 1 \/ e_count e = -1) /\ e_keySum e = k.
Proof.
  intros [S N] Hj. rewrite (N j e Hj). destruct (j =? j0)%nat; [cbn; auto|]. destruct (falls_inb mmh b k (Z.of_nat j)); [|discriminate].
  unfold isPure, odd_entry. cbn [e_count e_keySum e_keyCheck]. destruct ((c =? 1) || (c =? -1)) eqn:X; [|discriminate]. assert (Hc : c = 1 \/ c = -1) by lia. intros _. split; [exact Hc|]. destruct Hc as [-> | ->]; reflexivity.
Qed.
Lemma stuck_pass : forall js c p, stuck c (p_table p) -> Forall (fun j => Z.of_nat j < 3 * b) js -> exists p' c', pass mmh js p = Ok p' /\ stuck c' (p_table p') /\ p_erased p <= p_erased p' /\ (In j0 js -> p_erased p < p_erased p').
Proof.
  induction js as [|j js IH]; intros c p H F; cbn [pass]; [exists p, c; split; [reflexivity|]; split; [exact H|]; split; [lia|intros []]|]. inversion F as [|? ? Fj Fjs]; subst.
  pose proof H as [[_ Sz] N]. destruct (nth_error (p_table p) j) as [e|] eqn:E; [|apply nth_error_None in E; unfold zlen in Sz; lia].
  destruct (isPure mmh e) eqn:Hp.
  - destruct (stuck_pure c _ j e H E Hp) as [Hc Hk]. destruct (stuck_update c _ (e_count e) H Hc) as (t' & Eu & H'). rewrite Hk, Eu. cbn [rbind].
    match goal with |- exists p' c', pass mmh js ?q = _ /\ _ => destruct (IH _ q H' Fjs) as (p' & c' & R & Hs' & Hl & _) end. exists p', c'. split; [exact R|]. split; [exact Hs'|]. cbn [p_erased] in Hl. split; lia.
  - destruct (IH c p H Fjs) as (p' & c' & R & Hs' & Hl & Hi). exists p', c'. split; [exact R|]. split; [exact Hs'|]. split; [exact Hl|]. intros [->|Hj]; [|auto]. exfalso.
    rewrite (N j0 e E), Nat.eqb_refl in Hp. unfold isPure in Hp. cbn [e_count e_keySum e_keyCheck] in Hp. replace ((s =? 1) || (s =? -1)) with true in Hp by lia. unfold N_HASHCHECK in Hp. rewrite Z.eqb_refl in Hp. discriminate.
Qed.
Lemma stuck_rounds : forall fuel c t pos neg, stuck c t -> rounds mmh fuel t pos neg = Err OutOfFuel.
Proof.
  induction fuel as [|fuel IH]; intros c t pos neg H; [reflexivity|]. cbn [rounds]. destruct (stuck_pass (seq 0 (length t)) c (Peel t pos neg 0) H) as (p & c' & E & H' & _ & L); [apply (seq_small b t), H|]. rewrite E. cbn [rbind].
  destruct H as [[_ Sz] _]. rewrite (proj2 (Z.ltb_lt 0 (p_erased p))); [eapply IH; exact H'|]. apply L. apply in_seq. unfold zlen in Sz. lia.
Qed.
End Hang.
Lemma map_seq_nth (f : nat -> entry) n j e : nth_error (map f (seq 0 n)) j = Some e -> e = f j /\ (j < n)%nat.
Proof.
  intro H. assert (L : (j < n)%nat) by (rewrite <- (seq_length n 0), <- (map_length f); apply nth_error_Some; congruence). split; [|exact L].
  rewrite nth_error_map in H. rewrite (nth_error_nth' _ 0%nat) in H by (rewrite seq_length; exact L). rewrite seq_nth in H by exact L. injection H as <-. reflexivity.
Qed.

(** ** encode and initialize *)
Lemma le4_value v r : u32 v -> values (le4 v ++ r) = v :: values r.
Proof.
  intro H. unfold le4. cbn [app values]. f_equal.
  assert (L : forall x, Z.land x 255 = x mod 256) by (intro x; change 255 with (Z.ones 8); rewrite Z.land_ones by lia; reflexivity). rewrite !L, !Z.shiftr_div_pow2, !Z.shiftl_mul_pow2 by lia. unfold u32 in H.
  change (2 ^ 8) with 256. change (2 ^ 16) with 65536. change (2 ^ 24) with 16777216. Z.div_mod_to_equations. lia.
Qed.
Definition entry32 (e : entry) : Prop := u32 (e_count e) /\ u32 (e_keySum e) /\ u32 (e_keyCheck e) /\ (e_count e = 0 -> e_keySum e = 0 /\ e_keyCheck e = 0).
Lemma values_table t : Forall entry32 t -> values (flat_map e_bytes t) = flat_map (fun e => [e_count e; e_keySum e; e_keyCheck e]) t.
Proof.
  induction 1 as [|e t (H1 & H2 & H3 & _) _ IH]; [reflexivity|]. cbn [flat_map]. unfold e_bytes at 1. rewrite <- !app_assoc, !le4_value by assumption. rewrite IH. reflexivity.
Qed.
Lemma fill_table : forall t n, Forall entry32 t -> length t = n -> fill (repeat e_new n) (flat_map (fun e => [e_count e; e_keySum e; e_keyCheck e]) t) = t.
Proof.
  intros t n H. revert n. induction H as [|e t (H1 & H2 & H3 & H4) _ IH]; intros n L; cbn in L; subst n; [reflexivity|]. cbn [repeat flat_map app fill]. rewrite IH by reflexivity. f_equal.
  destruct (e_count e =? 0) eqn:E; cbn [negb]; [|destruct e; reflexivity]. destruct H4 as [A B]; [lia|]. destruct e. cbn in *. subst. unfold e_new. f_equal. lia.
Qed.
Lemma zlen_values t : zlen (flat_map (fun e => [e_count e; e_keySum e; e_keyCheck e]) t) = 3 * zlen t.
Proof. induction t as [|e t IH]; [reflexivity|]. cbn [flat_map app]. rewrite !zlen_cons, IH. lia. Qed.
(** zlib gives back what it compressed. *)
Definition zlib_ok (compress : bytes -> bytes) (decompress : bytes -> res bytes) : Prop := forall b, decompress (compress b) = Ok b.
Lemma roundtrip compress decompress t n : zlib_ok compress decompress -> Forall entry32 t -> length t = n -> initialize decompress (repeat e_new n) (encode compress t) = Ok t.
Proof.
  intros Hz H L. unfold initialize, decode, encode. rewrite Hz. cbn [rbind]. rewrite values_table, zlen_values by exact H.
  replace (zlen (repeat e_new n)) with (zlen t) by (unfold zlen; rewrite repeat_length; lia). rewrite Z.eqb_refl. cbn [negb]. rewrite fill_table by assumption. reflexivity.
Qed.
Lemma xors_u32 l : Forall u32 l -> u32 (xors l).
Proof.
  unfold xors. induction 1 as [|x l Hx _ IH]; [unfold u32; cbn; lia|]. cbn [fold_right]. unfold u32 in *. split; [apply Z.lxor_nonneg; lia|].
  destruct (Z.eq_dec (Z.lxor x (fold_right Z.lxor 0 l)) 0) as [->|Hne]; [lia|]. assert (Hnn : 0 <= Z.lxor x (fold_right Z.lxor 0 l)) by (apply Z.lxor_nonneg; lia).
  apply Z.log2_lt_pow2; [lia|]. eapply Z.le_lt_trans; [apply Z.log2_lxor; lia|]. apply Z.max_lub_lt.
  - destruct (Z.eq_dec x 0) as [->|]; [cbn; lia|]. apply Z.log2_lt_pow2; lia.
  - destruct (Z.eq_dec (fold_right Z.lxor 0 l) 0) as [->|]; [cbn; lia|]. apply Z.log2_lt_pow2; lia.
Qed.
Lemma signs_inserts f ks : signs (filter f (inserts ks)) = zlen (filter f (inserts ks)).
Proof. unfold inserts. induction ks as [|k ks IH]; [reflexivity|]. cbn [map filter]. destruct (f (1, k)); [|exact IH]. rewrite zlen_cons, <- IH. reflexivity. Qed.
Lemma filter_le {A} (f : A -> bool) l : (length (filter f l) <= length l)%nat.
Proof. induction l as [|x l IH]; [reflexivity|]. cbn [filter]. destruct (f x); cbn [length]; lia. Qed.
(** A table of fewer than 2^32 keys of 32 bits, sent with encode, is received by initialize. *)
Theorem C35_roundtrip : forall mmh compress decompress n ks t, zlib_ok compress decompress -> hash32 mmh -> 0 < n -> Forall u32 ks -> zlen ks < 2 ^ 32 ->
  run mmh (new n) (inserts ks) = Ok t -> initialize decompress (new n) (encode compress t) = Ok t.
Proof.
  intros mmh compress decompress n ks t Hz Hh Hn Hk Hl R. destruct (new_sized n Hn) as [[Hb _] E]. rewrite E in *.
  destruct (holds_run mmh _ (inserts ks) _ [] (holds_new mmh _ Hb)) as (t' & R' & [Sz N]). rewrite R in R'. injection R' as <-. cbn [app] in N.
  apply roundtrip; [exact Hz| |destruct Sz as [_ Sz]; unfold zlen in Sz; lia].
  apply Forall_forall. intros e He. apply In_nth_error in He. destruct He as (j & Hj). destruct (N j e Hj) as (A & B & C). rewrite signs_inserts in A.
  set (h := filter _ (inserts ks)) in *. assert (Hh' : forall x, In x h -> u32 (snd x)).
  { intros x Hx. unfold h in Hx. apply filter_In in Hx. destruct Hx as [Hx _]. apply in_map_iff in Hx. destruct Hx as (k & <- & Hk'). rewrite Forall_forall in Hk. now apply Hk. }
  split; [|split; [|split]].
  - rewrite A. unfold u32. pose proof (zlen_nonneg _ h). split; [lia|]. assert (zlen h <= zlen ks); [|lia]. unfold h, inserts. clear. unfold zlen. pose proof (filter_le (fun x : Z * Z => falls_inb mmh (per_hash n) (snd x) (Z.of_nat j)) (map (fun k => (1, k)) ks)) as Q. rewrite map_length in Q. lia.
  - rewrite B. apply xors_u32. apply Forall_map. apply Forall_forall. exact Hh'.
  - rewrite C. apply xors_u32. apply Forall_map. apply Forall_forall. intros x _. apply Hh.
  - intro X. rewrite A in X. assert (h = []) by (destruct h; [reflexivity|rewrite zlen_cons in X; pose proof (zlen_nonneg _ h); lia]). rewrite B, C, H. auto.
Qed.
(** But not a table in which a key was erased that is not there: the count comes back as another number, *)
Theorem C35_negative_refuted : forall mmh compress decompress n k t t', zlib_ok compress decompress -> 0 < n ->
  run mmh (new n) [(-1, k)] = Ok t -> initialize decompress (new n) (encode compress t) = Ok t' -> t' <> t.
Proof.
  intros mmh compress decompress n k t t' Hz Hn R I ->. destruct (new_sized n Hn) as [[Hb _] E]. rewrite E in *.
  destruct (holds_run mmh _ [(-1, k)] _ [] (holds_new mmh _ Hb)) as (t2 & R' & [Sz N]). rewrite R in R'. injection R' as <-. cbn [app] in N.
  unfold initialize, decode, encode in I. rewrite Hz in I. cbn [rbind] in I. destruct (negb _); [discriminate|].
  assert (I' : fill (repeat e_new (Z.to_nat (3 * per_hash n))) (values (flat_map e_bytes t)) = t) by congruence.
  assert (Hpos : forall l vs, (forall v, In v vs -> 0 <= v) -> (forall e, In e l -> 0 <= e_count e) -> forall e, In e (fill l vs) -> 0 <= e_count e).
  { clear. induction l as [|e l IH]; intros vs Hv Hl e' He'; [destruct He'|]. destruct vs as [|c [|q [|h vs]]]; try (now apply Hl). cbn [fill] in He'. destruct He' as [<-|He'].
    - destruct (negb (c =? 0)); [cbn; apply Hv; now left|apply Hl; now left].
    - eapply IH; [|intros; apply Hl; now right|exact He']. intros v Hv'. apply Hv. cbn. auto. }
  assert (Hm : 0 <= murmur mmh 0 k mod per_hash n < per_hash n) by (apply Z.mod_pos_bound; lia).
  destruct (nth_error t (Z.to_nat (murmur mmh 0 k mod per_hash n))) as [e|] eqn:Ee; [|apply nth_error_None in Ee; destruct Sz as [_ Sz]; unfold zlen in Sz; lia].
  destruct (N _ _ Ee) as (A & _ & _). cbn [filter snd] in A. assert (F : falls_inb mmh (per_hash n) k (Z.of_nat (Z.to_nat (murmur mmh 0 k mod per_hash n))) = true) by (apply falls_iff; exists 0; split; [lia|rewrite Z2Nat.id by lia; lia]).
  rewrite F, signs_one in A. assert (0 <= e_count e); [|lia]. apply (Hpos (repeat e_new (Z.to_nat (3 * per_hash n))) (values (flat_map e_bytes t))).
  - clear. intros v Hv. assert (G : forall b, (forall x, In x b -> 0 <= x) -> forall v, In v (values b) -> 0 <= v).
    { intro b. remember (length b) as m eqn:Em. assert (Hm : (length b <= m)%nat) by lia. clear Em. revert b Hm. induction m as [|m IH]; intros b Hm Hb v0 Hv0; [destruct b; [destruct Hv0|cbn in Hm; lia]|].
      destruct b as [|b0 [|b1 [|b2 [|b3 b]]]]; try destruct Hv0; cbn [values In] in *.
      - subst v0. rewrite !Z.shiftl_mul_pow2 by lia. pose proof (Hb b0). pose proof (Hb b1). pose proof (Hb b2). pose proof (Hb b3). cbn [In] in *. nia.
      - apply (IH b); [cbn in Hm; lia|intros; apply Hb; cbn; auto|assumption]. }
    apply (G (flat_map e_bytes t)); [|exact Hv]. intros x Hx. apply in_flat_map in Hx. destruct Hx as (e & _ & Hx). unfold e_bytes, le4 in Hx. rewrite !in_app_iff in Hx. cbn [In] in Hx.
    assert (forall y, 0 <= Z.land y 255) by (intro; apply Z.land_nonneg; right; lia). intuition; subst; auto.
  - intros e' He'. apply repeat_spec in He'. subst e'. cbn. lia.
  - rewrite I'. eapply nth_error_In; exact Ee.
Qed.
(** nor an entry with the keys of which one was inserted and another erased: it comes back empty. *)
Theorem C35_zero_refuted : forall compress decompress n e t, zlib_ok compress decompress -> e_count e = 0 -> u32 (e_keySum e) -> u32 (e_keyCheck e) -> e <> e_new ->
  length t = n -> initialize decompress (repeat e_new (S n)) (encode compress (e :: t)) <> Ok (e :: t).
Proof.
  intros compress decompress n e t Hz Hc Hk Hh Hne L I. unfold initialize, decode, encode in I. rewrite Hz in I. cbn [rbind flat_map] in I. 
  assert (V : values (e_bytes e ++ flat_map e_bytes t) = 0 :: e_keySum e :: e_keyCheck e :: values (flat_map e_bytes t)).
  { unfold e_bytes at 1. rewrite <- !app_assoc, Hc, !le4_value by (try assumption; unfold u32; lia). reflexivity. }
  rewrite V in I. destruct (negb (3 * _ =? _)) in I; [discriminate|]. cbn [repeat fill] in I. cbn [Z.eqb negb] in I. congruence.
Qed.
(** The table of the attack, as it is received in an interest by a node without names: listEntries of
    the difference never ends. *)
Theorem C35_hang_refuted : forall mmh compress decompress n k, zlib_ok compress decompress -> hash32 mmh -> u32 k -> 3 <= n ->
  exists encoding t d, initialize decompress (new n) encoding = Ok t /\ difference (new n) t = Ok d /\ forall fuel, listEntries mmh fuel d = Err OutOfFuel.
Proof.
  intros mmh compress decompress n k Hz Hh Hk Hn. destruct (new_sized n ltac:(lia)) as [[Hb _] E]. rewrite E. set (b := per_hash n) in *.
  assert (Hb2 : 2 <= b). { unfold b, per_hash. apply Z.div_le_lower_bound; [lia|]. assert (1 <= n / 2) by (apply Z.div_le_lower_bound; lia). lia. }
  set (h := murmur mmh 0 k mod b). assert (Hm : 0 <= h < b) by (apply Z.mod_pos_bound; lia). set (j0 := Z.to_nat ((h + 1) mod b)). pose proof (Z.mod_pos_bound (h + 1) b ltac:(lia)) as Hm1.
  assert (Hout : falls_inb mmh b k (Z.of_nat j0) = false).
  { destruct (falls_inb mmh b k (Z.of_nat j0)) eqn:X; [|reflexivity]. exfalso. apply falls_iff in X. destruct X as (i & Hi & Ej). unfold j0 in Ej. rewrite Z2Nat.id in Ej by lia. pose proof (Z.mod_pos_bound (murmur mmh i k) b ltac:(lia)) as Mi.
    assert (i = 0) by nia. subst i. fold h in Ej. destruct (Z.eq_dec h (b - 1)) as [Q|Q].
    - rewrite Q in Ej. replace (b - 1 + 1) with b in Ej by lia. rewrite Z.mod_same in Ej by lia. lia.
    - rewrite Z.mod_small in Ej by lia. lia. }
  set (N := Z.to_nat (3 * b)). set (t := map (fun j => if (j =? j0)%nat then Entry 1 k (murmur mmh 11 k) else e_new) (seq 0 N)).
  assert (Lt : length t = N) by (unfold t; rewrite map_length, seq_length; reflexivity).
  assert (Ht : Forall entry32 t).
  { apply Forall_forall. intros e He. unfold t in He. apply in_map_iff in He. destruct He as (j & <- & _). destruct (j =? j0)%nat; unfold entry32, u32; cbn; [split; [lia|]; split; [exact Hk|]; split; [apply Hh|lia]|lia]. }
  exists (encode compress t), t, (map2 e_diff (repeat e_new N) t). split; [now apply roundtrip|]. split.
  - unfold difference. replace (zlen (repeat e_new N)) with (zlen t) by (unfold zlen; rewrite repeat_length; lia). rewrite Z.eqb_refl. reflexivity.
  - intro fuel. unfold listEntries. rewrite (stuck_rounds mmh b k (-1) j0 (or_intror eq_refl) ltac:(unfold j0; lia) Hout fuel 0); [reflexivity|].
    split; [split; [exact Hb|unfold zlen; rewrite map2_len by (rewrite repeat_length; lia); rewrite repeat_length; unfold N; lia]|].
    intros j e Hj. rewrite map2_nth in Hj by (rewrite repeat_length; lia). destruct (nth_error (repeat e_new N) j) as [x|] eqn:X; [|discriminate]. apply nth_repeat in X. subst x.
    destruct (nth_error t j) as [y|] eqn:Y; [|discriminate]. injection Hj as <-. apply map_seq_nth in Y. destruct Y as [-> _]. destruct (j =? j0)%nat; [unfold e_diff; cbn [e_count e_keySum e_keyCheck e_new]; rewrite !Z.lxor_0_l; reflexivity|].
    destruct (falls_inb mmh b k (Z.of_nat j)); reflexivity.
Qed.
(** The hypotheses hold. *)
Definition ex_mmh (s : Z) (b : bytes) : Z := fold_left (fun h x => (h * 31 + x * x + s * 7) mod 2 ^ 32) b 17.
Lemma ex_hash32 : hash32 ex_mmh.
Proof. intros s b. unfold u32, ex_mmh. rewrite <- (rev_involutive b). destruct (rev b) as [|x l]; [cbn; lia|]. cbn [rev]. rewrite fold_left_app. cbn [fold_left]. apply Z.mod_pos_bound. lia. Qed.
Example C35_example : exists t t' d, run ex_mmh (new 10) (inserts [5; 700; 123456]) = Ok t /\ run ex_mmh (new 10) (inserts [700; 99]) = Ok t' /\ difference t t' = Ok d /\
  listEntries ex_mmh 4 d = Ok (true, [123456; 5], [99]) /\ no_collision ex_mmh (inserts [5; 123456] ++ erases [99]) /\ holds ex_mmh 5 d (inserts [5; 123456] ++ erases [99]).
Proof.
  eexists _, _, _. split; [vm_compute; reflexivity|]. split; [vm_compute; reflexivity|]. split; [vm_compute; reflexivity|]. split; [vm_compute; reflexivity|]. split.
  - intro f. cbn [inserts erases map app filter]. destruct (f (1, 5)), (f (1, 123456)), (f (-1, 99)); (split; [intros S C|intros S X C]); try (vm_compute in S; lia); try (vm_compute in X; discriminate); try (vm_compute in C; discriminate); try reflexivity; eauto.
  - split; [split; vm_compute; reflexivity|]. intros j e Hj. do 15 (destruct j as [|j]; [injection Hj as <-; vm_compute; auto|cbn [nth_error] in Hj]). destruct j; discriminate.
Qed.
Print Assumptions C35_contents.
Print Assumptions C35_order.
Print Assumptions C35_cancel.
Print Assumptions C35_commute.
Print Assumptions C35_equals.
Print Assumptions C35_difference.
Print Assumptions C35_symmetric.
Print Assumptions C35_list_exact.
Print Assumptions C35_list_sound.
Print Assumptions C35_list_terminates.
Print Assumptions C35_list_peelable.
Print Assumptions C35_list_one.
Print Assumptions C35_roundtrip.
Print Assumptions C35_negative_refuted.
Print Assumptions C35_zero_refuted.
Print Assumptions C35_hang_refuted.
