(** * Property C43: command Interests are not accepted twice *)
From Verif Require Import Base BaseLemmas TlvSpec TlvModel NameModel NameSpec NameProofs WireModel CtlModel MatchModel MatchProps ListAux DictModel DictProofs CmdModel CmdSpec.
From Coq Require Import Sorting.Sorted.
Local Open Scope res_scope.

(** ** Name.equals is an equivalence for all names *)
Definition ckey (c : comp) : Z * Z * bytes := (c_type c, (if c_type c =? CT_OTHER then c_other c else 0), c_value c).
Lemma c_equals_ckey : forall a b, c_equals a b = true <-> ckey a = ckey b.
Proof.
  intros a b. unfold c_equals, ckey, blob_equals. destruct (c_type a =? CT_OTHER) eqn:Ea; rewrite ?andb_true_iff, zlist_eqb_eq.
  - split.
    + intros [[E1 E2] E3]. rewrite E2. f_equal; [f_equal; lia|exact E1].
    + intros [= E1 E2 E3]. rewrite <- E1, Ea in *. split; [split; [exact E3|reflexivity]|lia].
  - split.
    + intros [E1 E2]. assert (E : c_type a = c_type b) by lia. rewrite <- E, Ea. f_equal. exact E1.
    + intros [= E1 E2 E3]. split; [exact E3|lia].
Qed.
Lemma n_equals_ckey : forall a b, n_equals a b = true <-> map ckey a = map ckey b.
Proof.
  induction a as [|x a IH]; intros [|y b]; cbn [n_equals map]; try (split; (discriminate || reflexivity)). rewrite andb_true_iff, IH, c_equals_ckey. split; [intros [-> ->]; reflexivity|intros E; split; congruence].
Qed.
Lemma eq_refl_n : forall a, n_equals a a = true.
Proof. intros a. apply n_equals_ckey. reflexivity. Qed.
Lemma eq_sym_n : forall a b, n_equals a b = true -> n_equals b a = true.
Proof. intros a b H. apply n_equals_ckey in H. apply n_equals_ckey. congruence. Qed.
Lemma eq_trans_n : forall a b c, n_equals a b = true -> n_equals b c = true -> n_equals a c = true.
Proof. intros a b c H1 H2. apply n_equals_ckey in H1. apply n_equals_ckey in H2. apply n_equals_ckey. congruence. Qed.

(** ** Parsing *)
Lemma last_split : forall {A} (l : list A), l = [] \/ exists l' x, l = l' ++ [x].
Proof. intros A l. induction l as [|x l _] using rev_ind; [auto|right; eauto]. Qed.
Lemma last4 : forall (n : name), 4 <= zlen n -> exists p a b c d, n = p ++ [a; b; c; d].
Proof.
  intros n H. destruct (last_split n) as [->|(n1 & d & ->)]; [rewrite zlen_nil in H; lia|]. rewrite zlen_app, zlen_cons, zlen_nil in H.
  destruct (last_split n1) as [->|(n2 & c & ->)]; [rewrite zlen_nil in H; lia|]. rewrite zlen_app, zlen_cons, zlen_nil in H.
  destruct (last_split n2) as [->|(n3 & b & ->)]; [rewrite zlen_nil in H; lia|]. rewrite zlen_app, zlen_cons, zlen_nil in H.
  destruct (last_split n3) as [->|(n4 & a & ->)]; [rewrite zlen_nil in H; lia|]. exists n4, a, b, c, d. rewrite <- !app_assoc. reflexivity.
Qed.
Lemma getitem_neg : forall A (p : list A) x q, py_getitem (p ++ x :: q) (- zlen (x :: q)) = Ok x.
Proof.
  intros A p x q. unfold py_getitem. pose proof (zlen_nonneg _ p). pose proof (zlen_nonneg _ q). rewrite zlen_app, !zlen_cons.
  replace (- (1 + zlen q) <? 0) with true by lia. replace (- (1 + zlen q) + (zlen p + (1 + zlen q))) with (zlen p) by lia.
  pose proof (getitem_split A p x q) as G. unfold py_getitem in G. replace (zlen p <? 0) with false in G by lia. rewrite zlen_app, zlen_cons in G. exact G.
Qed.
Lemma sig_keyName_iff : forall s k, sig_keyName s = Some k <-> locates s k.
Proof.
  intros s k. unfold sig_keyName, locates. split.
  - intros H. destruct (kl_ofSignature s) as [kl|] eqn:E; [|discriminate]. destruct (kl_type kl) as [t|] eqn:Et; [|discriminate]. destruct (t =? 1) eqn:E1; [|discriminate]. injection H as <-.
    exists kl. split; [rewrite Et; f_equal; lia|]. split; [reflexivity|]. destruct s; cbn [kl_ofSignature] in E; try discriminate; injection E as ->; [left|right; left|right; right]; eauto.
  - intros (kl & Et & <- & D). assert (E : kl_ofSignature s = Some kl) by (destruct D as [(vp & b & ->)|[(vp & b & ->)|(b & ->)]]; reflexivity). rewrite E, Et. reflexivity.
Qed.
Lemma parse_iff : forall n, exists r, parseCommandInterest n = Ok r /\ forall k ts, r = Some (k, ts) <-> command n k ts.
Proof.
  intros n. unfold parseCommandInterest, keyLocatorName. destruct (zlen n <? 4) eqn:E.
  - exists None. split; [reflexivity|]. intros k ts. split; [discriminate|]. intros (p & a & b & c & d & s & -> & _). rewrite zlen_app in E. pose proof (zlen_nonneg _ p). replace (zlen [a; b; c; d]) with 4 in E by reflexivity. lia.
  - destruct (last4 n) as (p & a & b & c & d & ->); [lia|].
    assert (G4 : py_getitem (p ++ [a; b; c; d]) (-4) = Ok a) by exact (getitem_neg _ p a [b; c; d]).
    assert (G2 : py_getitem (p ++ [a; b; c; d]) (-2) = Ok c) by (replace (p ++ [a; b; c; d]) with ((p ++ [a; b]) ++ c :: [d]) by (rewrite <- app_assoc; reflexivity); exact (getitem_neg _ _ c [d])).
    assert (G1 : py_getitem (p ++ [a; b; c; d]) (-1) = Ok d) by (replace (p ++ [a; b; c; d]) with ((p ++ [a; b; c]) ++ d :: []) by (rewrite <- app_assoc; reflexivity); exact (getitem_neg _ _ d [])).
    rewrite G4, G2, G1. cbn [rbind]. replace (zlen (p ++ [a; b; c; d]) <? 2) with false by (rewrite zlen_app in *; pose proof (zlen_nonneg _ p); lia).
    assert (Un : forall p' a' b' c' d', p ++ [a; b; c; d] = p' ++ [a'; b'; c'; d'] -> a' = a /\ c' = c /\ d' = d).
    { intros p' a' b' c' d' H. apply (f_equal (@rev comp)) in H. rewrite !rev_app_distr in H. cbn in H. injection H as -> -> _ -> _. auto. }
    unfold c_toNumber. change (fold_left (fun r b0 : Z => r * 256 + b0) (c_value a) 0) with (be_value (c_value a)).
    destruct (decodeSignatureInfoAndValue (c_value c) (c_value d)) as [s|e] eqn:Ed.
    + destruct (sig_keyName s) as [k0|] eqn:Ek.
      * exists (Some (k0, be_value (c_value a))). split; [reflexivity|]. intros k ts. split.
        -- intros [= <- <-]. exists p, a, b, c, d, s. split; [reflexivity|]. split; [reflexivity|]. split; [exact Ed|]. apply sig_keyName_iff. exact Ek.
        -- intros (p' & a' & b' & c' & d' & s' & H & <- & Ed' & L). apply Un in H. destruct H as (-> & -> & ->). assert (s' = s) by congruence. subst s'. apply sig_keyName_iff in L. congruence.
      * exists None. split; [reflexivity|]. intros k ts. split; [discriminate|]. intros (p' & a' & b' & c' & d' & s' & H & <- & Ed' & L). apply Un in H. destruct H as (-> & -> & ->). assert (s' = s) by congruence. subst s'. apply sig_keyName_iff in L. congruence.
    + exists None. split; [reflexivity|]. intros k ts. split; [discriminate|]. intros (p' & a' & b' & c' & d' & s' & H & <- & Ed' & L). apply Un in H. destruct H as (-> & -> & ->). congruence.
Qed.
Lemma command_unique : forall n k ts k' ts', command n k ts -> command n k' ts' -> k = k' /\ ts = ts'.
Proof. intros n k ts k' ts' H1 H2. destruct (parse_iff n) as (r & _ & R). apply R in H1. apply R in H2. split; congruence. Qed.

(** ** The run *)
Lemma run_snoc : forall o h e, run o (h ++ [e]) = rbind (run o h) (fun s => step (policy_options o) s e).
Proof. intros. unfold run. rewrite fold_left_app. reflexivity. Qed.
Lemma check_total : forall o l t1 t2 n, exists l' out, checkPolicy o l t1 t2 n = Ok (l', out) /\
  match out with
  | Some (k, ts) => command n k ts /\ l' = cleanUp o t1 l /\ t2 - o_grace o <= ts * 1000 <= t2 + o_grace o /\ match findByKeyName l' k with Some r => r_ts r < ts | None => True end
  | None => (l' = l /\ forall k ts, ~ command n k ts) \/ (l' = cleanUp o t1 l /\ exists k ts, command n k ts /\
      (~ (t2 - o_grace o <= ts * 1000 <= t2 + o_grace o) \/ exists r, findByKeyName l' k = Some r /\ ts <= r_ts r))
  end.
Proof.
  intros o l t1 t2 n. unfold checkPolicy. destruct (parse_iff n) as (r & -> & R). cbn [rbind]. destruct r as [[k ts]|].
  - assert (Cm : command n k ts) by (apply R; reflexivity). unfold checkTimestamp. set (l' := cleanUp o t1 l). destruct ((ts * 1000 <? t2 - o_grace o) || (t2 + o_grace o <? ts * 1000)) eqn:E.
    + exists l', None. split; [reflexivity|]. right. split; [reflexivity|]. exists k, ts. split; [exact Cm|]. left. lia.
    + destruct (findByKeyName l' k) as [r|] eqn:F; [destruct (ts <=? r_ts r) eqn:E2|]; eexists; eexists; (split; [reflexivity|]).
      * right. split; [reflexivity|]. exists k, ts. split; [exact Cm|]. right. exists r. split; [exact F|lia].
      * split; [exact Cm|]. split; [reflexivity|]. split; [lia|]. rewrite F. lia.
      * split; [exact Cm|]. split; [reflexivity|]. split; [lia|]. rewrite F. exact I.
  - exists l, None. split; [reflexivity|]. left. split; [reflexivity|]. intros k ts X. apply R in X. discriminate.
Qed.
Lemma step_total : forall o s e, exists s', step o s e = Ok s'.
Proof.
  intros o s e. destruct e as [t1 t2 n|t i]; cbn [step].
  - destruct (check_total o (recs s) t1 t2 n) as (l' & out & -> & _). cbn [rbind]. eauto.
  - destruct (nth_error (outs s) i) as [[[k ts]|]|]; eauto.
Qed.
(** No event raises. *)
Theorem C43_total : forall o h, exists s, run o h = Ok s.
Proof.
  intros o h. induction h as [|e h [s IH]] using rev_ind; [eexists; reflexivity|]. rewrite run_snoc, IH. cbn [rbind]. apply step_total.
Qed.
Lemma outs_grow : forall o h e s s', run o h = Ok s -> run o (h ++ [e]) = Ok s' -> exists x, outs s' = outs s ++ x /\ (length x <= 1)%nat.
Proof.
  intros o h e s s' H H'. rewrite run_snoc, H in H'. cbn [rbind] in H'. destruct e as [t1 t2 n|t i]; cbn [step] in H'.
  - destruct (check_total (policy_options o) (recs s) t1 t2 n) as (l' & out & E & _). rewrite E in H'. cbn [rbind] in H'. injection H' as <-. cbn [outs]. eexists. split; [reflexivity|]. cbn. lia.
  - exists []. rewrite app_nil_r. split; [|cbn; lia]. destruct (nth_error (outs s) i) as [[[k ts]|]|]; injection H' as <-; reflexivity.
Qed.
Lemma passed_fun : forall o h i k ts k' ts', passed o h i k ts -> passed o h i k' ts' -> k = k' /\ ts = ts'.
Proof. intros o h i k ts k' ts' (s & E & N) (s' & E' & N'). assert (s' = s) by congruence. subst. split; congruence. Qed.
Lemma passed_more : forall o h e i k ts, passed o h i k ts -> passed o (h ++ [e]) i k ts.
Proof.
  intros o h e i k ts (s & E & N). destruct (C43_total o (h ++ [e])) as [s' E']. exists s'. split; [exact E'|]. destruct (outs_grow o h e s s' E E') as (x & -> & _).
  rewrite nth_error_app1; [exact N|]. apply nth_error_Some. congruence.
Qed.
Lemma passed_app : forall o h2 h1 i k ts, passed o h1 i k ts -> passed o (h1 ++ h2) i k ts.
Proof. intros o h2. induction h2 as [|e h2 IH] using rev_ind; intros h1 i k ts P; [rewrite app_nil_r; exact P|]. rewrite app_assoc. apply passed_more. apply IH. exact P. Qed.

Lemma outs_checks : forall o h s, run o h = Ok s -> length (outs s) = length (checks h).
Proof.
  intros o h. induction h as [|e h IH] using rev_ind; intros s E; [injection E as <-; reflexivity|]. destruct (C43_total o h) as [s0 E0]. specialize (IH s0 E0). rewrite run_snoc, E0 in E. cbn [rbind] in E.
  unfold checks in *. rewrite flat_map_app, app_length, <- IH. cbn [flat_map]. rewrite app_nil_r. destruct e as [t1 t2 n|t j]; cbn [step] in E.
  - destruct (check_total (policy_options o) (recs s0) t1 t2 n) as (l' & out & Ec & _). rewrite Ec in E. injection E as <-. cbn [outs]. rewrite app_length. reflexivity.
  - cbn [length]. rewrite Nat.add_0_r. destruct (nth_error (outs s0) j) as [[[k ts]|]|]; injection E as <-; reflexivity.
Qed.
(** A check passes only for a command with a timestamp in the grace period around the clock. *)
Theorem C43_window : forall o h i k ts, passed o h i k ts -> exists t1 t2 n, nth_error (checks h) i = Some (t1, t2, n) /\ command n k ts /\
  Z.abs (ts * 1000 - t2) <= Z.max 0 (o_grace o).
Proof.
  intros o h. assert (Main : forall s, run o h = Ok s -> length (outs s) = length (checks h) /\ forall i k ts, nth_error (outs s) i = Some (Some (k, ts)) ->
     exists t1 t2 n, nth_error (checks h) i = Some (t1, t2, n) /\ command n k ts /\ Z.abs (ts * 1000 - t2) <= Z.max 0 (o_grace o)).
  { induction h as [|e h IH] using rev_ind; intros s E.
    - injection E as <-. split; [reflexivity|]. intros i k ts N. destruct i; discriminate.
    - destruct (C43_total o h) as [s0 E0]. destruct (IH s0 E0) as [L P]. rewrite run_snoc, E0 in E. cbn [rbind] in E. unfold checks in *. rewrite flat_map_app. cbn [flat_map]. rewrite app_nil_r.
      set (ck := flat_map (fun e0 : ev => match e0 with Check t1 t2 n => [(t1, t2, n)] | Finish _ _ => [] end) h) in *.
      destruct e as [t1 t2 n|t j]; cbn [step] in E.
      + destruct (check_total (policy_options o) (recs s0) t1 t2 n) as (l' & out & Ec & Po). rewrite Ec in E. cbn [rbind] in E. injection E as <-. cbn [outs]. rewrite !app_length. split; [cbn [length]; lia|].
        intros i k ts N. destruct (Nat.lt_ge_cases i (length (outs s0))) as [Li|Li].
        * rewrite nth_error_app1 in N by exact Li. destruct (P i k ts N) as (u1 & u2 & m & Em & X). exists u1, u2, m. split; [|exact X]. rewrite nth_error_app1 by lia. exact Em.
        * rewrite nth_error_app2 in N by exact Li. destruct (i - length (outs s0))%nat as [|d] eqn:Ei; [|destruct d; discriminate]. cbn in N. injection N as ->. destruct Po as (Cm & _ & W & _).
          exists t1, t2, n. split; [|split; [exact Cm|]].
          -- rewrite nth_error_app2 by lia. replace (i - length ck)%nat with 0%nat by lia. reflexivity.
          -- unfold policy_options in W. destruct (o_grace o <? 0) eqn:G; cbn [o_grace] in W; lia.
      + rewrite app_nil_r. assert (outs s = outs s0) by (destruct (nth_error (outs s0) j) as [[[k ts]|]|]; injection E as <-; reflexivity). rewrite H. auto. }
  intros i k ts (s & E & N). apply (Main s E). exact N.
Qed.

(** ** Records *)
Lemma find_in : forall l k r, findByKeyName l k = Some r -> In r l /\ n_equals (r_key r) k = true.
Proof. induction l as [|x l IH]; intros k r H; cbn [findByKeyName] in H; [discriminate|]. destruct (n_equals (r_key x) k) eqn:E; [injection H as <-; split; [left; reflexivity|exact E]|]. destruct (IH k r H). split; [right|]; assumption. Qed.
Lemma find_none : forall l k r, findByKeyName l k = None -> In r l -> n_equals (r_key r) k = false.
Proof. induction l as [|x l IH]; intros k r H I'; cbn [findByKeyName] in H; [destruct I'|]. destruct (n_equals (r_key x) k) eqn:E; [discriminate|]. destruct I' as [<-|I']; eauto. Qed.
Definition krec (r : record) := map ckey (r_key r).
Lemma cleanUp_in : forall o t l r, In r (cleanUp o t l) -> In r l.
Proof. intros o t. induction l as [|x l IH]; intros r H; [destruct H|]. cbn [cleanUp] in H. destruct (_ || _); [right; auto|exact H]. Qed.
Lemma cleanUp_nodup : forall o t l, NoDup (map krec l) -> NoDup (map krec (cleanUp o t l)).
Proof. intros o t. induction l as [|x l IH]; intros H; [exact H|]. cbn [cleanUp]. destruct (_ || _); [|exact H]. apply IH. inversion H; assumption. Qed.
Lemma cleanUp_keeps : forall o t l r, o_max o < 0 \/ zlen l <= o_max o -> In r l -> In r (cleanUp o t l) \/ r_at r <= t - o_life o.
Proof.
  intros o t. induction l as [|x l IH]; intros r H I'; [destruct I'|]. cbn [cleanUp]. destruct ((r_at x <=? t - o_life o) || ((0 <=? o_max o) && (o_max o <? zlen (x :: l)))) eqn:E; [|left; exact I'].
  assert (Ex : r_at x <= t - o_life o) by lia. destruct I' as [<-|I']; [right; exact Ex|]. apply IH; [rewrite zlen_cons in H; lia|exact I'].
Qed.
Lemma pop_in : forall l k r, In r (popKey l k) -> In r l.
Proof. induction l as [|x l IH]; intros k r H; [destruct H|]. cbn [popKey] in H. destruct (n_equals _ _); [right; exact H|]. destruct H as [<-|H]; [left; reflexivity|right; eauto]. Qed.
Lemma pop_nodup : forall l k, NoDup (map krec l) -> NoDup (map krec (popKey l k)) /\ ~ In (map ckey k) (map krec (popKey l k)).
Proof.
  induction l as [|x l IH]; intros k H; [split; [constructor|intros []]|]. cbn [map] in H. inversion H as [|? ? N D]; subst. cbn [popKey]. destruct (n_equals (r_key x) k) eqn:E.
  - split; [exact D|]. apply n_equals_ckey in E. unfold krec in N at 1. rewrite E in N. exact N.
  - destruct (IH k D) as [A B]. cbn [map]. split.
    + constructor; [|exact A]. intros X. apply N. apply in_map_iff in X. destruct X as (r & Er & Ir). rewrite <- Er. apply in_map. eapply pop_in. exact Ir.
    + intros [X|X]; [|contradiction]. assert (n_equals (r_key x) k = true) by (apply n_equals_ckey; exact X). congruence.
Qed.
Lemma pop_keeps : forall l k r, In r l -> n_equals (r_key r) k = true \/ In r (popKey l k).
Proof. induction l as [|x l IH]; intros k r H; [destruct H|]. cbn [popKey]. destruct H as [<-|H]; destruct (n_equals (r_key x) k) eqn:E; auto; [right; left; reflexivity|]. destruct (IH k r H); [auto|right; right; assumption]. Qed.
Lemma nodup_one : forall l r r', NoDup (map krec l) -> In r l -> In r' l -> krec r = krec r' -> r = r'.
Proof.
  induction l as [|x l IH]; intros r r' D H H' E; [destruct H|]. cbn [map] in D. inversion D as [|? ? N D']; subst. destruct H as [<-|H]; destruct H' as [<-|H']; auto.
  - elim N. rewrite E. apply in_map. exact H'.
  - elim N. rewrite <- E. apply in_map. exact H.
Qed.

(** ** The invariant *)
Lemma accepted_snoc : forall o h e i k ts, accepted o (h ++ [e]) i k ts -> accepted o h i k ts \/ (exists t, e = Finish t i /\ passed o h i k ts).
Proof.
  intros o h e i k ts (h1 & t & h2 & E & P). destruct (last_split h2) as [->|(h3 & x & ->)].
  - apply app_inj_tail in E. destruct E as [-> ->]. right. eauto.
  - left. exists h1, t, h3. split; [|exact P]. rewrite app_comm_cons, app_assoc in E. apply app_inj_tail in E. apply E.
Qed.
Lemma accepted_more : forall o h e i k ts, accepted o h i k ts -> accepted o (h ++ [e]) i k ts.
Proof. intros o h e i k ts (h1 & t & h2 & -> & P). exists h1, t, (h2 ++ [e]). rewrite <- app_assoc. auto. Qed.
Lemma accepted_passed : forall o h i k ts, accepted o h i k ts -> passed o h i k ts.
Proof. intros o h i k ts (h1 & t & h2 & -> & P). apply passed_app. exact P. Qed.
Record inv (o : options) (h : list ev) (s : st) : Prop := Inv {
  v_nodup : NoDup (map krec (recs s));
  v_from : forall r, In r (recs s) -> (exists i, accepted o h i (r_key r) (r_ts r)) /\ In (r_at r) (flat_map times h) /\ r_ts r * 1000 <= r_at r + o_grace (policy_options o);
  v_out : forall i k ts, passed o h i k ts -> exists u, In u (flat_map times h) /\ ts * 1000 <= u + o_grace (policy_options o);
  v_acc : forall i k ts, accepted o h i k ts ->
     (exists r, In r (recs s) /\ n_equals (r_key r) k = true /\ ts <= r_ts r) \/ (exists u, In u (flat_map times h) /\ ts * 1000 < u - o_grace (policy_options o));
  v_mono : forall i j k ts k' ts', (i < j)%nat -> accepted o h i k ts -> passed o h j k' ts' -> n_equals k k' = true -> ts < ts' }.
Lemma sorted_app_le : forall a b : list Z, StronglySorted Z.le (a ++ b) -> StronglySorted Z.le a /\ StronglySorted Z.le b /\ forall x y, In x a -> In y b -> x <= y.
Proof.
  induction a as [|x a IH]; intros b H; [split; [constructor|]; split; [exact H|intros x y []]|]. cbn [app] in H. inversion H as [|? ? S F]; subst. destruct (IH b S) as (A & B & D). rewrite Forall_app in F. destruct F as [F1 F2].
  split; [constructor; assumption|]. split; [exact B|]. intros u v [<-|Hu] Hv; [rewrite Forall_forall in F2; auto|auto].
Qed.
Lemma one_prefix : forall o h e, one_at_a_time o (h ++ [e]) -> one_at_a_time o h.
Proof. intros o h e H h1 t i h2 -> . intros j k ts k' ts'. apply (H h1 t i (h2 ++ [e])). rewrite <- app_assoc. reflexivity. Qed.
Lemma enough_prefix : forall o h e, enough_records o (h ++ [e]) -> enough_records o h.
Proof. intros o h e [H|(ks & L & H)]; [left; exact H|right]. exists ks. split; [exact L|]. intros i k ts P. apply (H i k ts). apply passed_more. exact P. Qed.
Lemma records_fit : forall o h s, enough_records o h -> inv o h s -> o_max (policy_options o) < 0 \/ zlen (recs s) <= o_max (policy_options o).
Proof.
  intros o h s En V. replace (o_max (policy_options o)) with (o_max o) by (unfold policy_options; destruct (_ <? _); reflexivity). destruct En as [H|(ks & L & H)]; [left; exact H|right].
  assert (X : (length (map krec (recs s)) <= length (map (map ckey) ks))%nat).
  { apply NoDup_incl_length; [apply (v_nodup _ _ _ V)|]. intros x Hx. apply in_map_iff in Hx. destruct Hx as (r & <- & Ir). destruct (v_from _ _ _ V r Ir) as [(i & A) _].
    destruct (H i _ _ (accepted_passed _ _ _ _ _ A)) as (k' & Ik & Ek). apply n_equals_ckey in Ek. unfold krec. rewrite Ek. apply in_map. exact Ik. }
  rewrite !map_length in X. apply Z.le_trans with (zlen ks); [|exact L]. exact (proj1 (Nat2Z.inj_le _ _) X).
Qed.
Lemma grace_max : forall o, o_grace (policy_options o) = Z.max 0 (o_grace o).
Proof. intros o. unfold policy_options. destruct (o_grace o <? 0) eqn:E; cbn [o_grace]; lia. Qed.
Lemma life_same : forall o, o_life (policy_options o) = o_life o.
Proof. intros o. unfold policy_options. destruct (_ <? _); reflexivity. Qed.
Lemma nth_snoc : forall (A : Type) (l : list A) x i y, nth_error (l ++ [x]) i = Some y -> nth_error l i = Some y \/ (i = length l /\ y = x).
Proof.
  intros A l x i y H. destruct (Nat.lt_ge_cases i (length l)) as [L|L]; [rewrite nth_error_app1 in H by exact L; auto|].
  rewrite nth_error_app2 in H by exact L. destruct (i - length l)%nat as [|d] eqn:E; [|destruct d; discriminate]. cbn in H. right. split; [lia|congruence].
Qed.
Lemma passed_lt : forall o h s i k ts, run o h = Ok s -> passed o h i k ts -> (i < length (outs s))%nat.
Proof. intros o h s i k ts E (s' & E' & N). assert (s' = s) by congruence. subst. apply nth_error_Some. congruence. Qed.

Lemma run_inv : forall o h, 2 * Z.max 0 (o_grace o) < o_life o -> clock_ok h -> one_at_a_time o h -> enough_records o h -> forall s, run o h = Ok s -> inv o h s.
Proof.
  intros o h HL. pose proof (grace_max o) as Gm. pose proof (life_same o) as Lm. set (g := o_grace (policy_options o)) in *. set (L := o_life (policy_options o)) in *.
  induction h as [|e h IH] using rev_ind; intros Ck One En s E.
  - assert (Np : forall i k ts, ~ passed o [] i k ts) by (intros i k ts (s' & E' & N); injection E' as <-; destruct i; discriminate).
    assert (Na : forall i k ts, ~ accepted o [] i k ts) by (intros i k ts A; exact (Np i k ts (accepted_passed _ _ _ _ _ A))).
    injection E as <-. constructor; cbn [recs map]; [constructor|intros r []|intros i k ts P; elim (Np i k ts P)|intros i k ts A; elim (Na i k ts A)|intros i j k ts k' ts' _ A; elim (Na i k ts A)].
  - destruct (C43_total o h) as [s0 E0]. pose proof (one_prefix _ _ _ One) as One0. pose proof (enough_prefix _ _ _ En) as En0.
    unfold clock_ok in *. rewrite flat_map_app in Ck. cbn [flat_map] in Ck. rewrite app_nil_r in Ck. apply sorted_app_le in Ck. destruct Ck as (Ck0 & Cke & Le).
    pose proof (IH Ck0 One0 En0 s0 E0) as V. pose proof (records_fit o h s0 En0 V) as Fit. pose proof E as Ee. rewrite run_snoc, E0 in E. cbn [rbind] in E.
    assert (Tm : forall u, In u (flat_map times h) -> In u (flat_map times (h ++ [e]))) by (intros u Hu; rewrite flat_map_app; apply in_or_app; left; exact Hu).
    assert (Te : forall u, In u (times e) -> In u (flat_map times (h ++ [e]))) by (intros u Hu; rewrite flat_map_app; apply in_or_app; right; cbn [flat_map]; rewrite app_nil_r; exact Hu).
    destruct e as [t1 t2 n|t i0]; cbn [step times] in *.
    + (* a check *)
      assert (T12 : t1 <= t2) by (inversion Cke as [|? ? _ F]; subst; inversion F; assumption).
      destruct (check_total (policy_options o) (recs s0) t1 t2 n) as (l' & out & Ec & Po). rewrite Ec in E. cbn [rbind fst snd] in E. injection E as <-.
      assert (Sub : forall r, In r l' -> In r (recs s0)).
      { destruct out as [[k ts]|]; [destruct Po as (_ & -> & _)|destruct Po as [[-> _]|[-> _]]]; intros r Ir; try exact Ir; eapply cleanUp_in; exact Ir. }
      assert (Kept : forall r, In r (recs s0) -> In r l' \/ r_at r <= t1 - L).
      { destruct out as [[k ts]|]; [destruct Po as (_ & -> & _)|destruct Po as [[-> _]|[-> _]]]; intros r Ir; try (left; exact Ir); apply cleanUp_keeps; assumption. }
      assert (ND : NoDup (map krec l')).
      { destruct out as [[k ts]|]; [destruct Po as (_ & -> & _)|destruct Po as [[-> _]|[-> _]]]; try apply cleanUp_nodup; apply (v_nodup _ _ _ V). }
      assert (Ac : forall i k ts, accepted o (h ++ [Check t1 t2 n]) i k ts -> accepted o h i k ts) by (intros i k ts A; apply accepted_snoc in A; destruct A as [A|(t & X & _)]; [exact A|discriminate]).
      assert (Pa : forall i k ts, passed o (h ++ [Check t1 t2 n]) i k ts -> passed o h i k ts \/ (i = length (outs s0) /\ out = Some (k, ts))).
      { intros i k ts (s' & E' & N). rewrite Ee in E'. injection E' as <-. cbn [outs] in N. apply nth_snoc in N. destruct N as [N|[-> N]]; [left; exists s0; auto|right; auto]. }
      assert (Old : forall i k ts, accepted o h i k ts ->
        (exists r, In r l' /\ n_equals (r_key r) k = true /\ ts <= r_ts r) \/ (exists u, u <= t1 /\ In u (flat_map times (h ++ [Check t1 t2 n])) /\ ts * 1000 < u - g)).
      { intros i k ts A. destruct (v_acc _ _ _ V i k ts A) as [(r & Ir & Er & Lr)|(u & Hu & Lu)].
        - destruct (Kept r Ir) as [Kr|Kr]; [left; exists r; auto|]. right. exists t1. split; [lia|]. split; [apply Te; left; reflexivity|]. destruct (v_from _ _ _ V r Ir) as (_ & _ & B). fold g in B. lia.
        - right. exists u. split; [apply Le; [exact Hu|left; reflexivity]|]. auto. }
      constructor; cbn [recs].
      * exact ND.
      * intros r Ir. destruct (v_from _ _ _ V r (Sub r Ir)) as ((i & A) & T & W). split; [|split; [apply Tm; exact T|exact W]]. exists i. apply accepted_more. exact A.
      * intros i k ts P. apply Pa in P. destruct P as [P|[_ ->]].
        -- destruct (v_out _ _ _ V i k ts P) as (u & Hu & Lu). exists u. auto.
        -- destruct Po as (_ & _ & W & _). exists t2. split; [apply Te; right; left; reflexivity|fold g in W; fold g; lia].
      * intros i k ts A. apply Ac in A. destruct (Old i k ts A) as [X|(u & _ & Hu & Lu)]; [left; exact X|right; exists u; auto].
      * intros i j k ts k' ts' Lij A P Ek. apply Ac in A. apply Pa in P. destruct P as [P|[-> ->]]; [eapply (v_mono _ _ _ V); eassumption|].
        destruct Po as (_ & _ & W & Fd). fold g in W. destruct (Old i k ts A) as [(r & Ir & Er & Lr)|(u & U1 & _ & Lu)]; [|lia].
        assert (Er' : n_equals (r_key r) k' = true) by (eapply eq_trans_n; eassumption). destruct (findByKeyName l' k') as [r'|] eqn:Ef.
        -- apply find_in in Ef. destruct Ef as [Ir' Er'']. assert (r' = r); [|subst; lia]. apply (nodup_one l'); try assumption. unfold krec. apply n_equals_ckey. eapply eq_trans_n; [exact Er''|apply eq_sym_n; exact Er'].
        -- rewrite (find_none _ _ _ Ef Ir) in Er'. discriminate.
    + (* a success *)
      assert (Pa : forall i k ts, passed o (h ++ [Finish t i0]) i k ts -> passed o h i k ts).
      { intros i k ts (s' & E' & N). rewrite Ee in E'. injection E' as <-. exists s0. split; [exact E0|]. assert (X : outs s = outs s0) by (destruct (nth_error (outs s0) i0) as [[[k0 ts0]|]|]; injection E as <-; reflexivity). rewrite X in N. exact N. }
      assert (Mono : forall i j k ts k' ts', (i < j)%nat -> accepted o (h ++ [Finish t i0]) i k ts -> passed o h j k' ts' -> n_equals k k' = true -> ts < ts').
      { intros i j k ts k' ts' Lij A P Ek. apply accepted_snoc in A. destruct A as [A|(t' & [= <- <-] & Pi)]; [eapply (v_mono _ _ _ V); eassumption|].
        exfalso. exact (One h t i0 [] eq_refl j k ts k' ts' Lij Pi P Ek). }
      destruct (nth_error (outs s0) i0) as [[[k0 ts0]|]|] eqn:N0.
      2, 3: injection E as <-; (assert (Ac : forall i k ts, accepted o (h ++ [Finish t i0]) i k ts -> accepted o h i k ts) by
              (intros i k ts A; apply accepted_snoc in A; destruct A as [A|(t' & [= <- <-] & (s' & E' & N))]; [exact A|assert (s' = s0) by congruence; subst; congruence]));
            (constructor; [apply (v_nodup _ _ _ V)| | | |]);
            [intros r Ir; destruct (v_from _ _ _ V r Ir) as ((i & A) & T & W); split; [exists i; apply accepted_more; exact A|auto]
            |intros i k ts P; destruct (v_out _ _ _ V i k ts (Pa i k ts P)) as (u & Hu & Lu); exists u; auto
            |intros i k ts A; destruct (v_acc _ _ _ V i k ts (Ac i k ts A)) as [X|(u & Hu & Lu)]; [left; exact X|right; exists u; auto]
            |intros i j k ts k' ts' Lij A P Ek; eapply Mono; try eassumption; apply Pa; exact P].
      injection E as <-. assert (P0 : passed o h i0 k0 ts0) by (exists s0; auto). destruct (pop_nodup (recs s0) k0 (v_nodup _ _ _ V)) as [ND NI].
      assert (A0 : accepted o (h ++ [Finish t i0]) i0 k0 ts0) by (exists h, t, []; auto).
      constructor; cbn [recs].
      * unfold insertNewRecord. rewrite map_app. cbn [map]. apply nodup_snoc; assumption.
      * intros r Ir. apply in_app_or in Ir. destruct Ir as [Ir|[<-|[]]].
        -- destruct (v_from _ _ _ V r (pop_in _ _ _ Ir)) as ((i & A) & T & W). split; [exists i; apply accepted_more; exact A|auto].
        -- cbn [r_key r_ts r_at]. split; [exists i0; exact A0|]. split; [apply Te; left; reflexivity|]. destruct (v_out _ _ _ V i0 k0 ts0 P0) as (u & Hu & Lu).
           pose proof (Le u t Hu (or_introl eq_refl)). lia.
      * intros i k ts P. destruct (v_out _ _ _ V i k ts (Pa i k ts P)) as (u & Hu & Lu). exists u. auto.
      * intros i k ts A.
        assert (New : n_equals k0 k = true -> ts <= ts0).
        { intros Ek. destruct (Nat.lt_trichotomy i i0) as [Li|[->|Li]].
          - assert (ts < ts0); [|lia]. eapply (Mono i i0 k ts k0 ts0 Li A P0). apply eq_sym_n. exact Ek.
          - destruct (passed_fun o h i0 k ts k0 ts0 (Pa _ _ _ (accepted_passed _ _ _ _ _ A)) P0). lia.
          - exfalso. exact (One h t i0 [] eq_refl i k0 ts0 k ts Li P0 (Pa _ _ _ (accepted_passed _ _ _ _ _ A)) Ek). }
        destruct (n_equals k0 k) eqn:Ek.
        -- left. exists (Rec k0 ts0 t). split; [apply in_or_app; right; left; reflexivity|]. split; [exact Ek|]. apply New. reflexivity.
        -- assert (Ah : accepted o h i k ts).
           { apply accepted_snoc in A. destruct A as [A|(t' & [= <- <-] & Pi)]; [exact A|]. destruct (passed_fun o h i0 k ts k0 ts0 Pi P0) as [-> _]. rewrite eq_refl_n in Ek. discriminate. }
           destruct (v_acc _ _ _ V i k ts Ah) as [(r & Ir & Er & Lr)|(u & Hu & Lu)]; [|right; exists u; auto].
           left. exists r. split; [|auto]. destruct (pop_keeps (recs s0) k0 r Ir) as [X|X]; [|apply in_or_app; left; exact X].
           assert (n_equals k0 k = true) by (eapply eq_trans_n; [apply eq_sym_n; exact X|exact Er]). congruence.
      * intros i j k ts k' ts' Lij A P Ek. eapply Mono; try eassumption. apply Pa. exact P.
Qed.
(** With commands of a key validated one at a time, a clock that does not go back, a record
    lifetime over twice the grace period and enough records: a check only passes with a
    timestamp above those of all commands of the key accepted before. *)
Theorem C43_replay : forall o h i j k ts k' ts', 2 * Z.max 0 (o_grace o) < o_life o -> clock_ok h -> one_at_a_time o h -> enough_records o h ->
  (i < j)%nat -> accepted o h i k ts -> passed o h j k' ts' -> n_equals k k' = true -> ts < ts'.
Proof.
  intros o h i j k ts k' ts' HL Ck One En Lij A P Ek. destruct (C43_total o h) as [s E]. eapply (v_mono _ _ _ (run_inv o h HL Ck One En s E)); eassumption.
Qed.
(** So one command is never accepted twice. *)
Corollary C43_once : forall o h i j n t1 t2 u1 u2 k ts k' ts', 2 * Z.max 0 (o_grace o) < o_life o -> clock_ok h -> one_at_a_time o h -> enough_records o h ->
  nth_error (checks h) i = Some (t1, t2, n) -> nth_error (checks h) j = Some (u1, u2, n) -> accepted o h i k ts -> accepted o h j k' ts' -> i = j.
Proof.
  intros o h i j n t1 t2 u1 u2 k ts k' ts' HL Ck One En Ni Nj Ai Aj. pose proof (accepted_passed _ _ _ _ _ Ai) as Pi. pose proof (accepted_passed _ _ _ _ _ Aj) as Pj.
  destruct (C43_window _ _ _ _ _ Pi) as (a1 & a2 & m & Em & Cm & _). destruct (C43_window _ _ _ _ _ Pj) as (b1 & b2 & m' & Em' & Cm' & _).
  assert (m = n) by congruence. assert (m' = n) by congruence. subst m m'. destruct (command_unique _ _ _ _ _ Cm Cm') as [<- <-].
  destruct (Nat.lt_trichotomy i j) as [L|[E|L]]; [|exact E|].
  - pose proof (C43_replay o h i j k ts k ts HL Ck One En L Ai Pj (eq_refl_n k)). lia.
  - pose proof (C43_replay o h j i k ts k ts HL Ck One En L Aj Pi (eq_refl_n k)). lia.
Qed.
(** In any history: a command in the grace period with a timestamp above those of all accepted
    commands of its key passes. *)
Lemma recs_accepted : forall o h s, run o h = Ok s -> forall r, In r (recs s) -> exists i, accepted o h i (r_key r) (r_ts r).
Proof.
  intros o h. induction h as [|e h IH] using rev_ind; intros s E r Ir; [injection E as <-; destruct Ir|]. destruct (C43_total o h) as [s0 E0]. rewrite run_snoc, E0 in E. cbn [rbind] in E.
  assert (Old : In r (recs s0) -> exists i, accepted o (h ++ [e]) i (r_key r) (r_ts r)) by (intros X; destruct (IH s0 E0 r X) as [i A]; exists i; apply accepted_more; exact A).
  destruct e as [t1 t2 n|t i0]; cbn [step] in E.
  - destruct (check_total (policy_options o) (recs s0) t1 t2 n) as (l' & out & Ec & Po). rewrite Ec in E. cbn [rbind fst snd] in E. injection E as <-. cbn [recs] in Ir. apply Old.
    destruct out as [[k ts]|]; [destruct Po as (_ & -> & _)|destruct Po as [[-> _]|[-> _]]]; try exact Ir; eapply cleanUp_in; exact Ir.
  - destruct (nth_error (outs s0) i0) as [[[k0 ts0]|]|] eqn:N0; injection E as <-; try (apply Old; exact Ir). cbn [recs] in Ir. apply in_app_or in Ir. destruct Ir as [Ir|[<-|[]]]; [apply Old; eapply pop_in; exact Ir|].
    exists i0, h, t, []. split; [reflexivity|]. exists s0. auto.
Qed.
Theorem C43_accepts : forall o h t1 t2 n k ts, command n k ts -> Z.abs (ts * 1000 - t2) <= Z.max 0 (o_grace o) ->
  (forall i k' ts', accepted o h i k' ts' -> n_equals k k' = true -> ts' < ts) ->
  passed o (h ++ [Check t1 t2 n]) (length (checks h)) k ts.
Proof.
  intros o h t1 t2 n k ts Cm W Ab. destruct (C43_total o h) as [s E]. destruct (check_total (policy_options o) (recs s) t1 t2 n) as (l' & out & Ec & Po).
  assert (R : run o (h ++ [Check t1 t2 n]) = Ok (St l' (outs s ++ [out]))) by (rewrite run_snoc, E; cbn [rbind step]; rewrite Ec; reflexivity).
  eexists. split; [exact R|]. cbn [outs]. rewrite <- (outs_checks o h s E), nth_error_app2, Nat.sub_diag by lia. cbn [nth_error]. f_equal.
  pose proof (grace_max o) as Gm. destruct out as [[k0 ts0]|].
  - destruct Po as (Cm' & _). destruct (command_unique _ _ _ _ _ Cm Cm') as [-> ->]. reflexivity.
  - exfalso. destruct Po as [[_ X]|(-> & k0 & ts0 & Cm' & X)]; [eapply X; exact Cm|]. destruct (command_unique _ _ _ _ _ Cm Cm') as [<- <-]. destruct X as [X|(r & F & Lr)]; [apply X; lia|].
    apply find_in in F. destruct F as [Ir Er]. apply cleanUp_in in Ir. destruct (recs_accepted o h s E r Ir) as [i A]. specialize (Ab i _ _ A (eq_sym_n _ _ Er)). lia.
Qed.

(** ** A concrete case, and what is false without the conditions *)
Definition ex_key (x : Z) : name := [c_generic [x]; c_generic [75; 69; 89]; c_generic [1]].
Definition ex_sig (x : Z) : signature := SigHmac (KL (Some 1) (ex_key x) None) (Some [7]).
(** the command /c with the timestamp [ts], signed with the key [x] *)
Definition ex_cmd (x ts : Z) : name := match signName [c_generic [99]; c_generic (nonneg ts); c_generic [0; 1; 2; 3; 4; 5; 6; 7]] (ex_sig x) with Ok n => n | Err _ => [] end.
Definition sec (x : Z) : Z := x * 1000000.
Definition ex_o : options := Options (sec 10) 2 (sec 60).
Definition ex_h : list ev :=
  [Check (sec 100) (sec 100) (ex_cmd 65 100000); Check (sec 100) (sec 100) (ex_cmd 66 99000); Finish (sec 101) 0; Finish (sec 101) 1;
   Check (sec 102) (sec 102) (ex_cmd 65 100000); Check (sec 103) (sec 103) (ex_cmd 65 100001); Finish (sec 104) 3; Check (sec 200) (sec 200) (ex_cmd 65 100001)].
Lemma ex_outs : exists s, run ex_o ex_h = Ok s /\ outs s = [Some (ex_key 65, 100000); Some (ex_key 66, 99000); None; Some (ex_key 65, 100001); None].
Proof. eexists. split; [vm_compute; reflexivity|]. vm_compute. reflexivity. Qed.
Lemma ex_passed : forall i k ts, passed ex_o ex_h i k ts -> (i = 0%nat /\ k = ex_key 65 /\ ts = 100000) \/ (i = 1%nat /\ k = ex_key 66 /\ ts = 99000) \/ (i = 3%nat /\ k = ex_key 65 /\ ts = 100001).
Proof.
  intros i k ts (s & E & N). destruct ex_outs as (s' & E' & O). assert (s = s') by congruence. subst s'. rewrite O in N. clear E E' O.
  destruct i as [|[|[|[|[|i]]]]]; cbn [nth_error] in N; try discriminate N; try (injection N as <- <-; auto 8). destruct i; discriminate N.
Qed.
Example C43_ex : 2 * Z.max 0 (o_grace ex_o) < o_life ex_o /\ clock_ok ex_h /\ one_at_a_time ex_o ex_h /\ enough_records ex_o ex_h /\
  command (ex_cmd 65 100000) (ex_key 65) 100000 /\ accepted ex_o ex_h 0 (ex_key 65) 100000 /\ accepted ex_o ex_h 3 (ex_key 65) 100001.
Proof.
  split; [vm_compute; reflexivity|]. split.
  { unfold clock_ok. cbn [flat_map times app ex_h]. unfold sec. repeat (constructor; [|repeat constructor; lia]). constructor. }
  split.
  { intros h1 t i h2 E j k ts k' ts' Lij Pi Pj Ek.
    assert (Q1 : passed ex_o ex_h i k ts) by (rewrite E; apply passed_app; exact Pi). assert (Q2 : passed ex_o ex_h j k' ts') by (rewrite E; apply passed_app; exact Pj).
    apply ex_passed in Q1. apply ex_passed in Q2. destruct Q1 as [(-> & -> & ->)|[(-> & -> & ->)|(-> & -> & ->)]]; destruct Q2 as [(-> & -> & ->)|[(-> & -> & ->)|(-> & -> & ->)]]; try lia; try (vm_compute in Ek; discriminate Ek).
    destruct Pj as (s & Es & N). unfold ex_h in E. destruct h1 as [|e0 [|e1 [|e2 [|e3 [|e4 [|e5 [|e6 [|e7 h1]]]]]]]]; cbn [app] in E; inversion E; subst; try (destruct h1; discriminate E); vm_compute in Es; injection Es as <-; discriminate N. }
  split.
  { right. exists [ex_key 65; ex_key 66]. split; [vm_compute; discriminate|]. intros i k ts P. apply ex_passed in P. destruct P as [(_ & -> & _)|[(_ & -> & _)|(_ & -> & _)]]; [exists (ex_key 65)|exists (ex_key 66)|exists (ex_key 65)]; (split; [cbn [In]; auto|apply eq_refl_n]). }
  split.
  { destruct (parse_iff (ex_cmd 65 100000)) as (r & E & R). apply R. vm_compute in E. injection E as <-. reflexivity. }
  split.
  - exists [Check (sec 100) (sec 100) (ex_cmd 65 100000); Check (sec 100) (sec 100) (ex_cmd 66 99000)], (sec 101). eexists. split; [reflexivity|]. eexists. split; [vm_compute; reflexivity|]. reflexivity.
  - exists (firstn 6 ex_h), (sec 104). eexists. split; [reflexivity|]. eexists. split; [vm_compute; reflexivity|]. reflexivity.
Qed.
Ltac acc n := exists n; eexists; eexists; split; [reflexivity|]; eexists; split; [vm_compute; reflexivity|]; reflexivity.
Lemma bad : forall o h i j k ts, accepted o h i k ts -> accepted o h j k ts -> (i < j)%nat ->
  ~ (forall i j k ts k' ts', (i < j)%nat -> accepted o h i k ts -> passed o h j k' ts' -> n_equals k k' = true -> ts < ts').
Proof. intros o h i j k ts A B L H. pose proof (H i j k ts k ts L A (accepted_passed _ _ _ _ _ B) (eq_refl_n k)). lia. Qed.
(** Two Interests of one key in flight: the same command is accepted twice. *)
Definition ex_inflight : list ev := [Check (sec 100) (sec 100) (ex_cmd 65 100000); Check (sec 100) (sec 100) (ex_cmd 65 100000); Finish (sec 101) 0; Finish (sec 101) 1].
Theorem C43_inflight_refuted : ~ (forall o h i j k ts k' ts', 2 * Z.max 0 (o_grace o) < o_life o -> clock_ok h -> enough_records o h ->
  (i < j)%nat -> accepted o h i k ts -> passed o h j k' ts' -> n_equals k k' = true -> ts < ts').
Proof.
  intros H. assert (A : accepted (Options (sec 10) (-1) (sec 60)) ex_inflight 0 (ex_key 65) 100000) by acc (firstn 2 ex_inflight).
  assert (B : accepted (Options (sec 10) (-1) (sec 60)) ex_inflight 1 (ex_key 65) 100000) by acc (firstn 3 ex_inflight).
  eapply (bad _ _ _ _ _ _ A B); [lia|]. intros i j k ts k' ts' L. apply (H (Options (sec 10) (-1) (sec 60)) ex_inflight); try assumption; [vm_compute; reflexivity| |left; vm_compute; reflexivity].
  unfold clock_ok. cbn [flat_map times app ex_inflight]. unfold sec. repeat (constructor; [|repeat constructor; lia]). constructor.
Qed.
(** A success that comes after the one of a later command lowers the recorded timestamp, and
    the later command is then accepted again, although each command is in flight once. *)
Definition ex_late : list ev := [Check (sec 100) (sec 100) (ex_cmd 65 100000); Check (sec 100) (sec 100) (ex_cmd 65 100001); Finish (sec 101) 1; Finish (sec 101) 0;
  Check (sec 102) (sec 102) (ex_cmd 65 100001); Finish (sec 102) 2].
Theorem C43_late_refuted : exists h, clock_ok h /\ accepted (Options (sec 10) (-1) (sec 60)) h 1 (ex_key 65) 100001 /\ accepted (Options (sec 10) (-1) (sec 60)) h 2 (ex_key 65) 100001 /\
  exists h1 t1 t2 n h2, h = h1 ++ Check t1 t2 n :: h2 /\ n = ex_cmd 65 100001 /\ (exists t, In (Finish t 0) h1) /\ (exists t, In (Finish t 1) h1).
Proof.
  exists ex_late. split; [|split; [acc (firstn 2 ex_late)|split; [acc (firstn 5 ex_late)|]]].
  - unfold clock_ok. cbn [flat_map times app ex_late]. unfold sec. repeat (constructor; [|repeat constructor; lia]). constructor.
  - exists (firstn 4 ex_late), (sec 102), (sec 102), (ex_cmd 65 100001), [Finish (sec 102) 2]. split; [reflexivity|]. split; [reflexivity|]. cbn [firstn ex_late In]. split; eexists; eauto 10.
Qed.
(** More keys than records: the record of a key is dropped and its command accepted again. *)
Definition ex_evict : list ev := [Check (sec 100) (sec 100) (ex_cmd 65 100000); Finish (sec 100) 0; Check (sec 101) (sec 101) (ex_cmd 66 100000); Finish (sec 101) 1;
  Check (sec 102) (sec 102) (ex_cmd 65 100000); Finish (sec 102) 2].
Theorem C43_eviction_refuted : ~ (forall o h i j k ts k' ts', 2 * Z.max 0 (o_grace o) < o_life o -> clock_ok h -> one_at_a_time o h -> 0 < o_max o ->
  (i < j)%nat -> accepted o h i k ts -> passed o h j k' ts' -> n_equals k k' = true -> ts < ts').
Proof.
  intros H. set (o := Options (sec 10) 1 (sec 60)). assert (A : accepted o ex_evict 0 (ex_key 65) 100000) by acc (firstn 1 ex_evict).
  assert (B : accepted o ex_evict 2 (ex_key 65) 100000) by acc (firstn 5 ex_evict).
  eapply (bad _ _ _ _ _ _ A B); [lia|]. intros i j k ts k' ts' L. apply (H o ex_evict); try assumption; [vm_compute; reflexivity| | |reflexivity].
  - unfold clock_ok. cbn [flat_map times app ex_evict]. unfold sec. repeat (constructor; [|repeat constructor; lia]). constructor.
  - intros h1 t i' h2 E j' k1 ts1 k2 ts2 Lij _ Pj _. destruct Pj as (s & Es & N). unfold ex_evict in E.
    destruct h1 as [|e0 [|e1 [|e2 [|e3 [|e4 [|e5 h1]]]]]]; cbn [app] in E; inversion E; subst; try (destruct h1; discriminate E); vm_compute in Es; injection Es as <-; cbn [outs] in N;
      (do 4 (destruct j' as [|j']; [try lia; try discriminate N|])); discriminate N.
Qed.
(** A record lifetime of twice the grace period is too short. *)
Definition ex_short : list ev := [Check (sec 100) (sec 100) (ex_cmd 65 110000); Finish (sec 100) 0; Check (sec 120) (sec 120) (ex_cmd 65 110000); Finish (sec 120) 1].
Theorem C43_lifetime_refuted : exists o h, o_life o = 2 * o_grace o /\ o_max o < 0 /\ clock_ok h /\ accepted o h 0 (ex_key 65) 110000 /\ accepted o h 1 (ex_key 65) 110000 /\
  h = [Check (sec 100) (sec 100) (ex_cmd 65 110000); Finish (sec 100) 0; Check (sec 120) (sec 120) (ex_cmd 65 110000); Finish (sec 120) 1].
Proof.
  exists (Options (sec 10) (-1) (sec 20)), ex_short. split; [reflexivity|]. split; [reflexivity|]. split.
  - unfold clock_ok. cbn [flat_map times app ex_short]. unfold sec. repeat (constructor; [|repeat constructor; lia]). constructor.
  - split; [acc (firstn 1 ex_short)|]. split; [acc (firstn 3 ex_short)|reflexivity].
Qed.
(** The documentation of Options says that only an initial command is compared to the clock, a
    subsequent one only to the recorded timestamp.  It is compared to both. *)
Theorem C43_subsequent_refuted : ~ (forall o h i k ts t1 t2 n ts', accepted o h i k ts -> (forall j k' u, accepted o h j k' u -> j = i) -> command n k ts' -> ts < ts' ->
  passed o (h ++ [Check t1 t2 n]) (length (checks h)) k ts').
Proof.
  intros H. set (h := [Check (sec 100) (sec 100) (ex_cmd 65 100000); Finish (sec 100) 0]).
  assert (A : accepted ex_o h 0 (ex_key 65) 100000) by acc (firstn 1 h). specialize (H ex_o h 0%nat (ex_key 65) 100000 (sec 112) (sec 112) (ex_cmd 65 100001) 100001 A).
  destruct H as (s & E & N); [| |lia|].
  - intros j k' u B. apply accepted_passed in B. destruct B as (s & E & N). vm_compute in E. injection E as <-. destruct j as [|[|j]]; [reflexivity| |]; discriminate N.
  - destruct (parse_iff (ex_cmd 65 100001)) as (r & E & R). apply R. vm_compute in E. injection E as <-. reflexivity.
  - vm_compute in E. injection E as <-. discriminate N.
Qed.
Print Assumptions C43_total.
Print Assumptions C43_window.
Print Assumptions C43_replay.
Print Assumptions C43_once.
Print Assumptions C43_accepts.
Print Assumptions C43_inflight_refuted.
Print Assumptions C43_late_refuted.
Print Assumptions C43_eviction_refuted.
Print Assumptions C43_lifetime_refuted.
Print Assumptions C43_subsequent_refuted.
