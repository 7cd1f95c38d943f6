(** * Lemmas about ChronoModel: the tree and the log *)
From Verif Require Import Base BaseLemmas BlobModel DigestModel DigestSpec DigestProps ChronoModel ChronoSpec.
From Coq Require Import Sorted.
Local Open Scope res_scope.

Definition known (t : tree) (p : str) (s : Z) : Z :=
  if find t p s <? 0 then -1 else match nth_error (t_nodes t) (Z.to_nat (find t p s)) with Some n => n_seq n | None => -1 end.
Lemma gps_known c p s : getProducerSequenceNo c p s = known (c_tree c) p s.
Proof. reflexivity. Qed.

Lemma top_ge us p s : -1 <= top us p s.
Proof. induction us as [|u us IH]; cbn [top]; [lia|]. destruct (prod_dec (fst u) (p, s)); lia. Qed.
Lemma top_app us vs p s : top (us ++ vs) p s = Z.max (top us p s) (top vs p s).
Proof.
  induction us as [|u us IH]; cbn [top app]; [pose proof (top_ge vs p s); lia|]. rewrite IH. destruct (prod_dec (fst u) (p, s)); lia.
Qed.
Lemma top_in us p s q : In (p, s, q) us -> q <= top us p s.
Proof.
  induction us as [|u us IH]; [intros []|]. cbn [top]. intros [->|H].
  - cbn [fst snd]. destruct (prod_dec (p, s) (p, s)) as [_|N]; [lia|congruence].
  - specialize (IH H). destruct (prod_dec (fst u) (p, s)); lia.
Qed.
Lemma top_wit us p s : top us p s = -1 \/ In (p, s, top us p s) us.
Proof.
  induction us as [|u us IH]; [now left|]. cbn [top]. destruct (prod_dec (fst u) (p, s)) as [E|E].
  - destruct u as [k q]. cbn [fst snd] in *. subst k. destruct (Z.max_spec q (top us p s)) as [[L ->]|[L ->]]; [|right; now left].
    destruct IH as [IH|IH]; [left; lia|right; now right].
  - destruct IH as [IH|IH]; [now left|right; now right].
Qed.
Definition claim_ok (u : str * Z * Z) : Prop := encodable (fst (fst u)) /\ 0 <= snd u.
Lemma top_none us p s : Forall claim_ok us -> top us p s = -1 <-> forall q, ~ In (p, s, q) us.
Proof.
  intro F. split.
  - intros E q H. rewrite Forall_forall in F. pose proof (proj2 (F _ H)) as X. cbn [snd] in X. apply top_in in H. lia.
  - intro N. destruct (top_wit us p s) as [E|E]; [exact E|destruct (N _ E)].
Qed.
Lemma top_latest us p s q : Forall claim_ok us -> latest us p s q -> top us p s = q.
Proof.
  intros F [H1 H2]. destruct (top_wit us p s) as [E|E]; [exfalso; apply (proj1 (top_none us p s F) E q H1)|]. apply H2 in E. apply top_in in H1. lia.
Qed.
Lemma latest_top us p s : Forall claim_ok us -> top us p s <> -1 -> latest us p s (top us p s).
Proof. intros F N. destruct (top_wit us p s) as [E|E]; [congruence|]. split; [exact E|]. intros q H. now apply top_in. Qed.

Section T.
Variable sha : bytes -> bytes.
Hypothesis Hs : sha_fn sha.
Notation run := (run sha).

Lemma known_run us p s : Forall claim_ok us -> known (run us) p s = top us p s.
Proof.
  intro F. unfold known, find. destruct (find_spec (t_nodes (run us)) 0 p s ltac:(lia)) as [[E N]|(k & n & E & Hn & K)]; rewrite E.
  - change (-1 <? 0) with true. cbv iota. symmetry. apply top_none; [exact F|]. intros q H. destruct (latest_ex us p s q H) as (m & L).
    rewrite Forall_forall in F. destruct (proj2 (C34_nodes sha us p s m) (conj (proj1 (F _ H)) L)) as (n & Hn & E1 & E2 & _). apply (N n Hn). unfold key. congruence.
  - replace (0 + Z.of_nat k <? 0) with false by lia. rewrite Z.add_0_l, Nat2Z.id, Hn. unfold key in K. injection K as K1 K2.
    destruct (proj1 (C34_nodes sha us p s (n_seq n))) as [_ L]; [exists n; split; [eapply nth_error_In, Hn|auto]|]. symmetry. now apply top_latest.
Qed.
Lemma find_run us p s : Forall claim_ok us -> (find (run us) p s =? -1) = (top us p s =? -1).
Proof.
  intro F. rewrite <- (known_run us p s F). unfold known, find. destruct (find_spec (t_nodes (run us)) 0 p s ltac:(lia)) as [[E N]|(k & n & E & Hn & K)]; rewrite E; [reflexivity|].
  replace (0 + Z.of_nat k <? 0) with false by lia. rewrite Z.add_0_l, Nat2Z.id, Hn. unfold key in K. injection K as K1 K2.
  destruct (proj1 (C34_nodes sha us p s (n_seq n))) as [_ [L _]]; [exists n; split; [eapply nth_error_In, Hn|auto]|]. rewrite Forall_forall in F. pose proof (proj2 (F _ L)) as X. cbn [snd] in X. lia.
Qed.
Lemma update_run us p s q : Forall claim_ok us -> claim_ok (p, s, q) ->
  update sha (run us) p s q = (run (us ++ [(p, s, q)]), Ok (top us p s <? q)).
Proof.
  intros F [He Hq]. cbn [fst snd] in *. rewrite run_snoc. cbn [fst snd]. destruct (C34_result sha us p s q Hs He) as [[R N]|[R [(q' & I & L) _]]].
  - replace (top us p s <? q) with true. { rewrite <- R. destruct (update sha (run us) p s q); reflexivity. } destruct (top_wit us p s) as [E|E]; [lia|]. specialize (N _ E). lia.
  - replace (top us p s <? q) with false. { rewrite <- R. destruct (update sha (run us) p s q); reflexivity. } apply top_in in I. lia.
Qed.
(** The tree depends on the highest numbers only. *)
Lemma run_same us vs : Forall claim_ok us -> Forall claim_ok vs -> (forall p s, top us p s = top vs p s) -> run us = run vs.
Proof.
  intros F F' H. apply C34_same; [exact Hs|]. intros p s q _. split; intro L.
  - pose proof (top_latest _ _ _ _ F L) as E. rewrite H in E. rewrite <- E. apply latest_top; [exact F'|]. rewrite E. destruct L as [L _]. rewrite Forall_forall in F. apply F in L. destruct L as [_ L]. cbn [snd] in L. lia.
  - pose proof (top_latest _ _ _ _ F' L) as E. rewrite <- H in E. rewrite <- E. apply latest_top; [exact F|]. rewrite E. destruct L as [L _]. rewrite Forall_forall in F'. apply F' in L. destruct L as [_ L]. cbn [snd] in L. lia.
Qed.
Lemma nodes_top us n : Forall claim_ok us -> In n (t_nodes (run us)) -> n_seq n = top us (n_prefix n) (n_session n) /\ In (n_prefix n, n_session n, n_seq n) us.
Proof.
  intros F H. destruct (proj1 (C34_nodes sha us (n_prefix n) (n_session n) (n_seq n))) as [_ L]; [eauto|]. split; [symmetry; now apply top_latest|apply L].
Qed.
Lemma nodes_ex us p s : Forall claim_ok us -> top us p s <> -1 -> exists n, In n (t_nodes (run us)) /\ n_prefix n = p /\ n_session n = s /\ n_seq n = top us p s.
Proof.
  intros F N. pose proof (latest_top us p s F N) as L. apply C34_nodes. split; [|exact L]. rewrite Forall_forall in F. apply (F _ (proj1 L)).
Qed.
End T.

Lemma log_find_spec g d i : 0 <= i ->
  (log_find_from i g d = -1 /\ ~ In d (map fst g)) \/
  exists a e b, g = a ++ e :: b /\ fst e = d /\ log_find_from i g d = i + zlen a /\ ~ In d (map fst a).
Proof.
  revert i. induction g as [|e g IH]; intros i Hi; cbn [log_find_from]; [left; split; [reflexivity|intros []]|].
  destruct (zlist_eqb d (fst e)) eqn:E.
  - right. exists [], e, g. apply zlist_eqb_eq in E. rewrite zlen_nil, Z.add_0_r. split; [reflexivity|]. split; [congruence|]. split; [reflexivity|intros []].
  - assert (N : fst e <> d) by (intro X; rewrite (proj2 (zlist_eqb_eq d (fst e)) (eq_sym X)) in E; discriminate E).
    destruct (IH (i + 1) ltac:(lia)) as [[E1 N1]|(a & e' & b & E1 & E2 & E3 & N1)].
    + left. split; [exact E1|]. cbn [map In]. tauto.
    + right. exists (e :: a), e', b. rewrite E1. split; [reflexivity|]. split; [exact E2|]. split; [rewrite <- E1, E3, zlen_cons; lia|]. cbn [map In]. tauto.
Qed.
Lemma log_find_none g d : (log_find g d =? -1) = true <-> ~ In d (map fst g).
Proof.
  unfold log_find. destruct (log_find_spec g d 0 ltac:(lia)) as [[E N]|(a & e & b & E1 & E2 & E3 & N)].
  - rewrite E. split; [intros _; exact N|reflexivity].
  - rewrite E3. pose proof (zlen_nonneg _ a). split; [lia|]. intro X. exfalso. apply X. rewrite E1, map_app, in_app_iff. right. left. exact E2.
Qed.

(** ** The history of the calls of _update *)
Section Node.
Variable sha : bytes -> bytes.
Hypothesis Hs : sha_fn sha.
Variable me : str.
Variable session : Z.
Hypothesis He : encodable me.
Notation run := (run sha).
Notation upd := (upd sha me).
Notation publish := (publish sha me session).

Definition claimed (cs : list content) : list (str * Z * Z) := flat_map claims cs.
Definition log1 (a : list (str * Z * Z) * list (str * content)) (l : content) : list (str * Z * Z) * list (str * content) :=
  let us := fst a ++ claims l in let d := t_root (run us) in
  (us, if log_find (snd a) d =? -1 then snd a ++ [(d, l)] else snd a).
Definition logs (cs : list content) : list (str * content) := snd (fold_left log1 cs ([], [(s00, [])])).
Lemma logs_fst cs : forall a, fst (fold_left log1 cs a) = fst a ++ claimed cs.
Proof. induction cs as [|l cs IH]; intro a; cbn [fold_left claimed flat_map]; [now rewrite app_nil_r|]. rewrite IH. unfold log1. cbn [fst]. now rewrite <- app_assoc. Qed.
Lemma logs_snoc cs l : logs (cs ++ [l]) = let d := t_root (run (claimed cs ++ claims l)) in if log_find (logs cs) d =? -1 then logs cs ++ [(d, l)] else logs cs.
Proof. unfold logs. rewrite fold_left_app. cbn [fold_left]. unfold log1 at 1. cbn [snd]. rewrite logs_fst. reflexivity. Qed.
Lemma claimed_snoc cs l : claimed (cs ++ [l]) = claimed cs ++ claims l.
Proof. unfold claimed. rewrite flat_map_app. cbn [flat_map]. now rewrite app_nil_r. Qed.
Lemma claimed_app cs cs' : claimed (cs ++ cs') = claimed cs ++ claimed cs'.
Proof. unfold claimed. apply flat_map_app. Qed.
Lemma claims_ok l : Forall state_ok l -> Forall claim_ok (claims l).
Proof.
  intro F. apply Forall_forall. intros u Hu. unfold claims in Hu. apply in_map_iff in Hu. destruct Hu as (x & <- & Hx). apply filter_In in Hx. rewrite Forall_forall in F. destruct (F x (proj1 Hx)) as (A & B & _). split; [exact A|cbn; lia].
Qed.
Lemma claimed_ok cs : Forall (Forall state_ok) cs -> Forall claim_ok (claimed cs).
Proof. induction 1 as [|l cs H F IH]; [constructor|]. cbn [claimed flat_map]. apply Forall_app. split; [now apply claims_ok|exact IH]. Qed.

Record G (cs : list content) (c : chrono) : Prop := mkG {
  g_ok : Forall (Forall state_ok) cs;
  g_tree : c_tree c = run (claimed cs);
  g_log : c_log c = logs cs }.
Lemma G_start : G [] start.
Proof. constructor; [constructor|reflexivity|reflexivity]. Qed.

Fixpoint seq_after (us : list (str * Z * Z)) (l : content) (q : Z) : Z :=
  match l with
  | [] => q
  | x :: r => if is_update x then seq_after (us ++ [triple x]) r (if (top us (ss_name x) (ss_session x) <? ss_seq x) && zlist_eqb me (ss_name x) then ss_seq x else q)
              else seq_after us r q
  end.
Lemma claims_cons x l : claims (x :: l) = if is_update x then triple x :: claims l else claims l.
Proof. unfold claims, is_update. cbn [filter]. change UPDATE with 0. destruct (ss_type x =? 0); reflexivity. Qed.
Lemma update_all_spec l : forall us g q e o sc sg, Forall claim_ok us -> Forall state_ok l ->
  update_all sha me l (Chrono g (run us) q e o sc sg) = (Chrono g (run (us ++ claims l)) (seq_after us l q) e o sc sg, Ok tt).
Proof.
  induction l as [|x l IH]; intros us g q e o sc sg F Fl; cbn [update_all seq_after].
  - unfold claims. cbn. now rewrite app_nil_r.
  - inversion Fl as [|? ? Hx Fl']; subst. rewrite claims_cons. destruct (is_update x) eqn:U.
    + unfold bind at 1. unfold bind at 1. unfold tree_update. cbn [c_tree c_log c_seq c_enabled c_outs c_script c_signs].
      assert (C : claim_ok (triple x)) by (destruct Hx as (A & B & _); split; [exact A|cbn; lia]).
      rewrite (update_run sha Hs us _ _ _ F C). cbn [fst snd].
      replace (us ++ triple x :: claims l) with ((us ++ [triple x]) ++ claims l) by now rewrite <- app_assoc.
      destruct ((top us (ss_name x) (ss_session x) <? ss_seq x) && zlist_eqb me (ss_name x)) eqn:B.
      * unfold set_seq. cbn [c_tree c_log c_seq c_enabled c_outs c_script c_signs]. apply IH; [apply Forall_app; split; [exact F|constructor; [exact C|constructor]]|exact Fl'].
      * unfold ret at 1. apply IH; [apply Forall_app; split; [exact F|constructor; [exact C|constructor]]|exact Fl'].
    + unfold bind at 1. unfold ret at 1. apply IH; assumption.
Qed.
Lemma upd_spec cs l c : G cs c -> Forall state_ok l ->
  let b := log_find (logs cs) (t_root (run (claimed (cs ++ [l])))) =? -1 in
  upd l c = (Chrono (logs (cs ++ [l])) (run (claimed (cs ++ [l]))) (seq_after (claimed cs) l (c_seq c)) (c_enabled c) (c_outs c) (c_script c) (c_signs c), Ok b) /\ G (cs ++ [l]) (fst (upd l c)).
Proof.
  intros [A B D] F. cbv zeta. assert (E : upd l c = (Chrono (logs (cs ++ [l])) (run (claimed (cs ++ [l]))) (seq_after (claimed cs) l (c_seq c)) (c_enabled c) (c_outs c) (c_script c) (c_signs c), Ok (log_find (logs cs) (t_root (run (claimed (cs ++ [l])))) =? -1))).
  { unfold ChronoModel.upd, bind at 1. destruct c as [g t q e o sc sg]. cbn [c_tree c_log] in B, D. subst t g. rewrite update_all_spec by (auto using claimed_ok). rewrite <- claimed_snoc. unfold bind, root, get. cbn [c_tree c_log c_seq c_enabled c_outs c_script c_signs].
    rewrite logs_snoc, <- claimed_snoc. cbv zeta. destruct (log_find (logs cs) (t_root (run (claimed (cs ++ [l])))) =? -1); reflexivity. }
  split; [exact E|]. rewrite E. cbn [fst]. constructor; [apply Forall_app; split; [exact A|constructor; [exact F|constructor]]|reflexivity|reflexivity].
Qed.

(** ** Hoare style *)
Definition pres (P : chrono -> Prop) {A} (m : cm A) : Prop := forall c, P c -> P (fst (m c)).
Lemma pres_bind (P : chrono -> Prop) {A B} (m : cm A) (f : A -> cm B) : pres P m -> (forall a, pres P (f a)) -> pres P (bind m f).
Proof. intros H K c Hc. unfold bind. specialize (H c Hc). destruct (m c) as [c' [a|x]]; cbn [fst] in *; [apply K, H|exact H]. Qed.
Lemma pres_lift (P : chrono -> Prop) {A B} (r : res A) (f : A -> cm B) : (forall a, r = Ok a -> pres P (f a)) -> pres P (bind (lift r) f).
Proof. intros K c Hc. unfold bind, lift. destruct r as [a|x]; [apply (K a eq_refl), Hc|exact Hc]. Qed.
Lemma pres_get (P : chrono -> Prop) {A B} (g : chrono -> A) (f : A -> cm B) : (forall a, pres P (f a)) -> pres P (bind (get g) f).
Proof. intros K c Hc. unfold bind, get. apply K, Hc. Qed.
Lemma pres_ret (P : chrono -> Prop) {A} (a : A) : pres P (ret a).
Proof. intros c H. exact H. Qed.
Lemma pres_raise (P : chrono -> Prop) {A} x : pres P (@raise A x).
Proof. intros c H. exact H. Qed.
Lemma pres_try (P : chrono -> Prop) m : pres P m -> pres P (try_log m).
Proof. intros K c H. apply (K c H). Qed.
Lemma pres_if (P : chrono -> Prop) {A} (b : bool) (m m' : cm A) : pres P m -> pres P m' -> pres P (if b then m else m').
Proof. now destruct b. Qed.
(** A property of the log and the tree *)
Definition core (P : chrono -> Prop) : Prop := forall c c', c_log c = c_log c' -> c_tree c = c_tree c' -> P c -> P c'.
Lemma core_emit P a : core P -> pres P (emit a).
Proof. intros K c. apply K; reflexivity. Qed.
Lemma core_set_seq P q : core P -> pres P (set_seq q).
Proof. intros K c. apply K; reflexivity. Qed.
Lemma core_disable P : core P -> pres P disable.
Proof. intros K c. apply K; reflexivity. Qed.
Lemma core_sign P : core P -> pres P sign.
Proof. intros K c. unfold sign. destruct (c_signs c); [auto|]. apply K; reflexivity. Qed.
Lemma core_next P : core P -> pres P next_calls.
Proof. intros K c. unfold next_calls. destruct (c_script c); [auto|]. apply K; reflexivity. Qed.

(** Messages of this object itself *)
Definition own_content (l : content) : Prop := exists q info, l = [SState me UPDATE session q info] /\ state_ok (SState me UPDATE session q info).
Lemma mk_state_own q info x : mk_state me q session info = Ok x -> own_content [x].
Proof.
  unfold mk_state. destruct (u64 q && u64 session) eqn:E; [|discriminate]. intro X. injection X as <-. exists q, info. split; [reflexivity|]. apply andb_prop in E. destruct E as [E1 E2]. unfold u64 in *. split; [exact He|]. cbn [ss_seq ss_session]. split; lia.
Qed.
Lemma own_ok l : own_content l -> Forall state_ok l.
Proof. intros (q & info & -> & K). constructor; [exact K|constructor]. Qed.
Definition grown (cs : list content) (c : chrono) : Prop := exists o, G (cs ++ o) c /\ Forall own_content o.
Lemma grown_core cs : core (grown cs).
Proof. intros c c' E1 E2 (o & [A B D] & F). exists o. split; [|exact F]. constructor; [exact A|congruence|congruence]. Qed.
Lemma grown_upd cs x : own_content [x] -> pres (grown cs) (upd [x]).
Proof.
  intros Ox c (o & HG & F). destruct (upd_spec _ [x] c HG (own_ok _ Ox)) as [_ H]. exists (o ++ [[x]]). rewrite app_assoc. split; [exact H|]. apply Forall_app. split; [exact F|constructor; [exact Ox|constructor]].
Qed.
Ltac go1 P := lazymatch goal with
  | |- pres _ (bind (get _) _) => apply pres_get; intro
  | |- pres _ (bind (lift _) _) => apply pres_lift; intros ? ?E
  | |- pres _ (bind _ _) => apply pres_bind; [|intro]
  | |- pres _ (if _ then _ else _) => apply pres_if
  | |- pres _ (try_log _) => apply pres_try
  | |- pres _ (ret _) => apply pres_ret
  | |- pres _ (raise _) => apply pres_raise
  | |- pres _ (emit _) => apply core_emit, P
  | |- pres _ (set_seq _) => apply core_set_seq, P
  | |- pres _ disable => apply core_disable, P
  | |- pres _ sign => apply core_sign, P
  | |- pres _ next_calls => apply core_next, P
  end.
Ltac go P := repeat go1 P.
Lemma grown_publish cs info : pres (grown cs) (publish info).
Proof. unfold ChronoModel.publish, broadcast, root. go (grown_core cs). apply grown_upd. eapply mk_state_own; eassumption. Qed.
Lemma grown_calls cs l : pres (grown cs) (do_calls sha me session l).
Proof. induction l as [|[info|] l IH]; cbn [do_calls]; [apply pres_ret| |]; (apply pres_bind; [|intro; exact IH]); [apply pres_try, grown_publish|unfold shutdown; go (grown_core cs)]. Qed.
Lemma grown_callback cs a : pres (grown cs) (callback sha me session a).
Proof. unfold callback. go (grown_core cs). apply grown_calls. Qed.
Lemma grown_old cs l : pres (grown cs) (old_comer sha me session l).
Proof. induction l as [|x l IH]; cbn [old_comer]; [apply pres_ret|]. go (grown_core cs); [apply grown_upd; eapply mk_state_own; eassumption|apply grown_callback|exact IH]. Qed.
Lemma grown_recovery cs n d : pres (grown cs) (recovery_interest n d).
Proof. unfold recovery_interest. go (grown_core cs). match goal with |- pres _ (match ?l with _ => _ end) => destruct l end; go (grown_core cs). Qed.
Lemma grown_sync cs i d : pres (grown cs) (sync_interest i d).
Proof. unfold sync_interest. go (grown_core cs). match goal with |- pres _ (match ?l with _ => _ end) => destruct l end; go (grown_core cs). Qed.
Lemma grown_interest cs n : pres (grown cs) (on_interest n).
Proof. unfold on_interest, root. go (grown_core cs); [apply grown_recovery|apply grown_sync]. Qed.
Lemma grown_judge cs d : pres (grown cs) (judge d).
Proof. unfold judge, root, send_recovery. go (grown_core cs). apply grown_sync. Qed.
Lemma grown_initial cs : pres (grown cs) (initial_timeout sha me session).
Proof. unfold initial_timeout, root. go (grown_core cs); [apply grown_upd; eapply mk_state_own; eassumption|apply grown_callback]. Qed.
Lemma grown_timeout cs n : pres (grown cs) (sync_timeout n).
Proof. unfold sync_timeout, root. go (grown_core cs). Qed.
(** After the Data *)
Definition and_then {A} (Q : chrono -> Prop) (P : chrono -> Prop) (m : cm A) : Prop := forall c, Q c -> P (fst (m c)).
Lemma initial_data_core l c cs : G cs c -> Forall state_ok l -> grown (cs ++ [l]) (fst (initial_data sha me session l c)).
Proof.
  intros HG F. unfold initial_data, bind at 1. destruct (upd_spec cs l c HG F) as [E H]. cbv zeta in E. rewrite E in *. cbn [fst] in H.
  match goal with |- grown _ (fst (?m ?x)) => set (c1 := x) in *; cut (pres (grown (cs ++ [l])) m) end.
  - intro K. apply K. exists []. rewrite app_nil_r. split; [exact H|constructor].
  - unfold root, broadcast. go (grown_core (cs ++ [l])); [apply grown_old|apply grown_upd; eapply mk_state_own; eassumption|apply grown_callback].
Qed.
Lemma fst_bind {A B} (m : cm A) (f : A -> cm B) c : fst (bind m f c) = match m c with (c', Ok a) => fst (f a c') | (c', Err _) => c' end.
Proof. unfold bind. destruct (m c) as [c' [a|x]]; reflexivity. Qed.
Lemma on_data_core n l c cs : G cs c -> c_enabled c = true -> Forall state_ok l -> grown (cs ++ [l]) (fst (on_data sha me session n (Some l) c)).
Proof.
  intros HG En F. unfold on_data. rewrite fst_bind. unfold get at 1. rewrite En. rewrite fst_bind. unfold root at 1, get at 1. rewrite fst_bind.
  assert (K : forall b, pres (grown (cs ++ [l])) (callback sha me session (Received (filter is_update l) b) ;;; d' <~ root;; emit (Express [d'] Sync))).
  { intro b. unfold root. go (grown_core (cs ++ [l])). apply grown_callback. }
  assert (I : grown (cs ++ [l]) (fst (upd l c))) by (exists []; rewrite app_nil_r; split; [apply (upd_spec cs l c HG F)|constructor]).
  destruct (zlist_eqb (t_root (c_tree c)) s00); unfold bind at 1.
  - pose proof (initial_data_core l c cs HG F) as H. destruct (initial_data sha me session l c) as [c' [a|x]]; cbn [fst] in H; [unfold ret; apply K, H|exact H].
  - destruct (upd l c) as [c' [a|x]]; cbn [fst] in I; [unfold ret; apply K, I|exact I].
Qed.
Lemma on_data_off n l c : c_enabled c = false -> on_data sha me session n l c = (c, Ok tt).
Proof. intro E. unfold on_data, bind, get. rewrite E. reflexivity. Qed.
(** One event *)
Definition learns (c : chrono) (i : input) : list content := match i_event i with EData _ _ (Some l) => if c_enabled c then [l] else [] | _ => [] end.
Lemma step_core c cs i : G cs c -> input_ok i -> exists o, G (cs ++ learns c i ++ o) (fst (step sha me session c i)) /\ Forall own_content o.
Proof.
  intros HG Hi. assert (HB : G cs (begin i c)) by (destruct HG; constructor; assumption).
  assert (B0 : grown cs (begin i c)) by (exists []; rewrite app_nil_r; split; [exact HB|constructor]).
  unfold step, learns, input_ok in *. destruct (i_event i) as [info| |n|n k [l|]|n [|]|d]; cbn [act_of].
  - apply (grown_publish cs info _ B0).
  - assert (X : pres (grown cs) shutdown) by (unfold shutdown; go (grown_core cs)). apply (X _ B0).
  - apply (grown_interest cs n _ B0).
  - destruct (c_enabled c) eqn:En.
    + destruct (on_data_core n l (begin i c) cs HB En Hi) as (o & H & F). exists o. rewrite app_assoc. split; assumption.
    + rewrite on_data_off by exact En. apply B0.
  - assert (X : pres (grown cs) (on_data sha me session n None)) by (unfold on_data; go (grown_core cs)). apply (X _ B0).
  - apply (grown_initial cs _ B0).
  - apply (grown_timeout cs n _ B0).
  - apply (grown_judge cs d _ B0).
Qed.
End Node.
