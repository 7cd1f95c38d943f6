(** * ConfigPolicyManager: only authentic packets are verified *)
From Verif Require Import Base BaseLemmas NameModel NameSpec NameProofs NameProps UriModel BlobModel DictModel DictProofs WireModel CtlModel MatchModel CmdModel CmdSpec HierModel HierSpec
  RegexModel InfoModel InfoSpec InfoProps ConfModel ConfSpec ConfProofs CertModel CertSpec CertProofs CertProps CpmModel CpmSpec.
Local Open Scope res_scope.

(** ** Small facts *)
Lemma getitem_select : forall t k, path k = [k] -> t_getitem t k = select [k] t.
Proof. intros t k E. rewrite C62_lookup, E. reflexivity. Qed.
Lemma first_value : forall t k, path k = [k] -> getFirstValue t k = value k t.
Proof. intros t k E. rewrite C62_first, E. reflexivity. Qed.
Lemma firstValue_ok : forall t k x, path k = [k] -> firstValue t k = Ok x -> value k t = x.
Proof. intros t k x E H. unfold firstValue in H. rewrite (getitem_select t k E) in H. unfold value. destruct (select [k] t); [discriminate H|]. injection H as <-. reflexivity. Qed.
Lemma firstTree_ok : forall t k x, path k = [k] -> firstTree t k = Ok x -> first k t = Some x.
Proof. intros t k x E H. unfold firstTree in H. rewrite (getitem_select t k E) in H. unfold first. destruct (select [k] t); [discriminate H|]. injection H as <-. reflexivity. Qed.
Lemma word_eq : forall x w, is_word x w = true -> x = Some w.
Proof. intros [t|] w H; [|discriminate H]. apply zlist_eqb_eq in H. congruence. Qed.
Lemma word_refl : forall w, is_word (Some w) w = true.
Proof. intros w. apply zlist_eqb_eq. reflexivity. Qed.
Lemma rel_check : forall n q word, matchesRelation n q word = true <-> holds word q n.
Proof.
  intros n q word. unfold matchesRelation, holds. split.
  - destruct (is_word word w_strict) eqn:E1; [apply word_eq in E1; subst word|destruct (is_word word w_prefix) eqn:E2; [apply word_eq in E2; subst word|destruct (is_word word w_equal) eqn:E3; [apply word_eq in E3; subst word|intros X; discriminate X]]].
    + destruct (zlen q =? zlen n) eqn:L; [intros X; discriminate X|]. intros M. exists RStrict. split; [reflexivity|]. apply related_iff. cbn [checkNameRelation]. rewrite andb_true_iff. split; [exact M|]. unfold n_match in M. destruct (zlen n <? zlen q) eqn:L2; [discriminate M|]. lia.
    + intros M. exists RPrefix. split; [reflexivity|]. apply related_iff. exact M.
    + intros M. exists REqual. split; [reflexivity|]. apply related_iff. exact M.
  - intros (r & -> & R). apply related_iff in R. destruct r; cbn [relation_word].
    + change (is_word (Some w_equal) w_strict) with false. change (is_word (Some w_equal) w_prefix) with false. rewrite word_refl. exact R.
    + change (is_word (Some w_prefix) w_strict) with false. rewrite word_refl. exact R.
    + rewrite word_refl. cbn [checkNameRelation] in R. apply andb_true_iff in R. destruct R as [R L]. replace (zlen q =? zlen n) with false by lia. exact R.
Qed.
Lemma uri_ok : forall x n, name_value x = Ok n <-> uri_name x n.
Proof. intros [u|] n; cbn [name_value uri_name]; [reflexivity|]. split; [intros H; injection H as <-; reflexivity|intros ->; reflexivity]. Qed.
Lemma zeqb_self : forall l : str, zlist_eqb l l = true.
Proof. intros l. apply zlist_eqb_eq. reflexivity. Qed.
Lemma dget_in_str : forall (V : Type) (d : dict str V) k x, dget zlist_eqb d k = Some x -> In (k, x) d.
Proof. induction d as [|[k' x'] d IH]; intros k x H; [discriminate H|]. cbn [dget] in H. destruct (zlist_eqb k' k) eqn:E; [apply zlist_eqb_eq in E; injection H as <-; subst k'; left; reflexivity|right; apply IH; exact H]. Qed.
Lemma dset_in_str : forall (V : Type) (d : dict str V) k x y, In y (dset zlist_eqb d k x) -> y = (k, x) \/ In y d.
Proof.
  induction d as [|[k' x'] d IH]; intros k x y H; [destruct H as [<-|[]]; left; reflexivity|]. cbn [dset] in H. destruct (zlist_eqb k' k) eqn:E.
  - apply zlist_eqb_eq in E. subst k'. destruct H as [<-|H]; [left; reflexivity|right; right; exact H].
  - destruct H as [<-|H]; [right; left; reflexivity|]. destruct (IH _ _ _ H) as [->|X]; [left; reflexivity|right; right; exact X].
Qed.
Lemma slice_removelast : forall n, n_slice n None (Some (-1)) = Ok (removelast n).
Proof.
  intros n. unfold n_slice. cbv zeta. change (0 <=? -1) with false. cbv iota. pose proof (zlen_nonneg _ n). rewrite (C10_getSubName n 0) by lia. cbv zeta. change (0 <? 0) with false. cbv iota. cbn [Z.to_nat skipn].
  rewrite removelast_firstn_len. f_equal. f_equal. unfold zlen. lia.
Qed.
Lemma subject_ok : forall p, match p with PData d => Ok (d_name d) | PInterest n => n_getPrefix n (-4) end = Ok (subject p).
Proof. intros [d|n]; [reflexivity|]. rewrite n_getPrefix_ok. change (-4 <? 0) with true. cbv iota. unfold subject, zlen. f_equal. f_equal. lia. Qed.
Lemma getitem_end : forall (n : name) k c, 0 < k -> py_getitem n (- k) = Ok c -> exists q r, n = q ++ c :: r /\ zlen r = k - 1.
Proof.
  intros n k c Hk H. unfold py_getitem in H. replace (- k <? 0) with true in H by lia. cbv iota in H. destruct (_ && _) eqn:B; [|discriminate H]. destruct (nth_error n (Z.to_nat (- k + zlen n))) as [x|] eqn:E; [|discriminate H]. injection H as <-.
  apply nth_error_split in E. destruct E as (q & r & -> & L). exists q, r. split; [reflexivity|]. apply andb_true_iff in B. rewrite zlen_app, zlen_cons in *. unfold zlen in *. lia.
Qed.
Lemma zlen_zero : forall (A : Type) (l : list A), zlen l = 0 -> l = [].
Proof. intros A [|x l] H; [reflexivity|]. rewrite zlen_cons in H. pose proof (zlen_nonneg _ l). lia. Qed.
Lemma last_two : forall (n : name) ci cv, py_getitem n (-2) = Ok ci -> py_getitem n (-1) = Ok cv -> exists q, n = q ++ [ci; cv].
Proof.
  intros n ci cv H1 H2. destruct (getitem_end n 2 ci) as (q & r & -> & L); [lia|exact H1|]. destruct (getitem_end (q ++ ci :: r) 1 cv) as (q' & r' & E & L'); [lia|exact H2|]. apply zlen_zero in L'. subst r'.
  destruct r as [|x [|y r]]; [discriminate L| |rewrite !zlen_cons in L; pose proof (zlen_nonneg _ r); lia]. exists q. f_equal. change (q ++ [ci; x]) with (q ++ [ci] ++ [x]) in E. rewrite app_assoc in E. apply app_inj_tail in E. destruct E as [_ ->]. reflexivity.
Qed.
Lemma signature_ok : forall p s, extractSignature p = Ok (Some s) -> signed_with p s.
Proof.
  intros [d|n] s H; cbn [extractSignature signed_with] in *; [injection H as <-; reflexivity|].
  destruct (py_getitem n (-2)) as [ci|e] eqn:E1; cbn [rbind] in H; [|destruct e; discriminate H]. destruct (py_getitem n (-1)) as [cv|e] eqn:E2; cbn [rbind] in H; [|destruct e; discriminate H].
  destruct (decodeSignatureInfoAndValue (c_value ci) (c_value cv)) as [s'|e] eqn:E3; [|destruct e; discriminate H]. injection H as <-. destruct (last_two n ci cv E1 E2) as [q ->]. exists q, ci, cv. auto.
Qed.

Section Sound.
Variable P : params.
Notation inv := (inv d_name).

(** ** Rules *)
Lemma re_match_ok : forall e n x, re_match P e n = Ok x -> snd x = true -> runs P e n (fst x).
Proof. intros e n x H B. unfold re_match in H. destruct (top_new (p_groups P) e) as [x0|] eqn:E; [|discriminate H]. injection H as <-. exists x0. split; [exact E|]. destruct (top_match (p_search P) x0 n). cbn in *. congruence. Qed.
Lemma re_match_no : forall e n x, re_match P e n = Ok x -> snd x = false -> ~ accepts P e n.
Proof. intros e n x H B (y & x0 & E0 & E1). unfold re_match in H. rewrite E0 in H. cbn [rbind] in H. injection H as <-. rewrite E1 in B. discriminate B. Qed.
Lemma filter_ok : forall f n b, filterPasses P f n = Ok b -> (b = true <-> filter_holds P n f).
Proof.
  intros f n b H. unfold filterPasses, filter_holds in *. rewrite !first_value in H by reflexivity. destruct (value w_regex f) as [e|].
  - destruct (re_match P e n) as [x|] eqn:E; [|discriminate H]. injection H as <-. destruct (snd x) eqn:B.
    + split; [intros _; exists (fst x); apply (re_match_ok _ _ _ E B)|reflexivity].
    + split; [intros X; discriminate X|intros X; elim (re_match_no _ _ _ E B X)].
  - destruct (name_value (value w_name f)) as [q|] eqn:E; [|discriminate H]. injection H as <-. rewrite rel_check. split; [intros X; exists q; split; [apply uri_ok; exact E|exact X]|].
    intros (q' & U & X). apply uri_ok in U. rewrite E in U. injection U as <-. exact X.
Qed.
Lemma filters_ok : forall l n b, filtersPass P l n = Ok b -> (b = true <-> Forall (filter_holds P n) l).
Proof.
  induction l as [|f l IH]; intros n b H; cbn [filtersPass] in H; [injection H as <-; split; [constructor|reflexivity]|]. destruct (filterPasses P f n) as [b'|] eqn:E; [|discriminate H]. cbn [rbind] in H. pose proof (filter_ok f n b' E) as F. rewrite Forall_cons_iff, <- F. destruct b'.
  - rewrite (IH n b H). tauto.
  - injection H as <-. intuition congruence.
Qed.
Lemma rule_ok : forall l p r, findRule P l (subject p) (kind p) = Ok (Some r) -> exists l1 l2, l = l1 ++ r :: l2 /\ Forall (fun r' => ~ applies P p r') l1 /\ applies P p r.
Proof.
  induction l as [|a l IH]; intros p r H; cbn [findRule] in H; [discriminate H|]. destruct (firstValue a w_for) as [x|] eqn:Ef; [|discriminate H]. cbn [rbind] in H. apply firstValue_ok in Ef; [|reflexivity].
  assert (Next : ~ applies P p a -> findRule P l (subject p) (kind p) = Ok (Some r) -> exists l1 l2, a :: l = l1 ++ r :: l2 /\ Forall (fun r' => ~ applies P p r') l1 /\ applies P p r).
  { intros N H'. destruct (IH p r H') as (l1 & l2 & -> & F & A). exists (a :: l1), l2. split; [reflexivity|]. split; [constructor; assumption|exact A]. }
  destruct (is_word x (kind p)) eqn:Ew.
  - apply word_eq in Ew. subst x. destruct (filtersPass P (t_getitem a w_filter) (subject p)) as [b|] eqn:Eb; [|discriminate H]. cbn [rbind] in H. rewrite getitem_select in Eb by reflexivity. pose proof (filters_ok _ _ _ Eb) as F. destruct b.
    + injection H as <-. exists [], l. split; [reflexivity|]. split; [constructor|]. split; [exact Ew|apply F; reflexivity].
    + apply Next; [|exact H]. intros [_ X]. apply F in X. discriminate X.
  - apply Next; [|exact H]. intros [X _]. rewrite Ef in X. rewrite X, word_refl in Ew. discriminate Ew.
Qed.

(** ** The state *)
Variable cfg : tree.
Variable envs : list env.
Variable v : env.
Hypothesis Hv : In v envs.
Hypothesis Good64 : forall t d, p_from64 P t = Ok d -> nval (d_name d).
Hypothesis GoodFile : forall f d, e_file v f = Ok d -> nval (d_name d).
Notation okc := (fun c : data => trusts_any cfg \/ trusted P cfg envs c).
Definition timely (c : data) (r : Z) : Prop := exists t, p_notAfter P c = Ok t /\ r <= t.
Definition cache_ok (s : cache data) : Prop := inv s /\ forall k c r, In (k, (c, r)) (cc_dict s) -> okc c /\ timely c r.
Definition rcache_ok (s : cache data) : Prop := inv s /\ forall k c r, In (k, (c, r)) (cc_dict s) -> installed P cfg envs c /\ timely c r.
Definition fixed_ok (d : dict str str) : Prop := forall id uri, In (id, uri) d -> exists v b f, In v envs /\ read_from P v b id f /\ uri = n_toUri (removelast (d_name f)) false.
Definition dirs_ok (d : dict str dirinfo) : Prop := forall dir info, In (dir, info) d -> exists a, In a (anchors_of cfg) /\ value w_type a = Some w_dir /\ value w_dir a = Some dir.
Record Inv (m : mgr) : Prop := MkInv {
  I_cache : cache_ok (m_cache m); I_rcache : rcache_ok (m_rcache m); I_fixed : fixed_ok (m_fixed m); I_dirs : dirs_ok (m_dirs m);
  I_config : m_config m = cfg; I_requires : m_requires m = false -> trusts_any cfg }.

Section Tri.
Variable G : act -> Prop.
Definition tri {A : Type} (x : pm A) (Q : A -> Prop) : Prop := forall m, Inv m ->
  Inv (fst (x m)) /\ (exists new, m_outs (fst (x m)) = m_outs m ++ new /\ Forall G new) /\ (forall a, snd (x m) = Ok a -> Q a).
Lemma quiet : forall m : mgr, exists new, m_outs m = m_outs m ++ new /\ Forall G new.
Proof. intros m. exists []. rewrite app_nil_r. auto. Qed.
Lemma tri_ret : forall (A : Type) (a : A) (Q : A -> Prop), Q a -> tri (pret a) Q.
Proof. intros A a Q H m I. split; [exact I|]. split; [apply quiet|]. intros b E. injection E as <-. exact H. Qed.
Lemma tri_lift : forall (A : Type) (r : res A) (Q : A -> Prop), (forall a, r = Ok a -> Q a) -> tri (plift r) Q.
Proof. intros A r Q H m I. split; [exact I|]. split; [apply quiet|exact H]. Qed.
Lemma tri_bind : forall (A B : Type) (x : pm A) (k : A -> pm B) (Q : A -> Prop) (R : B -> Prop), tri x Q -> (forall a, Q a -> tri (k a) R) -> tri (pbind x k) R.
Proof.
  intros A B x k Q R Hx Hk m I. unfold pbind. destruct (Hx m I) as (I1 & (n1 & E1 & F1) & V1). destruct (x m) as [m1 [a|e]]; cbn [fst snd] in *.
  - destruct (Hk a (V1 a eq_refl) m1 I1) as (I2 & (n2 & E2 & F2) & V2). split; [exact I2|]. split; [|exact V2]. exists (n1 ++ n2). split; [rewrite E2, E1, app_assoc; reflexivity|apply Forall_app; auto].
  - split; [exact I1|]. split; [exists n1; auto|]. intros a E. discriminate E.
Qed.
Lemma tri_get : forall (A : Type) (f : mgr -> A) (Q : A -> Prop), (forall m, Inv m -> Q (f m)) -> tri (pget f) Q.
Proof. intros A f Q H m I. split; [exact I|]. split; [apply quiet|]. intros a E. injection E as <-. apply H. exact I. Qed.
Lemma tri_emit : forall a, G a -> tri (emit a) (fun _ => True).
Proof. intros a H m I. split; [destruct I; constructor; assumption|]. split; [exists [a]; auto|auto]. Qed.
Lemma tri_weaken : forall (A : Type) (x : pm A) (Q R : A -> Prop), tri x Q -> (forall a, Q a -> R a) -> tri x R.
Proof. intros A x Q R H W m I. destruct (H m I) as (A1 & A2 & A3). split; [exact A1|]. split; [exact A2|]. intros a E. apply W, A3, E. Qed.
Lemma tri_err : forall (A : Type) (e : exn) (Q : A -> Prop), tri (plift (Err e)) Q.
Proof. intros A e Q. apply tri_lift. intros a E. discriminate E. Qed.
Lemma tri_logged : forall call x Q, G (ALogged call) -> tri x Q -> tri (logged call x) (fun _ => True).
Proof.
  intros call x Q Hg H m I. unfold logged. destruct (H m I) as (I1 & (n1 & E1 & F1) & _). destruct (x m) as [m1 [a|e]]; cbn [fst snd] in *.
  - split; [exact I1|]. split; [exists n1; auto|auto].
  - destruct (tri_emit (ALogged call) Hg m1 I1) as (I2 & (n2 & E2 & F2) & _). split; [exact I2|]. split; [|auto]. exists (n1 ++ n2). split; [rewrite E2, E1, app_assoc; reflexivity|apply Forall_app; auto].
Qed.
Ltac put := intros; intros m []; split; [constructor; assumption|split; [exact (quiet m)|auto]].
Lemma tri_put_cache : forall c, cache_ok c -> tri (put_cache c) (fun _ => True). Proof. put. Qed.
Lemma tri_put_rcache : forall c, rcache_ok c -> tri (put_rcache c) (fun _ => True). Proof. put. Qed.
Lemma tri_put_fixed : forall c, fixed_ok c -> tri (put_fixed c) (fun _ => True). Proof. put. Qed.
Lemma tri_put_dirs : forall c, dirs_ok c -> tri (put_dirs c) (fun _ => True). Proof. put. Qed.
Lemma tri_put_ts : forall c, tri (put_ts c) (fun _ => True). Proof. put. Qed.
Lemma tri_put_requires : trusts_any cfg -> tri (put_requires false) (fun _ => True).
Proof. intros T; intros m []; split; [constructor; try assumption; intros _; exact T|split; [exact (quiet m)|auto]]. Qed.

(** ** Caches *)
Definition found (n : name) (o : option data) : Prop := forall d, o = Some d -> under_values n (d_name d) /\ unexpired P v d /\ nval (d_name d).
Lemma find_ok : forall s n, inv s -> (forall k c r, In (k, (c, r)) (cc_dict s) -> timely c r) ->
  exists s' o, cc_find_name s (e_now v) n = Ok (s', o) /\ inv s' /\ (forall k c r, In (k, (c, r)) (cc_dict s') -> In (k, (c, r)) (cc_dict s)) /\
  found n o /\ forall d, o = Some d -> exists k r, In (k, (d, r)) (cc_dict s).
Proof.
  intros s n H T. destruct (refresh_inv d_name (p_notAfter P) cert_checkFormat s (e_now v) H) as (s' & E & A & _ & D). unfold entries in D. unfold cc_find_name. rewrite E. cbn [rbind].
  assert (Sub : forall k c r, In (k, (c, r)) (cc_dict s') -> In (k, (c, r)) (cc_dict s)) by (intros k c r X; apply D in X; apply X).
  assert (None_ok : exists s'0 o, Ok (s', None) = Ok (s'0, o) /\ inv s'0 /\ (forall k c r, In (k, (c, r)) (cc_dict s'0) -> In (k, (c, r)) (cc_dict s)) /\ found n o /\ (forall d, o = Some d -> exists k r, In (k, (d, r)) (cc_dict s))).
  { exists s', None. split; [reflexivity|]. split; [exact A|]. split; [exact Sub|]. split; intros d X; discriminate X. }
  destruct (nth_error (cc_keys s') (bisect_left (cc_keys s') n)) as [k|] eqn:Ek; [|exact None_ok]. destruct (n_isPrefixOf n k) eqn:Ep; cbn [negb]; [|exact None_ok].
  apply nth_error_In in Ek. apply (inv_keys _ _ A) in Ek. apply in_keys in Ek. destruct Ek as [[c r] Ie]. unfold dindex. rewrite (in_dget n_equals nval Heqn _ _ _ (inv_dom _ _ A) (inv_uniq _ _ A) Ie). cbn [rbind fst].
  exists s', (Some c). split; [reflexivity|]. split; [exact A|]. split; [exact Sub|]. pose proof Ie as Ie'. apply D in Ie'. destruct Ie' as [I1 L]. split.
  - intros d X. injection X as <-. split; [rewrite (inv_name _ _ A _ _ _ Ie); apply isPrefixOf_iff; exact Ep|]. destruct (T _ _ _ I1) as (t & Et & Lt). split; [exists t; split; [exact Et|lia]|]. rewrite (inv_name _ _ A _ _ _ Ie). pose proof (inv_dom _ _ A) as Dm. unfold dom in Dm. rewrite Forall_forall in Dm. exact (Dm _ Ie).
  - intros d X. injection X as <-. eauto.
Qed.
Lemma tri_cfind : forall n, tri (cfind v n) (fun o => found n o /\ forall d, o = Some d -> okc d).
Proof.
  intros n m I. pose proof (I_cache m I) as [H T]. unfold cfind. destruct (find_ok (m_cache m) n H (fun k c r X => proj2 (T k c r X))) as (s' & o & E & H' & Sub & F & O). rewrite E.
  assert (C : cache_ok s') by (split; [exact H'|]; intros k c r X; apply (T k c r); apply Sub; exact X). cbn [pbind put_cache pret fst snd]. split; [destruct I; constructor; assumption|]. split; [exact (quiet m)|].
  intros a Ea. injection Ea as <-. split; [exact F|]. intros d X. destruct (O d X) as (k & r & Ik). apply (T _ _ _ Ik).
Qed.
Lemma tri_rfind : forall n, tri (rfind v n) (fun o => found n o /\ forall d, o = Some d -> installed P cfg envs d).
Proof.
  intros n m I. pose proof (I_rcache m I) as [H T]. unfold rfind. destruct (find_ok (m_rcache m) n H (fun k c r X => proj2 (T k c r X))) as (s' & o & E & H' & Sub & F & O). rewrite E.
  assert (C : rcache_ok s') by (split; [exact H'|]; intros k c r X; apply (T k c r); apply Sub; exact X). cbn [pbind put_rcache pret fst snd]. split; [destruct I; constructor; assumption|]. split; [exact (quiet m)|].
  intros a Ea. injection Ea as <-. split; [exact F|]. intros d X. destruct (O d X) as (k & r & Ik). apply (T _ _ _ Ik).
Qed.
Lemma insert_entries : forall s d, inv s -> nval (d_name d) -> let s' := fst (cc_insert d_name (p_notAfter P) cert_checkFormat s (e_now v) d) in
  inv s' /\ forall k c r, In (k, (c, r)) (cc_dict s') -> (c = d /\ timely d r) \/ In (k, (c, r)) (cc_dict s).
Proof.
  intros s d H V s'. destruct (insert_inv d_name (p_notAfter P) cert_checkFormat s (e_now v) d H V) as (A & _ & D). fold s' in A, D. split; [exact A|]. intros k c r X. apply D in X. destruct X as [(_ & -> & _ & (na & E & ->))|[_ X]]; [|right; exact X].
  left. split; [reflexivity|]. exists na. split; [exact E|]. lia.
Qed.
Lemma tri_cinsert : forall d, nval (d_name d) -> okc d -> tri (cinsert P v d) (fun _ => True).
Proof.
  intros d V O m I. pose proof (I_cache m I) as [H T]. unfold cinsert. pose proof (insert_entries (m_cache m) d H V) as Ie. cbv zeta in Ie. destruct (cc_insert d_name (p_notAfter P) cert_checkFormat (m_cache m) (e_now v) d) as [s' r]. cbn [fst] in Ie. destruct Ie as [H' Ie].
  assert (C : cache_ok s') by (split; [exact H'|]; intros k c r0 X; destruct (Ie k c r0 X) as [[-> Td]|X']; [auto|exact (T k c r0 X')]). cbn [pbind put_cache plift fst snd]. split; [destruct I; constructor; assumption|]. split; [exact (quiet m)|auto].
Qed.
Lemma tri_rinsert : forall d, nval (d_name d) -> installed P cfg envs d -> tri (rinsert P v d) (fun _ => True).
Proof.
  intros d V O m I. pose proof (I_rcache m I) as [H T]. unfold rinsert. pose proof (insert_entries (m_rcache m) d H V) as Ie. cbv zeta in Ie. destruct (cc_insert d_name (p_notAfter P) cert_checkFormat (m_rcache m) (e_now v) d) as [s' r]. cbn [fst] in Ie. destruct Ie as [H' Ie].
  assert (C : rcache_ok s') by (split; [exact H'|]; intros k c r0 X; destruct (Ie k c r0 X) as [[-> Td]|X']; [auto|exact (T k c r0 X')]). cbn [pbind put_rcache plift fst snd]. split; [destruct I; constructor; assumption|]. split; [exact (quiet m)|auto].
Qed.

Lemma as_cert_ok : forall r d, as_cert r = Ok d -> r = Ok d /\ cert_checkFormat d = Ok tt.
Proof. intros [x|] d H; [|discriminate H]. unfold as_cert in H. cbn [rbind] in H. destruct (cert_checkFormat x) as [[]|] eqn:E; [|discriminate H]. injection H as <-. auto. Qed.
Lemma read_ok : forall (isPath : bool) id d, (if isPath then load_file v id else as_cert (p_from64 P id)) = Ok d -> read_from P v isPath id d /\ nval (d_name d).
Proof. intros isPath id d H. unfold load_file in H. destruct isPath; apply as_cert_ok in H; destruct H as [E F]; (split; [split; assumption|]); [apply (GoodFile id d E)|apply (Good64 id d E)]. Qed.
(** a lookup of a certificate that the configuration gives *)
Lemma tri_lookup : forall id isPath, (forall d, read_from P v isPath id d -> installed P cfg envs d) ->
  tri (lookupCertificate P v (Some id) isPath) (fun o => forall d, o = Some d -> exists v' b f, In v' envs /\ read_from P v' b id f /\ (d = f \/ exists q, n_set (n_toUri (removelast (d_name f)) false) = Ok q /\ under_values q (d_name d))).
Proof.
  intros id isPath Inst. cbn [lookupCertificate]. eapply tri_bind; [apply tri_get; intros m I; exact (I_fixed m I)|]. cbv beta. intros fixed Hf. destruct (dget zlist_eqb fixed id) as [uri|] eqn:Eg.
  - apply dget_in_str in Eg. destruct (Hf _ _ Eg) as (v' & b & f & Iv & Rf & ->). eapply tri_bind; [apply tri_lift; intros q Eq; exact Eq|]. cbv beta. intros q Eq. eapply tri_weaken; [apply tri_cfind|]. cbv beta. intros o (F & _) d X. exists v', b, f. split; [exact Iv|]. split; [exact Rf|]. right. exists q. split; [exact Eq|apply (F d X)].
  - eapply tri_bind; [apply tri_lift; intros d Ed; exact (read_ok isPath id d Ed)|]. cbv beta. intros d [Rd Vd]. eapply tri_bind; [apply tri_lift; intros q Eq; rewrite slice_removelast in Eq; injection Eq as Eq; exact Eq|]. cbv beta. intros q <-.
    eapply tri_bind; [apply tri_put_fixed; intros i u X; destruct (dset_in_str _ _ _ _ _ X) as [Y|Y]; [injection Y as -> ->; exists v, isPath, d; auto|exact (Hf _ _ Y)]|]. intros _ _.
    eapply tri_bind; [apply tri_cinsert; [exact Vd|right; apply T_installed, Inst, Rd]|]. intros _ _. apply tri_ret. intros d' X. injection X as <-. exists v, isPath, d. split; [exact Hv|]. split; [exact Rd|]. left. reflexivity.
Qed.

(** ** Directories *)
Lemma tri_addFiles : forall dir files a, In a (anchors_of cfg) -> value w_type a = Some w_dir -> value w_dir a = Some dir -> e_list v dir = Ok files ->
  forall fs names, incl fs files -> tri (addFiles P v fs names) (fun _ => True).
Proof.
  intros dir files a Ia Et Ed El. induction fs as [|f fs IH]; intros names In_; cbn [addFiles]; [apply tri_ret; auto|].
  assert (In' : incl fs files) by (intros x X; apply In_; right; exact X). destruct (load_file v f) as [d|] eqn:Ef; [|apply IH; exact In'].
  pose proof (read_ok true f d Ef) as [Rd Vd]. eapply tri_bind; [apply tri_lift; intros k _; exact Logic.I|]. intros k _. eapply tri_bind.
  - apply tri_rinsert; [exact Vd|]. exists v. split; [exact Hv|]. left. exists a. split; [exact Ia|]. right. exists dir, files, f. split; [exact Et|]. split; [exact Ed|]. split; [exact El|]. split; [apply In_; left; reflexivity|exact Rd].
  - intros _ _. apply IH. exact In'.
Qed.
Lemma tri_addDirectory : forall dir period a, In a (anchors_of cfg) -> value w_type a = Some w_dir -> value w_dir a = dir -> tri (addDirectory P v dir period) (fun _ => True).
Proof.
  intros [dir|] period a Ia Et Ed; cbn [addDirectory]; [|apply tri_err]. eapply tri_bind; [apply tri_lift; intros files El; exact El|]. cbv beta. intros files El.
  eapply tri_bind; [apply (tri_addFiles dir files a Ia Et Ed El); intros x X; exact X|]. intros names _. eapply tri_bind; [apply tri_get; intros m I; exact (I_dirs m I)|]. cbv beta. intros dirs Hd. apply tri_put_dirs.
  intros d info X. destruct (dset_in_str _ _ _ _ _ X) as [Y|Y]; [injection Y as -> _; eauto|exact (Hd _ _ Y)].
Qed.
Lemma tri_dropCerts : forall l, tri (dropCerts v l) (fun _ => True).
Proof.
  induction l as [|c l IH]; cbn [dropCerts]; [apply tri_ret; auto|]. destruct (n_set c) as [n|e]; [|destruct e; solve [exact IH|apply tri_err]].
  eapply tri_bind; [apply tri_rfind|]. cbv beta. intros [d|] [F _]; [|exact IH]. destruct (F d eq_refl) as (_ & _ & V).
  eapply tri_bind; [apply tri_get; intros m I; exact (I_rcache m I)|]. cbv beta. intros rc [H T]. eapply tri_bind; [|intros _ _; exact IH]. apply tri_put_rcache.
  destruct (delete_inv d_name (p_notAfter P) cert_checkFormat rc (d_name d) H V) as [H' D]. split; [exact H'|]. intros k c' r X. apply D in X. apply (T k c' r), X.
Qed.
Lemma tri_refreshDirs : forall l, dirs_ok l -> tri (refreshDirs P v l) (fun _ => True).
Proof.
  induction l as [|[dir info] l IH]; intros Hd; cbn [refreshDirs]; [apply tri_ret; auto|]. destruct (Hd dir info) as (a & Ia & Et & Ed); [left; reflexivity|].
  eapply tri_bind with (Q := fun _ => True); [|intros _ _; apply IH; intros x y X; apply (Hd x y); right; exact X]. destruct (di_next info <=? e_now v); [|apply tri_ret; auto].
  eapply tri_bind; [apply tri_dropCerts|]. intros _ _. apply (tri_addDirectory (Some dir) _ a Ia Et Ed).
Qed.
Lemma tri_refreshAnchors : tri (refreshAnchors P v) (fun _ => True).
Proof. unfold refreshAnchors. eapply tri_bind; [apply tri_get; intros m I; exact (I_dirs m I)|]. cbv beta. intros dirs H. apply tri_refreshDirs. exact H. Qed.

(** ** Loading *)
Definition given (x : option (option str * bool)) : Prop := match x with Some (Some id, isPath) => exists a, In a (anchors_of cfg) /\ cert_id a isPath id | _ => True end.
Lemma tri_lookup_anchor : forall certID isPath, given (Some (certID, isPath)) -> tri (lookupCertificate P v certID isPath) (fun _ => True).
Proof.
  intros [id|] isPath H; [|apply tri_err]. destruct H as (a & Ia & Ci). eapply tri_weaken; [apply tri_lookup|auto]. intros d Rd. exists v. split; [exact Hv|]. left. exists a. split; [exact Ia|]. left. exists isPath, id. auto.
Qed.
Lemma tri_loadAnchors : forall l last, incl l (anchors_of cfg) -> given last -> tri (loadAnchors P v l last) (fun _ => True).
Proof.
  induction l as [|a l IH]; intros last In_ Gl; cbn [loadAnchors]; [apply tri_ret; auto|]. assert (Ia : In a (anchors_of cfg)) by (apply In_; left; reflexivity). assert (In' : incl l (anchors_of cfg)) by (intros x X; apply In_; right; exact X).
  eapply tri_bind; [apply tri_lift; intros x Ex; apply firstValue_ok in Ex; [exact Ex|reflexivity]|]. cbv beta. intros ty Ety. destruct (is_word ty w_dir) eqn:E1; [|destruct (is_word ty w_any) eqn:E2].
  - apply word_eq in E1. subst ty. eapply tri_bind; [apply tri_lift; intros x Ex; apply firstValue_ok in Ex; [exact Ex|reflexivity]|]. cbv beta. intros dir Ed. eapply tri_bind; [apply tri_lift; intros r _; exact Logic.I|]. intros r _. eapply tri_bind; [apply tri_lift; intros pr _; exact Logic.I|]. intros pr _.
    eapply tri_bind; [apply (tri_addDirectory dir pr a Ia E1 Ed)|]. intros _ _. apply IH; assumption.
  - apply word_eq in E2. apply tri_put_requires. exists a. split; [exact Ia|]. congruence.
  - eapply tri_bind with (Q := given).
    + destruct (is_word ty w_file) eqn:E3; [|destruct (is_word ty w_base64) eqn:E4]; [| |apply tri_ret; exact Gl];
        (eapply tri_bind; [apply tri_lift; intros x Ex; apply firstValue_ok in Ex; [exact Ex|reflexivity]|]; cbv beta; intros x Ex; apply tri_ret; destruct x as [id|]; cbn [given]; [|exact Logic.I]; exists a; split; [exact Ia|]).
      * apply word_eq in E3. split; [congruence|exact Ex].
      * apply word_eq in E4. split; [congruence|exact Ex].
    + intros [[certID isPath]|] Gx; [|apply tri_err]. eapply tri_bind; [apply tri_lookup_anchor; exact Gx|]. intros _ _. apply IH; assumption.
Qed.

(** ** Checkers *)
Notation approves := (approves P envs).
Lemma yields_ok : forall e n x t out, re_match P e n = Ok x -> snd x = true -> expand (fst x) t = Ok out -> yields P e n t out.
Proof. intros e n x t out H B E. exists (fst x). split; [apply (re_match_ok _ _ _ H B)|exact E]. Qed.
Lemma prefix_ok : forall n q, matchesRelation n q (Some w_prefix) = true -> under_values q n.
Proof. intros n q H. change (n_match q n = true) in H. apply isPrefixOf_iff in H. exact H. Qed.
Ltac inv_bind H x E := match type of H with rbind ?r _ = _ => destruct r as [x|] eqn:E; [cbn [rbind] in H|discriminate H] end.
Lemma hier_ok : forall k n ck, value w_type ck = Some w_hierarchical -> checkHierarchical P k n = Ok true -> approves n k ck.
Proof.
  intros k n ck Et. unfold checkHierarchical. generalize (eq_refl (re_match P identityRegex k)), (eq_refl (re_match P identityRegex2 k)). generalize (re_match P identityRegex k) at 2 3. generalize (re_match P identityRegex2 k) at 2 3. intros r2 r1 E1 E2 H. inv_bind H x Ex. destruct (snd x) eqn:Bx.
  - inv_bind H a Ea. inv_bind H b Eb. injection H as H. apply (Ap_hier1 P envs n k ck a b Et); [exact (yields_ok _ _ _ _ _ E1 Bx Ea)|exact (yields_ok _ _ _ _ _ E1 Bx Eb)|apply prefix_ok; exact H].
  - inv_bind H y Ey. destruct (snd y) eqn:By; [|discriminate H]. inv_bind H a Ea. injection H as H. apply (Ap_hier2 P envs n k ck a Et); [exact (yields_ok _ _ _ _ _ E2 By Ea)|apply prefix_ok; exact H].
Qed.
Lemma custom_ok : forall k n ck, value w_type ck = Some w_customized -> checkCustomized P k n ck = Ok true -> approves n k ck.
Proof.
  intros k n ck Et H. unfold checkCustomized in H. inv_bind H l El. apply firstTree_ok in El; [|reflexivity]. rewrite !first_value in H by reflexivity. destruct (value w_relation l) as [rel|] eqn:Er.
  - inv_bind H u Eu. inv_bind H q Eq0. injection H as H. apply firstValue_ok in Eu; [|reflexivity]. apply uri_ok in Eq0. apply rel_check in H. rewrite <- Eu in Eq0. rewrite <- Er in H. exact (Ap_relation P envs n k ck l q Et El Eq0 H).
  - destruct (value w_regex l) as [e|] eqn:Ee.
    + inv_bind H x Ex. injection H as H. apply (Ap_regex P envs n k ck l e Et El Er Ee). exists (fst x). apply (re_match_ok _ _ _ Ex H).
    + rewrite getitem_select in H by reflexivity. unfold checkHyper in H. destruct (select [w_hyper_relation] l) as [|h t] eqn:Es; [discriminate H|]. rewrite !first_value in H by reflexivity.
      destruct (value w_k_regex h) as [kr|] eqn:E1; [|discriminate H]. destruct (value w_k_expand h) as [ke|] eqn:E2; [|discriminate H]. destruct (value w_p_regex h) as [pr|] eqn:E3; [|discriminate H]. destruct (value w_p_expand h) as [pe|] eqn:E4; [|discriminate H]. destruct (value w_h_relation h) as [rel|] eqn:E5; [|discriminate H].
      inv_bind H x Ex. destruct (snd x) eqn:Bx; cbn [negb] in H; [|discriminate H]. inv_bind H a Ea. inv_bind H y Ey. destruct (snd y) eqn:By; cbn [negb] in H; [|discriminate H]. inv_bind H b Eb. injection H as H. apply rel_check in H. rewrite <- E5 in H.
      apply (Ap_hyper P envs n k ck l h kr ke pr pe a b); try assumption; [unfold first; rewrite Es; reflexivity|eapply yields_ok; eassumption|eapply yields_ok; eassumption].
Qed.
Lemma tri_checkSignatureMatch : forall k n rule, In rule (rules_of cfg) -> tri (checkSignatureMatch P v k n rule) (fun b => b = true -> exists ck, first w_checker rule = Some ck /\ approves n k ck).
Proof.
  intros k n rule Ir. unfold checkSignatureMatch. eapply tri_bind; [apply tri_lift; intros x Ex; apply firstTree_ok in Ex; [exact Ex|reflexivity]|]. cbv beta. intros ck Eck. eapply tri_bind; [apply tri_lift; intros x Ex; apply firstValue_ok in Ex; [exact Ex|reflexivity]|]. cbv beta. intros ty Ety.
  destruct (is_word ty w_fixed_signer) eqn:E1; [apply word_eq in E1; subst ty|destruct (is_word ty w_hierarchical) eqn:E2; [apply word_eq in E2; subst ty|destruct (is_word ty w_customized) eqn:E3; [apply word_eq in E3; subst ty|]]].
  - unfold checkFixedSigner. eapply tri_bind; [apply tri_lift; intros x Ex; apply firstTree_ok in Ex; [exact Ex|reflexivity]|]. cbv beta. intros s Es. eapply tri_bind; [apply tri_lift; intros x Ex; apply firstValue_ok in Ex; [exact Ex|reflexivity]|]. cbv beta. intros ty Ety.
    eapply tri_bind with (Q := fun o => forall d, o = Some d -> exists isPath id v' b f, cert_id s isPath id /\ In v' envs /\ read_from P v' b id f /\ (d = f \/ exists q, n_set (n_toUri (removelast (d_name f)) false) = Ok q /\ under_values q (d_name d))).
    + assert (L : forall x (isPath : bool), (forall id, x = Some id -> cert_id s isPath id) -> tri (lookupCertificate P v x isPath) (fun o => forall d, o = Some d -> exists isPath id v' b f, cert_id s isPath id /\ In v' envs /\ read_from P v' b id f /\ (d = f \/ exists q, n_set (n_toUri (removelast (d_name f)) false) = Ok q /\ under_values q (d_name d)))).
      { intros [id|] isPath C; [|apply tri_err]. specialize (C id eq_refl). eapply tri_weaken; [apply tri_lookup|].
        - intros d Rd. exists v. split; [exact Hv|]. right. exists rule, ck, s, isPath, id. auto 10.
        - cbv beta. intros o H d X. destruct (H d X) as (v' & b & f & A & B & D). exists isPath, id, v', b, f. auto. }
      destruct (is_word ty w_file) eqn:F1; [|destruct (is_word ty w_base64) eqn:F2].
      * apply word_eq in F1. eapply tri_bind; [apply tri_lift; intros x Ex; apply firstValue_ok in Ex; [exact Ex|reflexivity]|]. cbv beta. intros x Ex. apply L. intros id ->. split; [congruence|exact Ex].
      * apply word_eq in F2. eapply tri_bind; [apply tri_lift; intros x Ex; apply firstValue_ok in Ex; [exact Ex|reflexivity]|]. cbv beta. intros x Ex. apply L. intros id ->. split; [congruence|exact Ex].
      * destruct ty; [apply tri_ret; intros d X; discriminate X|apply tri_err].
    + intros o H. apply tri_ret. destruct o as [d|]; [|intros X; discriminate X]. intros Eq. destruct (H d eq_refl) as (isPath & id & v' & b & f & Ci & Iv & Rf & Hd). exists ck. split; [exact Eck|].
      apply (Ap_fixed P envs n k ck s isPath id v' b f E1 Es Ci Iv Rf). apply equals_iff in Eq. destruct Hd as [->|(q & Eq' & U)]; [left; exact Eq|right]. exists q. split; [exact Eq'|].
      assert (Vk : map c_value k = map c_value (d_name d)). { clear - Eq. induction Eq as [|x y l l' [Hxy _] _ IH]; [reflexivity|]. cbn [map]. rewrite Hxy, IH. reflexivity. }
      unfold under_values in *. rewrite Vk. exact U.
  - apply tri_lift. intros b Hb ->. exists ck. split; [exact Eck|]. apply hier_ok; assumption.
  - apply tri_lift. intros b Hb ->. exists ck. split; [exact Eck|]. apply custom_ok; assumption.
  - destruct ty; [apply tri_ret; intros X; discriminate X|apply tri_err].
Qed.

(** ** Verification *)
Definition usable (k : name) (c : data) : Prop := okc c /\ under_values k (d_name c) /\ unexpired P v c.
Lemma tri_findCertificate : forall k, tri (findCertificate v k) (fun o => forall d, o = Some d -> usable k d).
Proof.
  intros k. unfold findCertificate. eapply tri_bind; [apply tri_rfind|]. cbv beta. intros [d|] [F O].
  - apply tri_ret. intros d' X. injection X as <-. destruct (F d eq_refl) as (U & E & _). split; [right; apply T_installed, O; reflexivity|auto].
  - eapply tri_weaken; [apply tri_cfind|]. cbv beta. intros o [F' O'] d X. destruct (F' d X) as (U & E & _). split; [apply O'; exact X|auto].
Qed.
Definition allowed_by (p : packet) (s : signature) : Prop := exists kl, kl_ofSignature s = Some kl /\ kl_name kl <> [] /\ rule_allows P cfg envs p (kl_name kl).
Lemma tri_getCertificateInterest : forall p step s, tri (getCertificateInterest P v step (kind p) (subject p) s) (fun o => o <> None -> allowed_by p s).
Proof.
  intros p step s. unfold getCertificateInterest. destruct (p_maxDepth P <? step); [apply tri_err|].
  eapply tri_bind with (Q := fun o => forall r, o = Some r -> exists l1 l2, rules_of cfg = l1 ++ r :: l2 /\ Forall (fun r' => ~ applies P p r') l1 /\ applies P p r).
  - intros m I. unfold findMatchingRule, pbind, pget, plift. destruct (findRule P (t_getitem (m_config m) w_validator_rule) (subject p) (kind p)) as [o|e] eqn:E; cbn [fst snd].
    + split; [exact I|]. split; [apply quiet|]. intros a X r Er. injection X as <-. subst o. rewrite (I_config m I) in E. rewrite C62_lookup in E. change (path w_validator_rule) with [w_validator; w_rule] in E. apply rule_ok. exact E.
    + split; [exact I|]. split; [apply quiet|]. intros a X r Er. injection X as <-. discriminate Er.
  - intros [r|] H; [|apply tri_ret; (intros NN; elim (NN eq_refl))]. destruct (H r eq_refl) as (l1 & l2 & El & Fl & Ar). destruct (kl_ofSignature s) as [kl|] eqn:Ek; [|apply tri_ret; (intros NN; elim (NN eq_refl))]. cbv zeta. destruct (zlen (kl_name kl) =? 0) eqn:Ez; [apply tri_ret; (intros NN; elim (NN eq_refl))|].
    eapply tri_bind; [apply tri_checkSignatureMatch; rewrite El; apply in_or_app; right; left; reflexivity|]. cbv beta. intros b Hb. destruct b; cbn [negb]; [|apply tri_ret; (intros NN; elim (NN eq_refl))]. destruct (Hb eq_refl) as (ck & Eck & Ap).
    assert (Al : allowed_by p s). { exists kl. split; [exact Ek|]. split; [intros X; rewrite X in Ez; discriminate Ez|]. exists l1, r, l2, ck. auto. }
    eapply tri_bind; [apply tri_refreshAnchors|]. intros _ _. eapply tri_bind; [apply tri_findCertificate|]. intros [c|] _; apply tri_ret; auto.
Qed.
Lemma tri_verify : forall p s b, signed_with p s -> allowed_by p s -> p_signed P p = Ok b -> tri (verify P v s b) (fun ok => ok = true -> trusts_any cfg \/ authentic P cfg envs v p).
Proof.
  intros p s b Sp (kl & Ek & Ne & Al) Eb. unfold verify. rewrite Ek. destruct (kl_type kl) as [t|] eqn:Et; [|apply tri_ret; (intros; congruence)]. destruct (t =? 1) eqn:E1; [|apply tri_ret; (intros; congruence)]. assert (t = 1) by lia. subst t.
  eapply tri_bind; [apply tri_findCertificate|]. cbv beta. intros [c|] H; [|apply tri_ret; (intros; congruence)]. destruct (H c eq_refl) as ([Any|Tr] & U & Ex); [destruct (d_content c) as [[|x key]|]; first [apply tri_ret|apply tri_lift]; auto|].
  destruct (d_content c) as [[|x key]|] eqn:Ec; [apply tri_ret; (intros; congruence)| |apply tri_ret; (intros; congruence)]. apply tri_lift. intros ok Ev ->. right.
  assert (Pk : public_key_signature s /\ p_verifyKey P s b (x :: key) = Ok true) by (destruct s; cbn [verifySignature public_key_signature] in *; first [discriminate Ev|auto]). destruct Pk as [Pk Ev'].
  apply (Authentic P cfg envs v p s (kl_name kl) c b (x :: key)); try assumption. exists kl. split; [exact Et|]. split; [reflexivity|]. destruct s; cbn [kl_ofSignature] in Ek; try discriminate Ek; injection Ek as <-; eauto.
Qed.
End Tri.

(** the packet that the application has asked about *)
Fixpoint root_packet (k : cont) (p : packet) : packet := match k with KApp _ => p | KCert p0 _ k0 => root_packet k0 p0 end.
Definition sound (k : cont) (p : packet) (a : act) : Prop :=
  match a with AVerified call q => call = root_call k /\ q = root_packet k p /\ (trusts_any cfg \/ authentic P cfg envs v q) | AFailed call _ | ALogged call => call = root_call k | AExpress _ _ => False end.
Lemma tri_timestamp : forall G k ts, tri G (timestampIsFresh P v k ts) (fun _ => True).
Proof. intros G k ts. unfold timestampIsFresh. eapply tri_bind; [apply tri_get with (Q := fun _ => True); intros m _; exact Logic.I|]. intros d _. destruct (dget zlist_eqb d (n_toUri k false)); apply tri_ret; auto. Qed.
Lemma tri_update : forall G k ts, tri G (updateTimestampForKey P v k ts) (fun _ => True).
Proof.
  intros G k ts. unfold updateTimestampForKey. eapply tri_bind; [apply tri_get with (Q := fun _ => True); intros m _; exact Logic.I|]. intros d _. cbv zeta. eapply tri_bind; [apply tri_put_ts|]. intros _ _. destruct (p_maxKeys P <=? _); [|apply tri_ret; auto].
  destruct (scanKeys P v _ _ (e_now v) None) as [d1 r]. eapply tri_bind; [apply tri_put_ts|]. intros _ _. eapply tri_bind; [apply tri_lift with (Q := fun _ => True); intros a _; exact Logic.I|]. intros o _. destruct (p_maxKeys P <? zlen d1); [|apply tri_ret; auto].
  destruct o as [o|]; [|apply tri_err]. eapply tri_bind; [apply tri_lift with (Q := fun _ => True); intros a _; exact Logic.I|]. intros d2 _. apply tri_put_ts.
Qed.
Definition good_packet (p : packet) : Prop := match p with PData d => nval (d_name d) | PInterest _ => True end.
(** the certificates among the packets that wait have valid names *)
Fixpoint good_cont (k : cont) (p : packet) : Prop := match k with KApp _ => True | KCert p0 _ k0 => good_packet p /\ good_cont k0 p0 end.
Definition closes (q : request) (k : cont) (p : packet) : Prop := q_cont q = KCert p (q_step q - 1) k.
Lemma tri_check : forall k p step, good_cont k p -> tri (sound k p) (check P v k p step) (fun o => forall q, o = Some q -> closes q k p).
Proof.
  induction k as [call|p0 step0 k IH]; intros p step Gp.
  all: cbn [check]; rewrite subject_ok; eapply tri_bind; [apply tri_lift; intros x Ex; injection Ex as Ex; exact Ex|]; cbv beta; intros obj <-;
    (eapply tri_bind; [apply tri_lift; intros x Ex; exact Ex|]); cbv beta; intros [s|] Es.
  2, 4: eapply tri_bind; [apply tri_emit; reflexivity|intros _ _; apply tri_ret; (intros; congruence)].
  all: (eapply tri_bind; [apply tri_getCertificateInterest|]); cbv beta; intros [n|] Hn.
  2, 4: eapply tri_bind; [apply tri_emit; reflexivity|intros _ _; apply tri_ret; (intros; congruence)].
  all: destruct (0 <? zlen n); [apply tri_ret; intros q X; injection X as <-; unfold closes; cbn [q_cont q_step]; f_equal; lia|].
  all: specialize (Hn ltac:(discriminate)); apply signature_ok in Es.
  all: (eapply tri_bind with (Q := fun _ => True);
    [destruct p as [d|i]; [apply tri_ret; auto|]; (eapply tri_bind; [apply tri_lift with (Q := fun _ => True); intros x _; exact Logic.I|]); intros kl _; (eapply tri_bind; [apply tri_lift with (Q := fun _ => True); intros x _; exact Logic.I|]); intros c _; (eapply tri_bind; [apply tri_timestamp|]); intros [|] _; [apply tri_ret; auto|]; (eapply tri_bind; [apply tri_emit; reflexivity|]); intros _ _; apply tri_ret; auto|]).
  all: intros [st|] _; [|apply tri_ret; (intros; congruence)].
  all: (eapply tri_bind; [apply tri_lift; intros b Eb; exact Eb|]); cbv beta; intros b Eb; (eapply tri_bind; [apply (tri_verify _ p s b Es Hn Eb)|]); cbv beta; intros [|] Ha; [|eapply tri_bind; [apply tri_emit; reflexivity|intros _ _; apply tri_ret; (intros; congruence)]].
  all: specialize (Ha eq_refl).
  - eapply tri_bind; [apply tri_emit; cbn [sound root_call root_packet]; auto|]. intros _ _. eapply tri_bind with (Q := fun _ => True); [destruct st as [[kn ts]|]; [apply tri_update|apply tri_ret; auto]|]. intros _ _. apply tri_ret. (intros; congruence).
  - eapply tri_bind with (Q := fun _ => True).
    + eapply tri_logged with (Q := fun _ => True); [reflexivity|]. destruct p as [d|i]; [|apply tri_ret; auto]. destruct (cert_checkFormat d) as [[]|e] eqn:Ec; [|apply tri_emit; reflexivity]. destruct Gp as [Gp G0].
      eapply tri_bind; [apply tri_cinsert; [exact Gp|destruct Ha as [Ha|Ha]; [left; exact Ha|right; exact (T_certified P cfg envs v d Ha Ec)]]|]. intros _ _. eapply tri_bind; [|intros _ _; apply tri_ret; auto].
      exact (IH p0 (step0 + 1) G0).
    + intros _ _. eapply tri_bind with (Q := fun _ => True); [destruct st as [[kn ts]|]; [apply tri_update|apply tri_ret; auto]|]. intros _ _. apply tri_ret. (intros; congruence).
Qed.
Lemma tri_callVerified : forall k p, trusts_any cfg -> good_cont k p -> tri (sound k p) (callVerified P v k p) (fun _ => True).
Proof.
  intros [call|p0 step0 k] p Any Gp; cbn [callVerified].
  - apply tri_emit. cbn [sound root_call root_packet]. auto.
  - eapply tri_logged with (Q := fun _ => True); [reflexivity|]. destruct p as [d|i]; [|apply tri_ret; auto]. destruct (cert_checkFormat d) as [[]|e] eqn:Ec; [|apply tri_emit; reflexivity]. destruct Gp as [Gp G0].
    eapply tri_bind; [apply tri_cinsert; [exact Gp|left; exact Any]|]. intros _ _. eapply tri_bind; [|intros _ _; apply tri_ret; auto].
    exact (tri_check k p0 (step0 + 1) G0).
Qed.
Lemma tri_verifyPacket : forall k p step, good_cont k p -> tri (sound k p) (verifyPacket P v k p step) (fun o => forall q, o = Some q -> closes q k p).
Proof.
  intros k p step Gp. unfold verifyPacket. eapply tri_bind; [apply tri_get with (Q := fun b => b = false -> trusts_any cfg); intros m I; exact (I_requires m I)|]. intros [|] Hb; [apply tri_check; exact Gp|]. cbn [negb].
  eapply tri_bind; [apply tri_callVerified; [apply Hb; reflexivity|exact Gp]|]. intros _ _. apply tri_ret. (intros; congruence).
Qed.
End Sound.

(** ** More environments *)
Section Mono.
Variable P : params.
Variable cfg : tree.
Variables envs envs' : list env.
Hypothesis Sub : incl envs envs'.
Lemma approves_mono : forall n k ck, approves P envs n k ck -> approves P envs' n k ck.
Proof. intros n k ck H. destruct H; [eapply Ap_fixed; eauto|eapply Ap_hier1; eauto|eapply Ap_hier2; eauto|eapply Ap_relation; eauto|eapply Ap_regex; eauto|eapply Ap_hyper; eauto]. Qed.
Lemma rule_mono : forall p k, rule_allows P cfg envs p k -> rule_allows P cfg envs' p k.
Proof. intros p k (l1 & r & l2 & ck & A & B & C & D & E). exists l1, r, l2, ck. split; [exact A|]. split; [exact B|]. split; [exact C|]. split; [exact D|]. apply approves_mono. exact E. Qed.
Lemma installed_mono : forall c, installed P cfg envs c -> installed P cfg envs' c.
Proof. intros c (v & A & B). exists v. split; [apply Sub; exact A|exact B]. Qed.
Lemma trusted_mono : forall c, trusted P cfg envs c -> trusted P cfg envs' c.
Proof.
  apply (trusted_ind2 P cfg envs (fun v p => authentic P cfg envs' v p) (fun c => trusted P cfg envs' c)).
  - intros v p s k c b key Iv Sg Pk Lo Ne Ra _ Tr U Ex Co Sb Vk. apply (Authentic P cfg envs' v p s k c b key); try assumption; [apply Sub; exact Iv|apply rule_mono; exact Ra].
  - intros c I. apply T_installed, installed_mono. exact I.
  - intros v c _ A F. exact (T_certified P cfg envs' v c A F).
Qed.
Lemma Inv_mono : forall m, Inv P cfg envs m -> Inv P cfg envs' m.
Proof.
  intros m [A B C D E F]. constructor; try assumption.
  - split; [apply A|]. intros k c r X. destruct (proj2 A k c r X) as [[O|O] T]; (split; [|exact T]); [left; exact O|right; apply trusted_mono; exact O].
  - split; [apply B|]. intros k c r X. destruct (proj2 B k c r X) as [O T]. split; [apply installed_mono; exact O|exact T].
  - intros id uri X. destruct (C id uri X) as (v & b & f & Iv & R). exists v, b, f. split; [apply Sub; exact Iv|exact R].
Qed.
End Mono.

(** ** Histories *)
Section History.
Variable P : params.
Definition asked (h : list (env * event)) (call : Z) (p : packet) : Prop := exists v, In (v, EVerify call p) h.
Definition waits (h : list (env * event)) (x : pend) : Prop :=
  exists p step k, q_cont (pd_req x) = KCert p step k /\ good_cont k p /\ asked h (root_call k) (root_packet k p).
Definition state_ok (h : list (env * event)) (w : world) : Prop := Inv P (fst (era h)) (snd (era h)) (w_mgr w) /\ Forall (waits h) (w_pend w).
Lemma era_snoc : forall h v e, era (h ++ [(v, e)]) = match e with ELoad root _ => (root, [v]) | _ => (fst (era h), snd (era h) ++ [v]) end.
Proof. intros h v e. unfold era. rewrite fold_left_app. reflexivity. Qed.
Lemma run_snoc : forall h v e, run P (h ++ [(v, e)]) = fst (do P v e (run P h)).
Proof. intros h v e. unfold run. rewrite fold_left_app. reflexivity. Qed.
Lemma asked_snoc : forall h x call p, asked h call p -> asked (h ++ [x]) call p.
Proof. intros h x call p (v & H). exists v. apply in_or_app. left. exact H. Qed.
Lemma waits_snoc : forall h x l, Forall (waits h) l -> Forall (waits (h ++ [x])) l.
Proof. intros h x l H. apply Forall_impl with (2 := H). intros y (p & s & k & A & B & C). exists p, s, k. split; [exact A|]. split; [exact B|]. apply asked_snoc. exact C. Qed.
Lemma Inv_outs : forall cfg envs m o, Inv P cfg envs m -> Inv P cfg envs (Mgr (m_cache m) (m_fixed m) (m_ts m) (m_requires m) (m_config m) (m_rcache m) (m_dirs m) o).
Proof. intros cfg envs m o [A B C D E F]. constructor; assumption. Qed.
Lemma take_in : forall i l x, take i l = Some x -> In x l.
Proof. intros i l x H. apply find_some in H. apply H. Qed.
Lemma drop_ok : forall (Q : pend -> Prop) i l, Forall Q l -> Forall Q (drop i l).
Proof. intros Q i l H. rewrite Forall_forall in *. intros x X. apply filter_In in X. apply H, X. Qed.
(** what an event may call *)
Definition reported (h : list (env * event)) (v : env) (a : act) : Prop :=
  match a with AVerified call p => asked h call p /\ (trusts_any (fst (era h)) \/ authentic P (fst (era h)) (snd (era h)) v p) | _ => True end.
Lemma start_ok : forall h v k p step w, In v (snd (era h)) -> (forall t d, p_from64 P t = Ok d -> nval (d_name d)) -> (forall f d, e_file v f = Ok d -> nval (d_name d)) ->
  state_ok h w -> outs w = [] -> good_cont k p -> asked h (root_call k) (root_packet k p) ->
  let w' := fst (start P v k p step w) in state_ok h w' /\ Forall (reported h v) (outs w').
Proof.
  intros h v k p step w Hv G64 GF [I Wp] O Gc As w'. subst w'. unfold start.
  destruct (tri_verifyPacket P (fst (era h)) (snd (era h)) v Hv G64 GF k p step Gc (w_mgr w) I) as (I' & (new & En & Fn) & Q).
  assert (R : forall l, Forall (sound P (fst (era h)) (snd (era h)) v k p) l -> Forall (reported h v) l).
  { intros l. apply Forall_impl. intros [c n|c q|c q|c] H; cbn [reported]; try exact Logic.I. cbn [sound] in H. destruct H as (-> & -> & H). split; [exact As|exact H]. }
  unfold outs in O. rewrite O in En. cbn [app] in En.
  destruct (verifyPacket P v k p step (w_mgr w)) as [m [[q|]|e]]; cbn [fst snd] in *.
  - unfold express. cbn [w_mgr w_pend w_next]. destruct (e_express v (q_name q)); cbn [fst].
    + split; [split; [exact I'|exact Wp]|]. unfold outs. cbn [w_mgr]. rewrite En. apply R. exact Fn.
    + split; [split; cbn [w_mgr w_pend]; [apply Inv_outs; exact I'|]|].
      * apply Forall_app. split; [exact Wp|]. constructor; [|constructor]. specialize (Q _ eq_refl q eq_refl). exists p, (q_step q - 1), k. auto.
      * unfold outs. cbn [w_mgr emit fst m_outs]. rewrite En. apply Forall_app. split; [apply R; exact Fn|constructor; [exact Logic.I|constructor]].
  - split; [split; [exact I'|exact Wp]|]. unfold outs. cbn [w_mgr]. rewrite En. apply R. exact Fn.
  - split; [split; [exact I'|exact Wp]|]. unfold outs. cbn [w_mgr]. rewrite En. apply R. exact Fn.
Qed.
Lemma load_ok : forall v root err m, (forall t d, p_from64 P t = Ok d -> nval (d_name d)) -> (forall f d, e_file v f = Ok d -> nval (d_name d)) ->
  Inv P root [v] (fst (load P v root err m)) /\ m_outs (fst (load P v root err m)) = m_outs m.
Proof.
  intros v root err m G64 GF. unfold load.
  set (m0 := fst (put_config root (fst (reset P m)))).
  assert (I0 : Inv P root [v] m0).
  { constructor; cbn.
    - split; [apply clear_inv|]. intros k c r []. 
    - split; [apply new_inv|]. intros k c r [].
    - intros id uri [].
    - intros d i [].
    - reflexivity.
    - intros X; discriminate X. }
  assert (O0 : m_outs m0 = m_outs m) by reflexivity.
  change ((reset P;;; put_config root;;; match err with Some e => plift (Err e) | None => loadAnchors P v (t_getitem root w_validator_anchor) None end) m) with ((match err with Some e => plift (Err e) | None => loadAnchors P v (t_getitem root w_validator_anchor) None end) m0).
  destruct err as [e|]; [cbn [plift fst]; auto|].
  assert (T : tri P root [v] (fun _ => False) (loadAnchors P v (t_getitem root w_validator_anchor) None) (fun _ => True)).
  { rewrite C62_lookup. change (path w_validator_anchor) with [w_validator; w_trust_anchor]. apply tri_loadAnchors; try assumption; [left; reflexivity|intros x X; exact X|exact Logic.I]. }
  destruct (T m0 I0) as (I1 & (new & En & Fn) & _). split; [exact I1|]. rewrite En. destruct new as [|a new]; [rewrite app_nil_r; exact O0|]. inversion Fn. contradiction.
Qed.
Lemma step_ok : forall h v e, good_history P (h ++ [(v, e)]) -> state_ok h (run P h) -> state_ok (h ++ [(v, e)]) (run P (h ++ [(v, e)])) /\ Forall (reported (h ++ [(v, e)]) v) (outs (run P (h ++ [(v, e)]))).
Proof.
  intros h v e [G64 Gh] [I Wp]. apply Forall_app in Gh. destruct Gh as [_ Gh]. rewrite Forall_cons_iff in Gh. destruct Gh as [[GF Ge] _]. cbn [fst snd] in GF, Ge. rewrite run_snoc. set (h' := h ++ [(v, e)]) in *.
  assert (St : (forall root err, e <> ELoad root err) -> era h' = (fst (era h), snd (era h) ++ [v]) /\ state_ok h' (clear_outs (run P h)) /\ In v (snd (era h'))).
  { intros N. assert (E : era h' = (fst (era h), snd (era h) ++ [v])) by (unfold h'; rewrite era_snoc; destruct e; try reflexivity; elim (N root err eq_refl)). split; [exact E|]. split; [|rewrite E; apply in_or_app; right; left; reflexivity].
    split; [|cbn [clear_outs w_pend]; apply waits_snoc; exact Wp]. rewrite E. cbn [fst snd clear_outs w_mgr]. apply Inv_outs. apply Inv_mono with (envs := snd (era h)); [apply incl_appl, incl_refl|exact I]. }
  assert (Emp : outs (clear_outs (run P h)) = []) by reflexivity.
  unfold do. set (w := clear_outs (run P h)) in *. destruct e as [root err|call p|i d|i].
  - destruct (load_ok v root err (w_mgr w) G64 GF) as [I1 O1]. destruct (load P v root err (w_mgr w)) as [m r]. cbn [fst] in *. unfold outs in *. cbn [w_mgr]. rewrite O1, Emp. split; [|constructor].
    split; cbn [w_mgr w_pend]; [unfold h'; rewrite era_snoc; exact I1|apply waits_snoc; exact Wp].
  - destruct St as (E & S1 & Iv); [intros; discriminate|]. apply start_ok; try assumption. exists v. unfold h'. apply in_or_app. right. left. reflexivity.
  - destruct St as (E & S1 & Iv); [intros; discriminate|]. destruct (take i (w_pend w)) as [x|] eqn:Et; [|cbn [fst]; rewrite Emp; split; [exact S1|constructor]].
    destruct S1 as [I1 W1]. pose proof (take_in _ _ _ Et) as Ix. pose proof (proj1 (Forall_forall _ _) W1 x Ix) as (p & s & k & Eq & Gk & As). rewrite Eq. apply start_ok; try assumption.
    + split; [exact I1|]. cbn [w_pend]. apply drop_ok. exact W1.
    + exact (conj Ge Gk).
  - destruct St as (E & S1 & Iv); [intros; discriminate|]. destruct (take i (w_pend w)) as [x|] eqn:Et; [|cbn [fst]; rewrite Emp; split; [exact S1|constructor]].
    destruct S1 as [I1 W1]. pose proof (take_in _ _ _ Et) as Ix. pose proof (proj1 (Forall_forall _ _) W1 x Ix) as Wx. cbv zeta. destruct (0 <? pd_retry x).
    + unfold express. cbn [w_mgr w_pend w_next]. destruct (e_express v (q_name (pd_req x))); cbn [fst].
      * split; [split; [exact I1|apply drop_ok; exact W1]|]. unfold outs in *. cbn [w_mgr]. rewrite Emp. constructor.
      * split; [split; cbn [w_mgr w_pend]; [apply Inv_outs; exact I1|]|].
        -- apply Forall_app. split; [apply drop_ok; exact W1|]. constructor; [exact Wx|constructor].
        -- unfold outs in *. cbn [w_mgr emit fst m_outs]. rewrite Emp. constructor; [exact Logic.I|constructor].
    + destruct Wx as (p & s & k & Eq & Gk & As). unfold failTimeout. rewrite Eq. cbn [fst]. split; [split; cbn [w_mgr w_pend]; [apply Inv_outs; exact I1|apply drop_ok; exact W1]|]. unfold outs in *. cbn [w_mgr fail emit fst m_outs]. rewrite Emp. constructor; [exact Logic.I|constructor].
Qed.
Lemma history_ok : forall h, good_history P h -> state_ok h (run P h).
Proof.
  intros h. induction h as [|[v e] h IH] using rev_ind; intros G.
  - split; [|constructor]. constructor; cbn.
    + split; [apply new_inv|]. intros k c r [].
    + split; [apply new_inv|]. intros k c r [].
    + intros id uri [].
    + intros d i [].
    + reflexivity.
    + intros X; discriminate X.
  - apply step_ok; [exact G|]. apply IH. destruct G as [A B]. apply Forall_app in B. split; [exact A|apply B].
Qed.
End History.
