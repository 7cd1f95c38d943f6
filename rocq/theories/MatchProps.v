(** * Properties C14 (Exclude) and C15 (Interest matching) *)
From Verif Require Import Base BaseLemmas TlvModel NameModel NameSpec NameProofs WireModel WireProps MatchModel MatchSpec MatchProofs.
From Coq Require Import ZifyBool.

(** ** C14 *)
Theorem C14_matches : forall es c b, c_valid c -> ex_valid es -> ex_matches es c = Ok b -> (b = true <-> excluded es c).
Proof.
  intros es c b V X H. pose proof (ex_from_ok (length es) es None c (le_n _) V X) as K. unfold ex_matches in H. cbn [pe] in K. rewrite H in K.
  rewrite excluded_hits. exact K.
Qed.
(** The call raises exactly on a filter that ends in a component followed by two or more
    ANY, for a component which is not excluded (the exception is an AttributeError). *)
Theorem C14_error : forall es c, c_valid c -> ex_valid es ->
  (ex_matches es c = Err AttributeError <-> (exists q l k, es = q ++ ExComp l :: repeat ExAny (S (S k))) /\ ~ excluded es c) /\
  (forall e, ex_matches es c = Err e -> e = AttributeError).
Proof.
  intros es c V X. pose proof (ex_from_ok (length es) es None c (le_n _) V X) as K. unfold ex_matches. cbn [pe] in K.
  rewrite excluded_hits. destruct (ex_from None false es c) as [b|e] eqn:E; split.
  - split; [discriminate|]. intros ((q & l & k & ->) & N). pose proof (ex_from_bad q l k c None false V) as B. rewrite E in B.
    exfalso. apply N, K, B. intros x Hx. apply X. apply in_app_or in Hx. apply in_or_app. destruct Hx as [Hx|[Hx|[]]]; [left; exact Hx|right; left; exact Hx].
  - discriminate.
  - destruct K as (-> & N & q & l & k & B). split; [intros _; split; [exists q, l, k; exact B|exact N]|reflexivity].
  - destruct K as (-> & _). intros e' H. congruence.
Qed.
(** On a filter without adjacent ANY the call returns the membership. *)
Theorem C14_total : forall es c, c_valid c -> ex_valid es -> ex_wf es ->
  exists b, ex_matches es c = Ok b /\ (b = true <-> excluded es c).
Proof.
  intros es c V X W. destruct (ex_matches es c) as [b|e] eqn:E; [exists b; split; [reflexivity|eapply C14_matches; eassumption]|].
  exfalso. destruct (C14_error es c V X) as [H1 H2]. rewrite (H2 _ E) in E. apply H1 in E. destruct E as ((q & l & k & ->) & _).
  apply (W (q ++ [ExComp l]) (repeat ExAny k)). rewrite <- app_assoc. reflexivity.
Qed.
Theorem C14_adjacent_any_refuted : exists es c, c_valid c /\ ex_valid es /\ ~ excluded es c /\ ex_matches es c = Err AttributeError.
Proof.
  exists [ExComp (c_generic [66]); ExAny; ExAny], (c_generic [65]).
  assert (V : forall b, 0 <= b < 256 -> c_valid (c_generic [b])) by (intros b Hb; split; [constructor; [exact Hb|constructor]|right; split; [right; right; reflexivity|reflexivity]]).
  assert (X : ex_valid [ExComp (c_generic [66]); ExAny; ExAny]) by (intros x [E|[E|[E|[]]]]; [injection E as <-; apply V; lia|discriminate|discriminate]).
  split; [apply V; lia|]. split; [exact X|].
  destruct (C14_error _ (c_generic [65]) (V 65 ltac:(lia)) X) as [H _]. split; [apply H; vm_compute; reflexivity|vm_compute; reflexivity].
Qed.
Definition ex_filter : list exentry := [ExAny; ExComp (c_generic [68]); ExComp (c_generic [70]); ExAny; ExComp (c_generic [72]); ExComp (c_generic [74]); ExAny].
Lemma gen_valid : forall v, bytes_ok v -> c_valid (c_generic v).
Proof. intros v H. split; [exact H|right; split; [right; right; reflexivity|reflexivity]]. Qed.
Lemma ex_filter_ok : ex_valid ex_filter /\ ex_wf ex_filter.
Proof.
  split.
  - intros x H. cbn in H. repeat destruct H as [H|H]; try discriminate; try (injection H as <-; apply gen_valid, bytes_okb_ok; reflexivity). contradiction.
  - intros p q E. unfold ex_filter in E. do 8 (destruct p as [|? p]; cbn [app] in E; [discriminate|]; try discriminate; injection E as <- E).
Qed.
Example C14_example : ex_valid ex_filter /\ ex_wf ex_filter /\
  map (fun b => ex_matches ex_filter (c_generic [b])) [67; 68; 69; 70; 71; 72; 73; 74; 75] =
  map Ok [true; true; false; true; true; true; false; true; true].
Proof. split; [apply ex_filter_ok|]. split; [apply ex_filter_ok|vm_compute; reflexivity]. Qed.

(** ** C15 *)
Lemma getitem_split : forall A (p : list A) c q, py_getitem (p ++ c :: q) (zlen p) = Ok c.
Proof.
  intros A p c q. unfold py_getitem. pose proof (zlen_nonneg _ p). replace (zlen p <? 0) with false by lia.
  replace ((0 <=? zlen p) && (zlen p <? zlen (p ++ c :: q))) with true by (rewrite zlen_app, zlen_cons; pose proof (zlen_nonneg _ q); lia).
  replace (Z.to_nat (zlen p)) with (length p) by (unfold zlen; lia). rewrite nth_error_app2, Nat.sub_diag by lia. reflexivity.
Qed.
Lemma split_at_len : forall A (l : list A) k, 0 <= k < zlen l -> exists p c q, l = p ++ c :: q /\ zlen p = k.
Proof.
  intros A l k H. exists (firstn (Z.to_nat k) l). destruct (skipn (Z.to_nat k) l) as [|c q] eqn:E.
  - exfalso. pose proof (skipn_length (Z.to_nat k) l) as L. rewrite E in L. cbn in L. unfold zlen in *. lia.
  - exists c, q. split; [rewrite <- E, firstn_skipn; reflexivity|]. unfold zlen in *. rewrite firstn_length. lia.
Qed.
Lemma split_unique : forall A (p p' : list A) c c' q q', p ++ c :: q = p' ++ c' :: q' -> length p = length p' -> c = c'.
Proof. intros A p p' c c' q q' E L. destruct (app_eq_len _ _ _ _ _ E ltac:(unfold zlen; lia)) as [_ E2]. congruence. Qed.
Lemma next_iff : forall i p c q, zlen p = zlen (i_name i) -> (next_ok i (p ++ c :: q) <-> ~ excluded (i_exclude i) c).
Proof.
  intros i p c q L. unfold next_ok. unfold zlen in L. split; [intros H; eapply H; [reflexivity|lia]|].
  intros H p' c' q' E L'. rewrite <- (split_unique _ _ _ _ _ _ _ E ltac:(lia)). exact H.
Qed.
Lemma next_none : forall i n, zlen n <= zlen (i_name i) -> next_ok i n.
Proof. intros i n L p c q E L'. exfalso. subst n. unfold zlen in L. rewrite app_length in L. cbn in L. lia. Qed.
Lemma excluded_nil : forall c, ~ excluded [] c.
Proof. intros c [(e & [] & _)|(p & k & q & E & _)]. destruct p; discriminate. Qed.
Lemma zlen0 : forall A (l : list A), (0 <? zlen l) = false -> l = [].
Proof. intros A [|x l] H; [reflexivity|]. rewrite zlen_cons in H. pose proof (zlen_nonneg _ l). lia. Qed.

Definition i_wf (i : interest) : Prop := Forall c_valid (i_name i) /\ ex_valid (i_exclude i) /\ ex_wf (i_exclude i) /\ Forall c_valid (kl_name (i_keyLocator i)).

Lemma suffix_len : forall i len, suffix_ok i len <->
  match i_min i with Some m => negb (m <=? len - zlen (i_name i)) | None => false end = false /\
  match i_max i with Some m => negb (len - zlen (i_name i) <=? m) | None => false end = false.
Proof.
  intros i len. unfold suffix_ok. split.
  - intros [H1 H2]. split; [destruct (i_min i) as [m|]; [specialize (H1 m eq_refl); lia|reflexivity]|destruct (i_max i) as [m|]; [specialize (H2 m eq_refl); lia|reflexivity]].
  - intros [H1 H2]. split; intros m E; rewrite E in *; lia.
Qed.

Theorem C15_matchesName : forall i n, i_wf i -> Forall c_valid n -> exists b, i_matchesName i n = Ok b /\
  (b = true <-> value_prefix (i_name i) n /\ suffix_ok i (zlen n + 1) /\ next_ok i n).
Proof.
  intros i n (Vn & X & W & _) V. unfold i_matchesName, value_prefix. pose proof (n_match_iff (i_name i) n) as M.
  pose proof (suffix_len i (zlen n + 1)) as SL.
  destruct (n_match (i_name i) n) eqn:E; cbn [negb]; [|exists false; split; [reflexivity|]; split; [discriminate|]; intros (P & _); apply M in P; discriminate].
  destruct (match i_min i with Some m => negb (m <=? zlen n + 1 - zlen (i_name i)) | None => false end) eqn:Em;
    [exists false; split; [reflexivity|]; split; [discriminate|]; intros (_ & P & _); apply SL in P; destruct P; discriminate|].
  destruct (match i_max i with Some m => negb (zlen n + 1 - zlen (i_name i) <=? m) | None => false end) eqn:Ex;
    [exists false; split; [reflexivity|]; split; [discriminate|]; intros (_ & P & _); apply SL in P; destruct P; discriminate|].
  assert (S : suffix_ok i (zlen n + 1)) by (apply SL; split; reflexivity).
  destruct ((0 <? zlen (i_exclude i)) && (zlen (i_name i) <? zlen n)) eqn:G.
  - apply andb_true_iff in G. destruct G as [_ G]. destruct (split_at_len _ n (zlen (i_name i))) as (p & c & q & -> & L); [pose proof (zlen_nonneg _ (i_name i)); lia|].
    rewrite <- L. rewrite getitem_split. cbn [rbind]. assert (Vc : c_valid c) by (rewrite Forall_app in V; destruct V as [_ V]; inversion V; assumption).
    destruct (C14_total _ c Vc X W) as (b & -> & B). cbn [rbind]. exists (negb b). split; [reflexivity|].
    rewrite (next_iff i p c q L). rewrite <- B. destruct b; cbn [negb]; [split; [discriminate|intros (_ & _ & N); exfalso; apply N; reflexivity]|].
    split; [intros _; split; [apply M; reflexivity|]; split; [exact S|discriminate]|reflexivity].
  - exists true. split; [reflexivity|]. split; [intros _|reflexivity]. split; [apply M; reflexivity|]. split; [exact S|].
    apply andb_false_iff in G. destruct G as [G|G]; [|apply next_none; lia]. apply zlen0 in G. unfold next_ok. rewrite G. intros p c q _ _. apply excluded_nil.
Qed.

(** matchesData. [sha256] is any function with 32-byte digests; [full] is the Data name
    followed by the implicit digest of the packet. *)
Definition digest_fn (sha256 : bytes -> bytes) : Prop := forall b, bytes_ok (sha256 b) /\ zlen (sha256 b) = 32.
Definition full_name (sha256 : bytes -> bytes) (d : data) (full : name) : Prop :=
  exists w, encodeData d = Ok w /\ full = d_name d ++ [Comp CT_IMPLICIT (-1) (sha256 (fst w))].
Definition name_ok_for (i : interest) (d : data) (full : name) : Prop :=
  if zlen (i_name i) =? zlen full then n_key (i_name i) = n_key full else value_prefix (i_name i) (d_name d).
Definition d_valid (d : data) : Prop := Forall c_valid (d_name d) /\ (forall kl, sig_locator (d_sig d) = Some kl -> Forall c_valid (kl_name kl)).

Lemma kl_type_eq : forall a b, kl_typeEqual a b = true <-> a = b.
Proof. intros [a|] [b|]; cbn; (split; [try discriminate|try discriminate]); try reflexivity; [intros H; f_equal; lia|intros H; injection H as ->; lia]. Qed.
Lemma oblob_eq : forall a b, oblob_equals a b = true <-> a = b.
Proof. intros [a|] [b|]; cbn; (split; [try discriminate|try discriminate]); try reflexivity; [intros H; f_equal; apply zlist_eqb_eq; exact H|intros H; injection H as ->; apply zlist_eqb_eq; reflexivity]. Qed.
Lemma kl_equals_iff : forall a b, Forall c_valid (kl_name a) -> Forall c_valid (kl_name b) -> (kl_equals a b = true <-> same_locator a b).
Proof.
  intros a b Va Vb. unfold kl_equals, same_locator. pose proof (kl_type_eq (kl_type a) (kl_type b)) as T.
  pose proof (kl_type_eq (kl_type a) (Some 1)) as T1. pose proof (kl_type_eq (kl_type a) (Some 2)) as T2.
  pose proof (n_equals_iff_key _ _ Va Vb) as N. pose proof (oblob_eq (kl_data a) (kl_data b)) as O.
  destruct (kl_typeEqual (kl_type a) (kl_type b)); cbn [negb]; [|split; [discriminate|intros (H & _); apply T in H; discriminate]].
  destruct (kl_typeEqual (kl_type a) (Some 1)); cbn [andb].
  - destruct (n_equals (kl_name a) (kl_name b)); cbn [negb].
    + destruct (kl_typeEqual (kl_type a) (Some 2)); cbn [andb].
      * exfalso. assert (kl_type a = Some 1) by (apply T1; reflexivity). assert (kl_type a = Some 2) by (apply T2; reflexivity). congruence.
      * split; [intros _; split; [apply T; reflexivity|]; split; [intros; apply N; reflexivity|intros H; apply T2 in H; discriminate]|reflexivity].
    + split; [discriminate|]. intros (_ & H & _). specialize (H ltac:(apply T1; reflexivity)). apply N in H. discriminate.
  - destruct (kl_typeEqual (kl_type a) (Some 2)); cbn [andb].
    + destruct (oblob_equals (kl_data a) (kl_data b)); cbn [negb].
      * split; [intros _; split; [apply T; reflexivity|]; split; [intros H; apply T1 in H; discriminate|intros; apply O; reflexivity]|reflexivity].
      * split; [discriminate|]. intros (_ & _ & H). specialize (H ltac:(apply T2; reflexivity)). apply O in H. discriminate.
    + split; [intros _; split; [apply T; reflexivity|]; split; [intros H; apply T1 in H; discriminate|intros H; apply T2 in H; discriminate]|reflexivity].
Qed.
Lemma full_valid : forall sha d full, digest_fn sha -> d_valid d -> full_name sha d full -> Forall c_valid full /\ zlen full = zlen (d_name d) + 1 /\ d_fullName sha d = Ok full /\
  exists c, full = d_name d ++ [c] /\ c_type c = CT_IMPLICIT.
Proof.
  intros sha d full D (V & _) (w & Ew & ->). destruct (D (fst w)) as [D1 D2]. split; [|split; [|split]].
  - apply Forall_app. split; [exact V|]. constructor; [|constructor]. split; [exact D1|right; split; [left; reflexivity|reflexivity]].
  - rewrite zlen_app, zlen_cons, zlen_nil. lia.
  - unfold d_fullName, c_fromImplicitSha256Digest. rewrite Ew. cbn [rbind]. rewrite D2. reflexivity.
  - eexists. split; reflexivity.
Qed.
Lemma last_getitem : forall A (l : list A) x, py_getitem (l ++ [x]) (-1) = Ok x.
Proof.
  intros A l x. unfold py_getitem. pose proof (zlen_nonneg _ l). rewrite zlen_app, zlen_cons, zlen_nil.
  replace ((0 <=? _) && _) with true by (cbn [Z.ltb Z.compare]; lia). cbn [Z.ltb Z.compare].
  replace (Z.to_nat _) with (length l) by (unfold zlen; lia). rewrite nth_error_app2, Nat.sub_diag by lia. reflexivity.
Qed.

Theorem C15_matchesData : forall sha i d full, digest_fn sha -> i_wf i -> d_valid d -> full_name sha d full ->
  (forall m, i_min i = Some m -> 0 <= m) -> exists b, i_matchesData sha i d = Ok b /\
  (b = true <-> zlen (i_name i) <= zlen full /\ name_ok_for i d full /\ suffix_ok i (zlen full) /\ next_ok i full /\ publisher_ok i d).
Proof.
  intros sha i d full D (Vn & X & W & Vk) Vd Hf Hmin. destruct (full_valid sha d full D Vd Hf) as (Vf & Lf & Ef & cd & Efull & Tcd). destruct Vd as [Vdn Vdk].
  unfold i_matchesData. pose proof (suffix_len i (zlen full)) as SL. rewrite Lf in *. cbv zeta.
  assert (F : forall P : Prop, ~ P -> exists b, Ok false = Ok b /\ (b = true <-> P)) by (intros P N; exists false; split; [reflexivity|split; [discriminate|contradiction]]).
  destruct (zlen (i_name i) + match i_min i with Some m => m | None => 0 end <=? zlen (d_name d) + 1) eqn:G1; cbn [negb].
  2:{ apply F. intros (L & _ & (S & _) & _). destruct (i_min i) as [m|]; [specialize (S m eq_refl); lia|lia]. }
  assert (Lle : zlen (i_name i) <= zlen (d_name d) + 1) by (destruct (i_min i) as [m|]; [specialize (Hmin m eq_refl)|]; lia).
  destruct (match i_max i with Some m => negb (zlen (d_name d) + 1 <=? zlen (i_name i) + m) | None => false end) eqn:G2.
  { apply F. intros (L & _ & (_ & S) & _). destruct (i_max i) as [m|]; [specialize (S m eq_refl); lia|discriminate]. }
  assert (Sok : suffix_ok i (zlen (d_name d) + 1)).
  { apply SL. split; [destruct (i_min i); [lia|reflexivity]|destruct (i_max i); [lia|reflexivity]]. }
  set (preM := if zlen (i_name i) =? zlen (d_name d) + 1 then _ else _).
  assert (Hp : exists b, preM = Ok b /\ (b = true <-> name_ok_for i d full)).
  { unfold preM, name_ok_for. rewrite Lf. destruct (zlen (i_name i) =? zlen (d_name d) + 1) eqn:El.
    - destruct (exists_last (l := i_name i)) as (a & x & Ea); [intro Z; rewrite Z, zlen_nil in El; pose proof (zlen_nonneg _ (d_name d)); lia|].
      rewrite Ea, last_getitem. cbn [rbind]. destruct (c_type x =? CT_IMPLICIT) eqn:Et.
      + rewrite Ef. cbn [rbind]. eexists. split; [reflexivity|]. rewrite <- Ea. apply n_equals_iff_key; assumption.
      + exists false. split; [reflexivity|]. split; [discriminate|]. intros K. exfalso.
        rewrite Efull in K. unfold n_key in K. rewrite !map_app in K. cbn [map] in K. apply app_inj_tail in K. destruct K as [_ K].
        rewrite Efull in Vf. rewrite Forall_app in Vf. destruct Vf as [_ Vf]. inversion Vf as [|? ? Vcd _]; subst.
        rewrite Ea in Vn. rewrite Forall_app in Vn. destruct Vn as [_ Vn]. inversion Vn as [|? ? Vx _]; subst.
        pose proof (c_valid_key_inj x cd Vx Vcd K) as Eq. subst x. rewrite Tcd in Et. unfold CT_IMPLICIT in Et. lia.
    - exists (n_match (i_name i) (d_name d)). split; [reflexivity|]. apply n_match_iff. }
  destruct Hp as (b & -> & Hb). cbn [rbind]. destruct b; cbn [negb]; [|apply F; intros (_ & N & _); apply Hb in N; discriminate].
  assert (Nok : name_ok_for i d full) by (apply Hb; reflexivity). clear Hb.
  set (exM := if (0 <? zlen (i_exclude i)) && _ then _ else _).
  assert (He : exists b, exM = Ok b /\ (b = false <-> next_ok i full)).
  { unfold exM. destruct ((0 <? zlen (i_exclude i)) && (zlen (i_name i) <? zlen (d_name d) + 1)) eqn:G.
    - apply andb_true_iff in G. destruct G as [_ G]. destruct (split_at_len _ full (zlen (i_name i))) as (p & c & q & Ep & Lp); [pose proof (zlen_nonneg _ (i_name i)); lia|].
      assert (Vc : c_valid c) by (rewrite Ep in Vf; rewrite Forall_app in Vf; destruct Vf as [_ Vf]; inversion Vf; assumption).
      destruct (C14_total _ c Vc X W) as (b & Eb & B). exists b. split.
      + destruct (zlen (i_name i) =? zlen (d_name d) + 1 - 1) eqn:Gd.
        * rewrite Ef. cbn [rbind]. rewrite Ep, <- Lp, getitem_split. cbn [rbind]. exact Eb.
        * destruct (split_at_len _ (d_name d) (zlen (i_name i))) as (p' & c' & q' & Ep' & Lp'); [pose proof (zlen_nonneg _ (i_name i)); lia|].
          rewrite Ep', <- Lp', getitem_split. cbn [rbind]. replace c' with c; [exact Eb|].
          rewrite Efull, Ep', <- app_assoc in Ep. eapply split_unique; [symmetry; exact Ep|unfold zlen in *; lia].
      + rewrite Ep, (next_iff i p c q Lp), <- B. destruct b; split; try discriminate; try reflexivity; intros K; exfalso; apply K; reflexivity.
    - exists false. split; [reflexivity|]. split; [intros _|reflexivity]. apply andb_false_iff in G. destruct G as [G|G]; [|apply next_none; lia].
      apply zlen0 in G. unfold next_ok. rewrite G. intros p c q _ _. apply excluded_nil. }
  destruct He as (b & -> & He). cbn [rbind]. destruct b; [apply F; intros (_ & _ & _ & N & _); apply He in N; discriminate|].
  assert (Xok : next_ok i full) by (apply He; reflexivity). unfold publisher_ok.
  destruct (kl_type (i_keyLocator i)) as [t|] eqn:Et.
  - change kl_ofSignature with sig_locator. destruct (sig_locator (d_sig d)) as [kl|].
    + eexists. split; [reflexivity|]. rewrite (kl_equals_iff _ _ Vk (Vdk kl eq_refl)). split.
      * intros K. split; [lia|]. split; [exact Nok|]. split; [exact Sok|]. split; [exact Xok|]. right. exists kl. split; [reflexivity|exact K].
      * intros (_ & _ & _ & _ & [K|(kl' & E & K)]); [congruence|]. injection E as <-. exact K.
    + apply F. intros (_ & _ & _ & _ & [K|(kl' & E & K)]); congruence.
  - exists true. split; [reflexivity|]. split; [intros _|reflexivity]. split; [lia|]. split; [exact Nok|]. split; [exact Sok|]. split; [exact Xok|left; reflexivity].
Qed.
(** A Data packet that satisfies the Interest also satisfies it by name, whenever the
    Interest name is not the full name. *)
Theorem C15_data_implies_name : forall sha i d full, digest_fn sha -> i_wf i -> d_valid d -> full_name sha d full ->
  (forall m, i_min i = Some m -> 0 <= m) -> zlen (i_name i) <= zlen (d_name d) ->
  i_matchesData sha i d = Ok true -> i_matchesName i (d_name d) = Ok true.
Proof.
  intros sha i d full D Wi Vd Hf Hmin L H. destruct (C15_matchesData sha i d full D Wi Vd Hf Hmin) as (b & E & K). rewrite H in E. injection E as <-.
  destruct (C15_matchesName i (d_name d) Wi (proj1 Vd)) as (b & -> & K'). f_equal. apply K'.
  destruct (proj1 K eq_refl) as (_ & N & S & X & _). destruct (full_valid sha d full D Vd Hf) as (_ & Lf & _ & cd & Efull & _).
  rewrite Lf in S. split; [|split; [exact S|]].
  - unfold name_ok_for in N. rewrite Lf in N. replace (zlen (i_name i) =? zlen (d_name d) + 1) with false in N by lia. exact N.
  - intros p c q E' L'. apply (X p c (q ++ [cd])); [|exact L']. rewrite Efull, E', <- app_assoc. reflexivity.
Qed.
(** Full-name Interests: matched exactly by the packet with that digest. *)
Theorem C15_full_name : forall sha i d full, digest_fn sha -> i_wf i -> d_valid d -> full_name sha d full ->
  i_min i = None -> i_max i = None -> kl_type (i_keyLocator i) = None -> zlen (i_name i) = zlen full ->
  exists b, i_matchesData sha i d = Ok b /\ (b = true <-> n_key (i_name i) = n_key full).
Proof.
  intros sha i d full D Wi Vd Hf Hmin Hmax Hk L. destruct (C15_matchesData sha i d full D Wi Vd Hf ltac:(intros m E; congruence)) as (b & E & K).
  exists b. split; [exact E|]. rewrite K. unfold name_ok_for. replace (zlen (i_name i) =? zlen full) with true by lia. split; [tauto|]. intros N.
  split; [lia|]. split; [exact N|]. split; [split; intros m Z; congruence|]. split; [apply next_none; lia|left; exact Hk].
Qed.
(** The component types are not compared: an Interest for a parameters digest is satisfied
    by a Data packet whose name has a generic component with the same bytes. *)
Theorem C15_types_refuted : exists i d sha full, digest_fn sha /\ i_wf i /\ d_valid d /\ full_name sha d full /\
  i_matchesData sha i d = Ok true /\ i_matchesName i (d_name d) = Ok true /\ ~ prefix (n_key (i_name i)) (n_key full).
Proof.
  set (v := repeat 7 32).
  set (i := Interest [Comp CT_PARAMS (-1) v] None None kl_empty [] None false None None [] None None None).
  set (d := Data [c_generic v] mi_empty None (SigDigest (Some [1]))).
  destruct (encodeData d) as [w|] eqn:Ew; [|vm_compute in Ew; discriminate].
  exists i, d, (fun _ => repeat 0 32), ([c_generic v] ++ [Comp CT_IMPLICIT (-1) (repeat 0 32)]).
  split; [intros b; split; [apply bytes_okb_ok; reflexivity|reflexivity]|].
  split; [split; [constructor; [split; [apply bytes_okb_ok; reflexivity|right; split; [right; left; reflexivity|reflexivity]]|constructor]|]|].
  { split; [intros x []|]. split; [intros p q E; destruct p; discriminate|constructor]. }
  split; [split; [constructor; [apply gen_valid, bytes_okb_ok; reflexivity|constructor]|intros kl E; discriminate]|].
  split; [exists w; split; [exact Ew|reflexivity]|]. split; [vm_compute; reflexivity|]. split; [vm_compute; reflexivity|].
  intros [s E]. cbn in E. discriminate.
Qed.
Definition ex_mi : interest :=
  Interest [c_generic [65]] (Some 1) (Some 3) (KL (Some 1) [c_generic [75]] None) ex_filter (Some 1) true None None [] None None None.
Definition ex_md (b : Z) (kn : name) : data := Data [c_generic [65]; c_generic [b]] mi_empty (Some [1; 2]) (SigRsa (KL (Some 1) kn None) vp_none (Some [9])).
Example C15_example : i_wf ex_mi /\ d_valid (ex_md 69 [c_generic [75]]) /\
  (exists full, full_name (fun _ => repeat 0 32) (ex_md 69 [c_generic [75]]) full) /\
  i_matchesData (fun _ => repeat 0 32) ex_mi (ex_md 69 [c_generic [75]]) = Ok true /\
  i_matchesData (fun _ => repeat 0 32) ex_mi (ex_md 70 [c_generic [75]]) = Ok false /\
  i_matchesData (fun _ => repeat 0 32) ex_mi (ex_md 69 [c_generic [76]]) = Ok false.
Proof.
  assert (G : forall b, 0 <= b < 256 -> c_valid (c_generic [b])) by (intros b Hb; apply gen_valid; constructor; [exact Hb|constructor]).
  split; [split; [constructor; [apply G; lia|constructor]|]; split; [apply ex_filter_ok|]; split; [apply ex_filter_ok|constructor; [apply G; lia|constructor]]|].
  split; [split; [constructor; [apply G; lia|constructor; [apply G; lia|constructor]]|intros kl E; injection E as <-; constructor; [apply G; lia|constructor]]|].
  split; [destruct (encodeData (ex_md 69 [c_generic [75]])) as [w|] eqn:Ew; [|vm_compute in Ew; discriminate]; eexists; exists w; split; [exact Ew|reflexivity]|].
  split; [vm_compute; reflexivity|]. split; vm_compute; reflexivity.
Qed.
Print Assumptions C14_matches.
Print Assumptions C14_error.
Print Assumptions C14_total.
Print Assumptions C14_adjacent_any_refuted.
Print Assumptions C15_matchesName.
Print Assumptions C15_matchesData.
Print Assumptions C15_data_implies_name.
Print Assumptions C15_full_name.
Print Assumptions C15_types_refuted.
