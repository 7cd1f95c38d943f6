(** * Proofs about the producer: names, nodes and the effect of each method *)
From Verif Require Import Base BaseLemmas NameModel NameSpec NameProofs NameProps DictModel DictProofs WireModel WireSpec WireProps BlobModel CalModel CalProofs CalProps UriModel UriProofs SchedWireProps CtlModel CtlSpec EncrModel GmModel GmSpec GmProofs GmProofs2 GmProofs3 ExclModel ExclSpec ProdModel ProdSpec.
Local Open Scope res_scope.

(** ** Times *)
Lemma iso_ascii : forall t s, toIsoString t = Ok s -> bytes_ok s /\ Forall (fun c => c < 128) s.
Proof.
  intros t s. unfold toIsoString. destruct (dt_fromSeconds (round1000 t)) as [d|] eqn:E; [|discriminate]. cbn [rbind]. intros [= <-]. unfold dt_fromSeconds in E. destruct (ord2ymd (round1000 t / 86400 + EPOCH_ORD)) as [[y m] dd] eqn:Eo.
  destruct ((1 <=? round1000 t / 86400 + EPOCH_ORD) && (y <=? 9999)) eqn:R; [|discriminate]. apply andb_true_iff in R. destruct R as [R _]. injection E as <-. pose proof (ord_range _ _ _ _ Eo) as (R1 & _ & _). pose proof (ord2ymd_ok _ _ _ _ Eo) as [_ O]. destruct O as [O1 O2]. pose proof (dim31 (is_leap y) m O1) as D.
  assert (Y : 1 <= y) by (apply R1; lia). destruct (str_int_dig y ltac:(lia)) as [Dg _].
  assert (K : Forall (fun c => 0 <= c < 128) (dt_iso (Dt y m dd (round1000 t mod 86400 / 3600) (round1000 t mod 86400 mod 3600 / 60) (round1000 t mod 86400 mod 60)))).
  { unfold dt_iso, two. cbn [dt_y dt_m dt_d dt_H dt_M dt_S]. set (r := round1000 t mod 86400). assert (Hr : 0 <= r < 86400) by (apply Z.mod_pos_bound; lia). apply Forall_app. split; [eapply Forall_impl; [|exact Dg]; unfold isdig; intros; lia|].
    cbn [app]. clear - O1 O2 D Hr. assert (Tw : forall n, 0 <= n < 100 -> 0 <= 48 + n / 10 < 128 /\ 0 <= 48 + n mod 10 < 128) by (intros n Hn; Z.to_euclidean_division_equations; lia).
    assert (A1 : 0 <= r / 3600 < 100) by (Z.to_euclidean_division_equations; lia). assert (A2 : 0 <= r mod 3600 / 60 < 100) by (Z.to_euclidean_division_equations; lia). assert (A3 : 0 <= r mod 60 < 100) by (Z.to_euclidean_division_equations; lia). generalize dependent (r / 3600). generalize dependent (r mod 3600 / 60). generalize dependent (r mod 60). intros.
    repeat (apply Forall_cons; [first [apply Tw; lia|lia]|]). apply Forall_nil. }
  split; (eapply Forall_impl; [|exact K]); intros c Hc; cbv beta in *; unfold is_byte; lia.
Qed.
Lemma iso_comp_ok : forall t c, iso_comp_of t = Ok c -> iso_of t c /\ comp_ok c.
Proof.
  intros t c. unfold iso_comp_of. destruct (toIsoString t) as [s|] eqn:E; [|discriminate]. cbn [rbind]. destruct (iso_ascii t s E) as [B A]. unfold comp_of_str. rewrite ascii_encode by exact A. cbn [rbind]. intros [= <-]. split; [exists s; auto|].
  split; [split; [exact B|right; split; [right; right; reflexivity|reflexivity]]|]. split; [change (8 < 2 ^ 64); lia|]. intros [X|X]; discriminate X.
Qed.
Lemma iso_slot : forall ts, slot_ok ts -> exists c, iso_comp_of ts = Ok c.
Proof.
  intros ts [A B]. assert (R : iso_range (round1000 ts)).
  { unfold iso_range, round1000. unfold year_1000, year_10000 in *. destruct (ts mod 1000 <? 500); [|destruct (500 <? ts mod 1000); [|destruct (Z.even (ts / 1000))]]; Z.to_euclidean_division_equations; lia. }
  destruct (fromSeconds_ok _ R) as (t & E & _). unfold iso_comp_of. destruct (toIsoString ts) as [s|] eqn:Es; [|unfold toIsoString in Es; rewrite E in Es; discriminate Es]. destruct (iso_ascii ts s Es) as [_ A']. cbn [rbind]. unfold comp_of_str. rewrite ascii_encode by exact A'. eexists. reflexivity.
Qed.
Lemma slot_rounded : forall ts, slot_ok ts -> slot_ok (rounded ts).
Proof. intros ts [A B]. unfold slot_ok, rounded, year_1000, year_10000 in *. Z.to_euclidean_division_equations; lia. Qed.

Lemma last_two : forall (n : name) c d, py_getitem n (-2) = Ok c -> py_getitem n (-1) = Ok d -> exists m, n = m ++ [c; d].
Proof.
  intros n c d. unfold py_getitem. change (-2 <? 0) with true. change (-1 <? 0) with true. cbv iota. destruct n as [|x n] using rev_ind; [discriminate|]. clear IHn. rewrite zlen_app. change (zlen [x]) with 1. destruct n as [|y n] using rev_ind; [discriminate|]. clear IHn. rewrite zlen_app. change (zlen [y]) with 1. pose proof (zlen_nonneg _ n).
  match goal with |- (if ?b then _ else _) = _ -> _ => replace b with true by lia end. match goal with |- _ -> (if ?b then _ else _) = _ -> _ => replace b with true by lia end.
  replace (Z.to_nat (-2 + (zlen n + 1 + 1))) with (length n) by (unfold zlen; lia). replace (Z.to_nat (-1 + (zlen n + 1 + 1))) with (S (length n)) by (unfold zlen; lia).
  rewrite <- app_assoc. cbn [app]. rewrite (nth_error_app2 n [y; x] (n := length n)), (nth_error_app2 n [y; x] (n := S (length n))) by lia. rewrite Nat.sub_diag. replace (S (length n) - length n)%nat with 1%nat by lia. cbn [nth_error]. intros [= ->] [= ->]. eauto.
Qed.
Lemma time_at_two : forall n b e, time_at n (-2) = Ok b -> time_at n (-1) = Ok e -> exists m cb ce, n = m ++ [cb; ce] /\ names_time cb b /\ names_time ce e /\ py_getitem n (-2) = Ok cb.
Proof.
  intros n b e. unfold time_at. destruct (py_getitem n (-2)) as [cb|] eqn:E1; [|discriminate]. destruct (py_getitem n (-1)) as [ce|] eqn:E2; [|discriminate]. cbn [rbind]. intros H1 H2. destruct (last_two n cb ce E1 E2) as [m ->]. exists m, cb, ce. split; [reflexivity|].
  split; [|split; [|reflexivity]].
  - unfold names_time. destruct (utf8_decode (c_value cb)) as [s|]; [|discriminate H1]. exists s. auto.
  - unfold names_time. destruct (utf8_decode (c_value ce)) as [s|]; [|discriminate H2]. exists s. auto.
Qed.

(** ** Dictionaries by name and by number *)
Lemma nameq : forall a b, name_ok a -> name_ok b -> (n_equals a b = true <-> a = b).
Proof. intros a b A B. apply C09_compare_zero_iff_equals; apply name_valid; assumption. Qed.
Lemma zeq : forall a b : Z, True -> True -> (a =? b = true <-> a = b).
Proof. intros a b _ _. apply Z.eqb_eq. Qed.
Lemma zdom : forall V (d : dict Z V), dom (fun _ => True) d.
Proof. intros V d. apply Forall_forall. auto. Qed.
Lemma zset_get : forall V (d : dict Z V) k v k', dget Z.eqb (dset Z.eqb d k v) k' = if k =? k' then Some v else dget Z.eqb d k'.
Proof. intros. apply (dset_get _ _ zeq); auto using zdom. Qed.
Lemma zrem_get : forall V (d : dict Z V) k k', uniq d -> dget Z.eqb (dremove Z.eqb d k) k' = if k =? k' then None else dget Z.eqb d k'.
Proof. intros. apply (dremove_get _ _ zeq); auto using zdom. Qed.
Lemma zset_uniq : forall V (d : dict Z V) k v, uniq d -> uniq (dset Z.eqb d k v).
Proof. intros. apply (dset_uniq _ _ zeq); auto using zdom. Qed.
Lemma zget_app : forall V (d : dict Z V) k v k', dget Z.eqb (d ++ [(k, v)]) k' = match dget Z.eqb d k' with Some x => Some x | None => if k =? k' then Some v else None end.
Proof. induction d as [|[k0 v0] d IH]; intros; [reflexivity|]. cbn [app dget]. destruct (k0 =? k'); [reflexivity|apply IH]. Qed.
Lemma zget_none : forall V (d : dict Z V) k, dget Z.eqb d k = None <-> ~ In k (map fst d).
Proof. intros. apply (dget_none _ _ zeq); auto using zdom. Qed.

(** [R'] is [R] with another entry for [ts] *)
Definition changed (R : dict Z kreq) (ts : Z) (o : option kreq) (R' : dict Z kreq) : Prop :=
  uniq R' /\ forall ts', dget Z.eqb R' ts' = if ts =? ts' then o else dget Z.eqb R ts'.
Lemma changed_set R ts q : uniq R -> changed R ts (Some q) (dset Z.eqb R ts q).
Proof. intro U. split; [now apply zset_uniq|]. intro ts'. apply zset_get. Qed.
Lemma changed_again R ts o R' o' R'' : changed R ts o R' -> changed R' ts o' R'' -> changed R ts o' R''.
Proof. intros [_ A] [U B]. split; [exact U|]. intro ts'. rewrite B, A. destruct (ts =? ts'); reflexivity. Qed.
Lemma changed_rem R ts : uniq R -> changed R ts None (dremove Z.eqb R ts).
Proof. intro U. split; [now apply dremove_uniq|]. intro ts'. now apply zrem_get. Qed.

Section Producer.
Variable rsa_enc : bytes -> bytes -> Z -> Z -> rsa_out.
Variable aes_enc : bytes -> bytes -> Z -> bytes -> res bytes.
Variables prefix dataType : name.
Variable maxRepeat : Z.
Hypothesis Hp : name_ok prefix.
Hypothesis Hd : name_ok dataType.
Notation is_node := (is_node prefix dataType).
Notation node_name := (node_name prefix).

(** ** The nodes *)
Lemma gen_comp_ok b : bytes_okb b = true -> comp_ok (c_generic b).
Proof. apply gen_ok. Qed.
Lemma node_ok n : is_node n -> name_ok n.
Proof.
  intros (t & u & _ & E & ->). unfold name_ok in *. rewrite E in Hd. apply Forall_app in Hd. destruct Hd as [A _]. apply Forall_app. split; [exact Hp|]. cbn [app]. constructor; [apply gen_ok; reflexivity|]. apply Forall_app. split; [exact A|]. constructor; [apply gen_ok; reflexivity|constructor].
Qed.
Lemma node_inj t t' : node_name t = node_name t' -> t = t'.
Proof. unfold ProdModel.node_name. intro E. apply app_inv_head in E. apply app_inj_tail in E. apply E. Qed.
Lemma removelast_snoc A (l : list A) x : removelast (l ++ [x]) = l.
Proof. rewrite removelast_app by discriminate. cbn. apply app_nil_r. Qed.
Lemma init_ok : forall t d, name_ok t -> (forall n, In n (dkeys d) -> exists t', n = node_name t' /\ (length t < length t')%nat /\ name_ok n) ->
  exists ns, init_infos prefix (length t) t d = d ++ map (fun t' => (node_name t', KInfo 0 0 None)) ns /\ NoDup ns /\ forall t', In t' ns <-> t' <> [] /\ exists u, t = t' ++ u.
Proof.
  induction t as [|x t IH] using rev_ind; intros d Ht Kd.
  - exists []. cbn. rewrite app_nil_r. split; [reflexivity|]. split; [constructor|]. intro t'. split; [intros []|]. intros (N & u & E). destruct t'; [congruence|discriminate].
  - rewrite app_length, Nat.add_1_r. cbn [init_infos]. destruct (t ++ [x]) as [|y z] eqn:Ey; [destruct t; discriminate|]. rewrite <- Ey. rewrite removelast_snoc. pose proof Ht as Ht0. unfold name_ok in Ht. rewrite <- Ey in *. apply Forall_app in Ht. destruct Ht as [Ht Hx].
    assert (Nok : name_ok (node_name (t ++ [x]))). { unfold name_ok, ProdModel.node_name. rewrite !Forall_app. split; [split; [exact Hp|constructor; [apply gen_ok; reflexivity|constructor]]|]. split; [split; assumption|constructor; [apply gen_ok; reflexivity|constructor]]. }
    rewrite (dset_new n_equals name_ok nameq); [| |exact Nok|].
    + destruct (IH (d ++ [(node_name (t ++ [x]), KInfo 0 0 None)]) Ht) as (ns & E & Nd & Hns).
      { intros n I. unfold dkeys in I. rewrite map_app in I. apply in_app_or in I. destruct I as [I|[<-|[]]].
        - destruct (Kd n I) as (t' & E & L & O). exists t'. split; [exact E|]. split; [|exact O]. rewrite app_length in L. lia.
        - exists (t ++ [x]). split; [reflexivity|]. split; [rewrite app_length; cbn; lia|exact Nok]. }
      exists ((t ++ [x]) :: ns). rewrite E, <- app_assoc. split; [reflexivity|]. split.
      * constructor; [|exact Nd]. intro I. apply Hns in I. destruct I as (_ & u & Eu). apply (f_equal (@length _)) in Eu. rewrite !app_length in Eu. cbn in Eu. lia.
      * intro t'. cbn [In]. rewrite Hns. split.
        -- intros [<-|(N & u & ->)]; [split; [destruct t; discriminate|exists []; now rewrite app_nil_r]|]. split; [exact N|]. exists (u ++ [x]). now rewrite app_assoc.
        -- intros (N & u & Eu). destruct u as [|w u] using rev_ind; [left; rewrite app_nil_r in Eu; exact Eu|]. right. split; [exact N|]. exists u. rewrite app_assoc in Eu. apply app_inj_tail in Eu. apply Eu.
    + apply Forall_forall. intros [n v] I. apply (in_map fst) in I. destruct (Kd n I) as (_ & _ & _ & O). exact O.
    + intro I. destruct (Kd _ I) as (t' & E & L & _). apply node_inj in E. subst t'. lia.
Qed.
Definition all_nodes : list name := dkeys (init_infos prefix (length dataType) dataType []).
Lemma start_ok : exists infos, init_infos prefix (length dataType) dataType [] = infos /\ dkeys infos = all_nodes /\ NoDup all_nodes /\ (forall n, In n all_nodes <-> is_node n) /\ (forall n k, In (n, k) infos -> k = KInfo 0 0 None).
Proof.
  eexists. split; [reflexivity|]. split; [reflexivity|]. unfold all_nodes. destruct (init_ok dataType [] Hd ltac:(intros n [])) as (ns & -> & Nd & Hns). cbn [app]. unfold dkeys. rewrite map_map. cbn [fst]. split; [|split].
  - clear Hns. induction Nd as [|t ns N Nd IH]; [constructor|]. cbn [map]. constructor; [|exact IH]. intro I. apply in_map_iff in I. destruct I as (t' & E & I). apply node_inj in E. congruence.
  - intro n. rewrite in_map_iff. split.
    + intros (t & <- & I). apply Hns in I. destruct I as (N & u & E). exists t, u. split; [exact N|]. split; [exact E|]. unfold ProdModel.node_name. rewrite <- app_assoc. reflexivity.
    + intros (t & u & N & E & ->). exists t. split; [unfold ProdModel.node_name; rewrite <- app_assoc; reflexivity|]. apply Hns. split; [exact N|]. exists u. exact E.
  - intros n k I. apply in_map_iff in I. destruct I as (t & E & _). congruence.
Qed.
Lemma nodes_zero : all_nodes = [] <-> dataType = [].
Proof.
  destruct start_ok as (_ & _ & _ & _ & H & _). split.
  - intro E. destruct dataType as [|x d] eqn:Ed; [reflexivity|]. exfalso. assert (I : In (node_name (x :: d)) all_nodes). { rewrite E in *. apply H. exists (x :: d), []. split; [discriminate|]. split; [now rewrite app_nil_r|]. unfold ProdModel.node_name. rewrite <- app_assoc. reflexivity. } rewrite E in I. destruct I.
  - intros E. destruct all_nodes as [|n l]; [reflexivity|]. exfalso. destruct (proj1 (H n) (or_introl eq_refl)) as (t & u & N & E' & _). rewrite E in E'. destruct t; [congruence|discriminate].
Qed.
End Producer.
