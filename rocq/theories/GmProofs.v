(** * Proofs about the group manager: the database represents the group. *)
From Verif Require Import Base BaseLemmas NameModel NameSpec NameProofs NameProps DictModel DictProofs CertModel TlvSpec WireModel WireSpec WireProofs WireProps BlobModel CalModel CalProps SchedModel SchedSpec SchedProps SchedWireProps CtlModel CtlSpec CtlProps EncrModel GmModel GmSpec.
From Verif Require SqlProofs.
From Coq Require Import Permutation Sorted.

Definition mem_of (m : mrow) (i kn : name) (k : bytes) : Prop :=
  fits kn /\ fits i /\ i = removelast kn /\ m_name m = encodeName i /\ m_key m = encodeName kn /\ m_pub m = k.
Record rep (d : db) (g : group) : Prop := Rep {
  r_ids : NoDup (map s_id (db_sched d));
  r_names : NoDup (map s_name (db_sched d));
  r_rows : forall r, In r (db_sched d) -> 0 < s_id r /\ exists s, sc_wireDecode (s_blob r) = Ok s;
  r_mnames : NoDup (map m_name (db_mem d));
  r_mems : forall m, In m (db_mem d) -> (exists i kn k, mem_of m i kn k) /\ exists r, In r (db_sched d) /\ s_id r = m_sid m;
  r_sched : forall n s, g_sched g n = Some s <-> exists r, In r (db_sched d) /\ s_name r = n /\ sc_wireDecode (s_blob r) = Ok s;
  r_member : forall i sn kn k, g_member g i = Some (sn, kn, k) <->
    exists m r, In m (db_mem d) /\ In r (db_sched d) /\ s_id r = m_sid m /\ s_name r = sn /\ mem_of m i kn k }.

Lemma enc_inj : forall a b, fits a -> fits b -> encodeName a = encodeName b -> a = b.
Proof. intros a b [A L] [B _] E. exact (C08_encoding_injective a b A B L E). Qed.
Lemma fits_prefix : forall n, fits n -> fits (removelast n).
Proof.
  intros n H. destruct n as [|c0 n0]; [exact H|]. set (n := c0 :: n0) in *.
  assert (E : n = removelast n ++ [last n (c_generic [])]) by (apply app_removelast_last; discriminate).
  apply (SqlProofs.fits_prefix _ [last n (c_generic [])]). rewrite <- E. exact H.
Qed.
Lemma prefix1 : forall kn, kn <> [] -> n_getPrefix kn (-1) = Ok (removelast kn).
Proof.
  intros kn N. destruct (C10_getPrefix kn (-1)) as (p & E & -> & _). rewrite E. f_equal. change (-1 <? 0) with true. cbv iota.
  rewrite removelast_firstn_len. f_equal. unfold zlen. lia.
Qed.
Lemma stored_ok : forall s, storable s -> exists w, sc_wireEncode s = Ok w /\ sc_wireDecode w = Ok s.
Proof. intros s (ops & -> & H & L). destruct (C48_round_trip ops H) as (w & E & D). exists w. split; [exact E|]. apply D, L, E. Qed.

Lemma s_is_iff : forall n r, s_is n r = true <-> s_name r = n.
Proof. intros. apply zlist_eqb_eq. Qed.
Lemma m_is_iff : forall n r, m_is n r = true <-> m_name r = encodeName n.
Proof. intros. apply zlist_eqb_eq. Qed.
Lemma nodup_inj : forall A B (f : A -> B) l x y, NoDup (map f l) -> In x l -> In y l -> f x = f y -> x = y.
Proof.
  intros A B f. induction l as [|z l IH]; intros x y N Hx Hy E; [destruct Hx|]. cbn [map] in N. inversion N as [|? ? N1 N2]; subst.
  destruct Hx as [-> |Hx], Hy as [-> |Hy]; [reflexivity| | |apply IH; assumption].
  - elim N1. rewrite E. apply in_map. exact Hy.
  - elim N1. rewrite <- E. apply in_map. exact Hx.
Qed.
Lemma nodup_filter : forall A B (f : A -> B) p l, NoDup (map f l) -> NoDup (map f (filter p l)).
Proof.
  intros A B f p. induction l as [|z l IH]; intros N; [constructor|]. cbn [map filter] in *. inversion N as [|? ? N1 N2]; subst.
  destruct (p z); [|apply IH; exact N2]. cbn [map]. constructor; [|apply IH; exact N2]. intros H. apply N1. apply in_map_iff in H. destruct H as (w & E & H). apply filter_In in H. rewrite <- E. apply in_map, H.
Qed.
Lemma nodup_snoc : forall A B (f : A -> B) l x, NoDup (map f l) -> (forall y, In y l -> f y <> f x) -> NoDup (map f (l ++ [x])).
Proof.
  intros A B f l x N H. rewrite map_app. apply (Permutation_NoDup (l := f x :: map f l)); [apply Permutation_cons_append|]. constructor; [|exact N].
  intros K. apply in_map_iff in K. destruct K as (y & E & K). exact (H y K E).
Qed.
Lemma nextId_new : forall l r, In r l -> s_id r < nextId l.
Proof. unfold nextId. induction l as [|x l IH]; intros r H; [destruct H|]. cbn [map fold_right]. destruct H as [-> |H]; [lia|]. specialize (IH r H). lia. Qed.
Lemma nextId_pos : forall l, 0 < nextId l.
Proof. unfold nextId. induction l as [|x l IH]; cbn [map fold_right]; lia. Qed.

Lemma find_none_iff : forall A (f : A -> bool) l, find f l = None <-> forall x, In x l -> f x = false.
Proof. intros A f l. split; [intros H x; apply find_none; exact H|]. induction l as [|x l IH]; intros H; [reflexivity|]. cbn [find]. rewrite (H x (or_introl eq_refl)). apply IH. intros y Hy. apply H. right. exact Hy. Qed.

Section Rep.
Variables (d : db) (g : group).
Hypothesis R : rep d g.
Lemma has_some : forall n s, g_sched g n = Some s -> hasSchedule d n = true.
Proof. intros n s H. apply (r_sched d g R) in H. destruct H as (r & H & E & _). apply existsb_exists. exists r. split; [exact H|apply s_is_iff; exact E]. Qed.
Lemma has_none : forall n, g_sched g n = None -> hasSchedule d n = false.
Proof.
  intros n H. destruct (hasSchedule d n) eqn:E; [|reflexivity]. apply existsb_exists in E. destruct E as (r & I & E). apply s_is_iff in E.
  destruct (r_rows d g R r I) as (_ & s & D). assert (X : g_sched g n = Some s) by (apply (r_sched d g R); exists r; auto). congruence.
Qed.
Lemma row_of : forall n s, g_sched g n = Some s -> exists r, In r (db_sched d) /\ s_name r = n /\ sc_wireDecode (s_blob r) = Ok s /\ find (s_is n) (db_sched d) = Some r.
Proof.
  intros n s H. apply (r_sched d g R) in H. destruct H as (r & I & E & D). exists r. split; [exact I|]. split; [exact E|]. split; [exact D|].
  destruct (find (s_is n) (db_sched d)) as [r'|] eqn:F; [|rewrite find_none_iff in F; specialize (F r I); apply s_is_iff in E; congruence].
  apply find_some in F. destruct F as [I' E']. apply s_is_iff in E'. f_equal. apply (nodup_inj _ _ s_name (db_sched d)); [apply R|assumption|assumption|congruence].
Qed.
Lemma id_some : forall n s, g_sched g n = Some s -> exists r, In r (db_sched d) /\ s_name r = n /\ getScheduleId d n = s_id r /\ (getScheduleId d n =? -1) = false.
Proof. intros n s H. destruct (row_of n s H) as (r & I & E & _ & F). exists r. unfold getScheduleId. rewrite F. split; [exact I|]. split; [exact E|]. split; [reflexivity|]. pose proof (proj1 (r_rows d g R r I)). lia. Qed.
Lemma no_row : forall n, g_sched g n = None -> find (s_is n) (db_sched d) = None.
Proof. intros n H. apply find_none_iff. intros r I. pose proof (has_none n H) as K. unfold hasSchedule in K. destruct (s_is n r) eqn:E; [|reflexivity]. assert (existsb (s_is n) (db_sched d) = true) by (apply existsb_exists; exists r; auto). congruence. Qed.
Lemma id_none : forall n, g_sched g n = None -> getScheduleId d n = -1.
Proof. intros n H. unfold getScheduleId. rewrite (no_row n H). reflexivity. Qed.
Lemma mem_id : forall m i kn k j, mem_of m i kn k -> fits j -> (m_is j m = true <-> i = j).
Proof. intros m i kn k j (_ & Fi & _ & E & _) Fj. rewrite m_is_iff, E. split; [apply enc_inj; assumption|intros ->; reflexivity]. Qed.
Lemma mem_fun : forall m i kn k i' kn' k', mem_of m i kn k -> mem_of m i' kn' k' -> i = i' /\ kn = kn' /\ k = k'.
Proof. intros m i kn k i' kn' k' (A & B & C & D & E & F) (A' & B' & C' & D' & E' & F'). split; [apply enc_inj; try assumption; congruence|]. split; [apply enc_inj; try assumption; congruence|congruence]. Qed.
Lemma hasm_some : forall i x, g_member g i = Some x -> hasMember d i = true.
Proof. intros i [[sn kn] k] H. apply (r_member d g R) in H. destruct H as (m & r & H & _ & _ & _ & M). apply existsb_exists. exists m. split; [exact H|]. apply m_is_iff. apply M. Qed.
Lemma hasm_none : forall i, fits i -> g_member g i = None -> hasMember d i = false.
Proof.
  intros i Fi H. destruct (hasMember d i) eqn:E; [|reflexivity]. apply existsb_exists in E. destruct E as (m & I & E).
  destruct (r_mems d g R m I) as ((i' & kn & k & M) & r & Ir & Er). apply (mem_id m i' kn k i M Fi) in E. subst i'.
  assert (X : g_member g i = Some (s_name r, kn, k)) by (apply (r_member d g R); exists m, r; auto). congruence.
Qed.
Lemma member_sched : forall i sn kn k, g_member g i = Some (sn, kn, k) -> exists s, g_sched g sn = Some s.
Proof. intros i sn kn k H. apply (r_member d g R) in H. destruct H as (m & r & _ & I & _ & E & _). destruct (r_rows d g R r I) as (_ & s & D). exists s. apply (r_sched d g R). exists r. auto. Qed.
End Rep.

Lemma rep_empty : rep db_empty nobody.
Proof.
  split; cbn [db_empty db_sched db_mem map nobody g_sched g_member].
  - constructor. - constructor. - intros r [].
  - constructor. - intros m [].
  - intros n s. split; [discriminate|intros (r & [] & _)].
  - intros i sn kn k. split; [discriminate|intros (m & r & [] & _)].
Qed.

(** ** The calls *)
Definition same_tables (d d' : db) : Prop := db_sched d' = db_sched d /\ db_mem d' = db_mem d.
Lemma rep_same : forall d d' g, same_tables d d' -> rep d g -> rep d' g.
Proof. intros d d' g [E1 E2] [A B C D E F G]. split; rewrite ?E1, ?E2; assumption. Qed.

Lemma put_same : forall g n o, put_sched g n o n = o.
Proof. intros. unfold put_sched. destruct (str_dec n n); [reflexivity|contradiction]. Qed.

Lemma rep_add : forall d g n s w, rep d g -> g_sched g n = None -> sc_wireDecode w = Ok s ->
  rep (Db (db_sched d ++ [SRow (nextId (db_sched d)) n w]) (db_mem d) (db_ekeys d) (db_base d)) (Grp (put_sched g n (Some s)) (g_member g)).
Proof.
  intros d g n s w R N D. pose proof R as [A B C D' E F G]. set (new := SRow (nextId (db_sched d)) n w).
  assert (Fresh : forall r, In r (db_sched d) -> s_name r <> n).
  { intros r I K. pose proof (has_none d g R n N) as X. assert (hasSchedule d n = true) by (apply existsb_exists; exists r; split; [exact I|apply s_is_iff; exact K]). congruence. }
  assert (Old : forall r m, In m (db_mem d) -> In r (db_sched d ++ [new]) -> s_id r = m_sid m -> In r (db_sched d)).
  { intros r m Im Ir Er. apply in_app_iff in Ir. destruct Ir as [Ir|[<-|[]]]; [exact Ir|]. destruct (E m Im) as (_ & r' & I' & E'). pose proof (nextId_new _ _ I'). cbn [s_id new] in Er. lia. }
  split; cbn [db_sched db_mem g_sched g_member].
  - apply nodup_snoc; [exact A|]. intros y Hy. cbn [s_id new]. pose proof (nextId_new _ _ Hy). lia.
  - apply nodup_snoc; [exact B|]. intros y Hy. cbn [s_name new]. apply Fresh. exact Hy.
  - intros r I. apply in_app_iff in I. destruct I as [I|[<-|[]]]; [apply C; exact I|]. cbn [s_id s_blob new]. split; [apply nextId_pos|exists s; exact D].
  - exact D'.
  - intros m I. destruct (E m I) as (X & r & I' & E'). split; [exact X|]. exists r. split; [apply in_app_iff; left; exact I'|exact E'].
  - intros n' s'. unfold put_sched. destruct (str_dec n' n) as [-> |Ne].
    + split; [intros [= <-]; exists new; split; [apply in_app_iff; right; left; reflexivity|split; [reflexivity|exact D]]|].
      intros (r & I & En & Dr). apply in_app_iff in I. destruct I as [I|[<-|[]]]; [elim (Fresh r I En)|]. cbn [s_blob new] in Dr. congruence.
    + rewrite F. split; intros (r & I & En & Dr).
      * exists r. split; [apply in_app_iff; left; exact I|auto].
      * apply in_app_iff in I. destruct I as [I|[<-|[]]]; [exists r; auto|]. cbn [s_name new] in En. congruence.
  - intros i sn kn k. rewrite G. split; intros (m & r & Im & Ir & Er & X).
    + exists m, r. split; [exact Im|]. split; [apply in_app_iff; left; exact Ir|auto].
    + exists m, r. split; [exact Im|]. split; [apply (Old r m); assumption|auto].
Qed.

Lemma rep_set : forall d g n s w x, rep d g -> g_sched g n = Some x -> sc_wireDecode w = Ok s ->
  rep (Db (map (fun r => if s_is n r then SRow (s_id r) (s_name r) w else r) (db_sched d)) (db_mem d) (db_ekeys d) (db_base d)) (Grp (put_sched g n (Some s)) (g_member g)).
Proof.
  intros d g n s w x R N D. pose proof R as [A B C D' E F G]. set (f := fun r => if s_is n r then SRow (s_id r) (s_name r) w else r).
  assert (f_id : forall r, s_id (f r) = s_id r) by (intros r; unfold f; destruct (s_is n r); reflexivity).
  assert (f_name : forall r, s_name (f r) = s_name r) by (intros r; unfold f; destruct (s_is n r); reflexivity).
  split; cbn [db_sched db_mem g_sched g_member].
  - rewrite map_map. rewrite (map_ext _ _ f_id). exact A.
  - rewrite map_map. rewrite (map_ext _ _ f_name). exact B.
  - intros r I. apply in_map_iff in I. destruct I as (r0 & <- & I). rewrite f_id. destruct (C r0 I) as [P (s0 & Q)]. split; [exact P|]. unfold f. destruct (s_is n r0); cbn [s_blob]; eauto.
  - exact D'.
  - intros m I. destruct (E m I) as (X & r & I' & E'). split; [exact X|]. exists (f r). split; [apply in_map; exact I'|rewrite f_id; exact E'].
  - intros n' s'. unfold put_sched. destruct (str_dec n' n) as [-> |Ne].
    + destruct (row_of d g R n x N) as (r & I & En & Dr & _). assert (Er : s_blob (f r) = w) by (unfold f; apply s_is_iff in En; rewrite En; reflexivity). split.
      * intros [= <-]. exists (f r). split; [apply in_map; exact I|]. rewrite f_name, Er. auto.
      * intros (r' & I' & En' & Dr'). apply in_map_iff in I'. destruct I' as (r0 & <- & I'). rewrite f_name in En'.
        assert (r0 = r) by (apply (nodup_inj _ _ s_name (db_sched d)); try assumption; congruence). subst r0. rewrite Er in Dr'. congruence.
    + rewrite F. assert (Keep : forall r, s_name r = n' -> f r = r) by (intros r En; unfold f; destruct (s_is n r) eqn:Es; [apply s_is_iff in Es; congruence|reflexivity]). split.
      * intros (r & I & En & Dr). exists r. split; [|auto]. rewrite <- (Keep r En). apply in_map. exact I.
      * intros (r' & I' & En' & Dr'). apply in_map_iff in I'. destruct I' as (r0 & <- & I'). rewrite f_name in En'. rewrite (Keep r0 En') in Dr'. exists r0. auto.
  - intros i sn kn k. rewrite G. split.
    + intros (m & r & Im & Ir & Er & En & X). exists m, (f r). split; [exact Im|]. split; [apply in_map; exact Ir|]. rewrite f_id, f_name. auto.
    + intros (m & r & Im & Ir & Er & En & X). apply in_map_iff in Ir. destruct Ir as (r0 & <- & Ir). rewrite f_id in Er. rewrite f_name in En. exists m, r0. auto.
Qed.

Lemma rep_delete : forall d g n, rep d g -> rep (deleteSchedule d n)
  (Grp (put_sched g n None) (fun i => match g_member g i with Some (sn, kn, k) => if str_dec sn n then None else Some (sn, kn, k) | None => None end)).
Proof.
  intros d g n R. pose proof R as [A B C D E F G]. unfold deleteSchedule.
  assert (Ks : forall r, In r (filter (fun r => negb (s_is n r)) (db_sched d)) <-> In r (db_sched d) /\ s_name r <> n).
  { intros r. rewrite filter_In. split; intros [H K]; (split; [exact H|]); destruct (s_is n r) eqn:Es; cbn [negb] in *; try discriminate K; try reflexivity.
    - intros X. apply s_is_iff in X. congruence. - apply s_is_iff in Es. contradiction. }
  assert (Km : forall m r, In m (db_mem d) -> In r (db_sched d) -> s_id r = m_sid m -> (existsb (fun r => s_is n r && (s_id r =? m_sid m)) (db_sched d) = true <-> s_name r = n)).
  { intros m r Im Ir Er. rewrite existsb_exists. split.
    - intros (r' & I' & X). apply andb_true_iff in X. destruct X as [X Y]. apply Z.eqb_eq in Y. apply s_is_iff in X. assert (r' = r) by (apply (nodup_inj _ _ s_id (db_sched d)); try assumption; congruence). subst. reflexivity.
    - intros X. exists r. split; [exact Ir|]. apply andb_true_iff. split; [apply s_is_iff; exact X|apply Z.eqb_eq; exact Er]. }
  assert (Kk : forall m r, In r (db_sched d) -> s_id r = m_sid m -> (In m (filter (fun m => negb (existsb (fun r => s_is n r && (s_id r =? m_sid m)) (db_sched d))) (db_mem d)) <-> In m (db_mem d) /\ s_name r <> n)).
  { intros m r Ir Er. rewrite filter_In. split; intros [H K]; (split; [exact H|]); pose proof (Km m r H Ir Er) as X; destruct (existsb _ (db_sched d)); cbn [negb] in *; try discriminate K; try reflexivity.
    - intros Y. apply X in Y. discriminate Y. - elim K. apply X. reflexivity. }
  split; cbn [db_sched db_mem g_sched g_member].
  - apply nodup_filter. exact A.
  - apply nodup_filter. exact B.
  - intros r I. apply C. apply Ks in I. apply I.
  - apply nodup_filter. exact D.
  - intros m I. pose proof I as I0. apply filter_In in I0. destruct (E m (proj1 I0)) as (X & r & Ir & Er). split; [exact X|]. exists r. split; [|exact Er]. apply Ks. split; [exact Ir|]. apply (Kk m r Ir Er). exact I.
  - intros n' s'. unfold put_sched. destruct (str_dec n' n) as [-> |Ne].
    + split; [discriminate|]. intros (r & I & En & _). apply Ks in I. destruct I as [_ K]. contradiction.
    + rewrite F. split; intros (r & I & En & Dr); exists r; (split; [|auto]).
      * apply Ks. split; [exact I|congruence]. * apply Ks in I. apply I.
  - intros i sn kn k. split.
    + destruct (g_member g i) as [[[sn' kn'] k']|] eqn:Eg; [|discriminate]. destruct (str_dec sn' n) as [|Ne]; [discriminate|]. intros [= -> -> ->].
      apply G in Eg. destruct Eg as (m & r & Im & Ir & Er & En & X). exists m, r. split; [apply (Kk m r Ir Er); split; [exact Im|congruence]|]. split; [apply Ks; split; [exact Ir|congruence]|auto].
    + intros (m & r & Im & Ir & Er & En & X). apply Ks in Ir. destruct Ir as [Ir Nn]. apply (Kk m r Ir Er) in Im. destruct Im as [Im _].
      assert (Y : g_member g i = Some (sn, kn, k)) by (apply G; exists m, r; auto). rewrite Y. destruct (str_dec sn n); [congruence|reflexivity].
Qed.

Lemma rep_rename : forall d g a b s, rep d g -> g_sched g a = Some s -> g_sched g b = None ->
  rep (Db (map (fun r => if s_is a r then SRow (s_id r) b (s_blob r) else r) (db_sched d)) (db_mem d) (db_ekeys d) (db_base d))
    (Grp (fun m => if str_dec m b then Some s else if str_dec m a then None else g_sched g m)
         (fun i => match g_member g i with Some (sn, kn, k) => Some (if str_dec sn a then b else sn, kn, k) | None => None end)).
Proof.
  intros d g a b s R Ha Hb. pose proof R as [A B C D E F G]. set (f := fun r => if s_is a r then SRow (s_id r) b (s_blob r) else r).
  destruct (row_of d g R a s Ha) as (ra & Ia & Ea & Da & _).
  assert (f_id : forall r, s_id (f r) = s_id r) by (intros r; unfold f; destruct (s_is a r); reflexivity).
  assert (f_blob : forall r, s_blob (f r) = s_blob r) by (intros r; unfold f; destruct (s_is a r); reflexivity).
  assert (f_name : forall r, s_name (f r) = if str_dec (s_name r) a then b else s_name r).
  { intros r. unfold f. destruct (s_is a r) eqn:Es, (str_dec (s_name r) a) as [X|X]; try reflexivity; [apply s_is_iff in Es; contradiction|apply s_is_iff in X; congruence]. }
  assert (Nb : forall r, In r (db_sched d) -> s_name r <> b).
  { intros r I K. pose proof (has_none d g R b Hb) as X. assert (hasSchedule d b = true) by (apply existsb_exists; exists r; split; [exact I|apply s_is_iff; exact K]). congruence. }
  assert (U : forall r, In r (db_sched d) -> s_name r = a -> r = ra) by (intros r I K; apply (nodup_inj _ _ s_name (db_sched d)); try assumption; congruence).
  split; cbn [db_sched db_mem g_sched g_member].
  - rewrite map_map. rewrite (map_ext _ _ f_id). exact A.
  - rewrite map_map. assert (Inj : forall x y, In x (db_sched d) -> In y (db_sched d) -> s_name (f x) = s_name (f y) -> s_name x = s_name y).
    { intros x y Hx Hy. rewrite !f_name. destruct (str_dec (s_name x) a), (str_dec (s_name y) a); try congruence; intros K; [elim (Nb y Hy); congruence|elim (Nb x Hx); congruence]. }
    clear -B Inj. induction (db_sched d) as [|x l IH]; [constructor|]. cbn [map] in *. inversion B as [|? ? B1 B2]; subst. constructor.
    + intros K. apply B1. apply in_map_iff in K. destruct K as (y & Ey & Iy). rewrite (Inj x y); [apply in_map; exact Iy|left; reflexivity|right; exact Iy|congruence].
    + apply IH; [exact B2|]. intros x' y' Hx Hy. apply Inj; right; assumption.
  - intros r I. apply in_map_iff in I. destruct I as (r0 & <- & I). rewrite f_id, f_blob. apply C. exact I.
  - exact D.
  - intros m I. destruct (E m I) as (X & r & I' & E'). split; [exact X|]. exists (f r). split; [apply in_map; exact I'|rewrite f_id; exact E'].
  - intros n' s'. split.
    + destruct (str_dec n' b) as [-> |Nn].
      * intros [= <-]. exists (f ra). split; [apply in_map; exact Ia|]. rewrite f_name, f_blob. destruct (str_dec (s_name ra) a); [auto|contradiction].
      * destruct (str_dec n' a) as [|Na]; [discriminate|]. intros H. apply F in H. destruct H as (r & I & En & Dr). exists (f r). split; [apply in_map; exact I|]. rewrite f_name, f_blob. destruct (str_dec (s_name r) a); [congruence|auto].
    + intros (r' & I' & En & Dr). apply in_map_iff in I'. destruct I' as (r & <- & I). rewrite f_name in En. rewrite f_blob in Dr. destruct (str_dec (s_name r) a) as [X|X].
      * subst n'. destruct (str_dec b b); [|contradiction]. rewrite (U r I X) in Dr. congruence.
      * destruct (str_dec n' b) as [-> |_]; [elim (Nb r I En)|]. destruct (str_dec n' a); [congruence|]. apply F. exists r. auto.
  - intros i sn kn k. split.
    + destruct (g_member g i) as [[[sn' kn'] k']|] eqn:Eg; [|discriminate]. intros [= <- -> ->]. apply G in Eg. destruct Eg as (m & r & Im & Ir & Er & En & X).
      exists m, (f r). split; [exact Im|]. split; [apply in_map; exact Ir|]. rewrite f_id, f_name, En. auto.
    + intros (m & r & Im & Ir & Er & En & X). apply in_map_iff in Ir. destruct Ir as (r0 & <- & Ir). rewrite f_id in Er. rewrite f_name in En.
      assert (Y : g_member g i = Some (s_name r0, kn, k)) by (apply G; exists m, r0; auto). rewrite Y, En. reflexivity.
Qed.
Lemma rename_none : forall d g a b, rep d g -> g_sched g a = None -> map (fun r => if s_is a r then SRow (s_id r) b (s_blob r) else r) (db_sched d) = db_sched d.
Proof. intros d g a b R H. pose proof (no_row d g R a H) as N. rewrite find_none_iff in N. rewrite <- (map_id (db_sched d)) at 2. apply map_ext_in. intros r I. rewrite (N r I). reflexivity. Qed.
Lemma rename_self : forall a l, map (fun r => if s_is a r then SRow (s_id r) a (s_blob r) else r) l = l.
Proof. intros a l. rewrite <- (map_id l) at 2. apply map_ext. intros [x y z]. unfold s_is. cbn [s_name]. destruct (zlist_eqb y a) eqn:E; [|reflexivity]. apply zlist_eqb_eq in E. subst. reflexivity. Qed.

Lemma rep_addm : forall d g sn kn k s, rep d g -> g_sched g sn = Some s -> fits kn -> g_member g (removelast kn) = None ->
  rep (Db (db_sched d) (db_mem d ++ [MRow (getScheduleId d sn) (encodeName (removelast kn)) (encodeName kn) k]) (db_ekeys d) (db_base d))
      (Grp (g_sched g) (put_member g (removelast kn) (Some (sn, kn, k)))).
Proof.
  intros d g sn kn k s R Hs Fk N. pose proof R as [A B C D E F G]. pose proof (fits_prefix kn Fk) as Fi.
  destruct (id_some d g R sn s Hs) as (r0 & I0 & E0 & Id & _). set (new := MRow _ _ _ _).
  assert (Mn : mem_of new (removelast kn) kn k) by (unfold mem_of, new; cbn [m_name m_key m_pub]; auto 6).
  assert (Fresh : forall m, In m (db_mem d) -> m_name m <> encodeName (removelast kn)).
  { intros m I K. pose proof (hasm_none d g R _ Fi N) as X. assert (hasMember d (removelast kn) = true) by (apply existsb_exists; exists m; split; [exact I|apply m_is_iff; exact K]). congruence. }
  split; cbn [db_sched db_mem g_sched g_member]; try assumption.
  - apply nodup_snoc; [exact D|]. exact Fresh.
  - intros m I. apply in_app_iff in I. destruct I as [I|[<-|[]]]; [apply E; exact I|]. split; [exists (removelast kn), kn, k; exact Mn|]. exists r0. split; [exact I0|]. cbn [m_sid new]. auto.
  - intros i sn' kn' k'. unfold put_member. destruct (name_dec i (removelast kn)) as [-> |Ne].
    + split.
      * intros [= <- <- <-]. exists new, r0. split; [apply in_app_iff; right; left; reflexivity|]. split; [exact I0|]. cbn [m_sid new]. auto.
      * intros (m & r & Im & Ir & Er & En & X). apply in_app_iff in Im. destruct Im as [Im|[<-|[]]].
        -- elim (Fresh m Im). apply X.
        -- destruct (mem_fun _ _ _ _ _ _ _ Mn X) as (_ & <- & <-). cbn [m_sid new] in Er. assert (r = r0) by (apply (nodup_inj _ _ s_id (db_sched d)); try assumption; congruence). subst r. congruence.
    + rewrite G. split; intros (m & r & Im & Ir & Er & En & X).
      * exists m, r. split; [apply in_app_iff; left; exact Im|auto].
      * apply in_app_iff in Im. destruct Im as [Im|[<-|[]]]; [exists m, r; auto|]. destruct (mem_fun _ _ _ _ _ _ _ Mn X) as (Y & _). congruence.
Qed.

Lemma rep_delm : forall d g j, rep d g -> fits j -> rep (deleteMember d j) (Grp (g_sched g) (put_member g j None)).
Proof.
  intros d g j R Fj. pose proof R as [A B C D E F G]. unfold deleteMember.
  split; cbn [db_sched db_mem g_sched g_member]; try assumption.
  - apply nodup_filter. exact D.
  - intros m I. apply filter_In in I. apply E, I.
  - intros i sn kn k. unfold put_member. destruct (name_dec i j) as [-> |Ne].
    + split; [discriminate|]. intros (m & r & Im & Ir & Er & En & X). apply filter_In in Im. destruct Im as [_ Im]. rewrite (proj2 (mem_id m j kn k j X Fj) eq_refl) in Im. discriminate Im.
    + rewrite G. split; intros (m & r & Im & Ir & Er & En & X); exists m, r; (split; [|auto]).
      * apply filter_In. split; [exact Im|]. destruct (m_is j m) eqn:K; [|reflexivity]. apply (mem_id m i kn k j X Fj) in K. contradiction.
      * apply filter_In in Im. apply Im.
Qed.

Lemma rep_updm : forall d g j sn s sn0 kn0 k0, rep d g -> fits j -> g_sched g sn = Some s -> g_member g j = Some (sn0, kn0, k0) ->
  rep (Db (db_sched d) (map (fun m => if m_is j m then MRow (getScheduleId d sn) (m_name m) (m_key m) (m_pub m) else m) (db_mem d)) (db_ekeys d) (db_base d))
      (Grp (g_sched g) (put_member g j (Some (sn, kn0, k0)))).
Proof.
  intros d g j sn s sn0 kn0 k0 R Fj Hs Hm. pose proof R as [A B C D E F G]. destruct (id_some d g R sn s Hs) as (r0 & I0 & E0 & Id & _).
  set (f := fun m => if m_is j m then MRow (getScheduleId d sn) (m_name m) (m_key m) (m_pub m) else m).
  assert (f_name : forall m, m_name (f m) = m_name m) by (intros m; unfold f; destruct (m_is j m); reflexivity).
  assert (f_of : forall m i kn k, mem_of (f m) i kn k <-> mem_of m i kn k) by (intros m i kn k; unfold f; destruct (m_is j m); reflexivity).
  assert (f_hit : forall m kn k, mem_of m j kn k -> m_sid (f m) = s_id r0) by (intros m kn k X; unfold f; rewrite (proj2 (mem_id m j kn k j X Fj) eq_refl); exact Id).
  assert (f_miss : forall m i kn k, mem_of m i kn k -> i <> j -> f m = m) by (intros m i kn k X Ne; unfold f; destruct (m_is j m) eqn:K; [apply (mem_id m i kn k j X Fj) in K; contradiction|reflexivity]).
  apply G in Hm. destruct Hm as (m0 & r1 & Im0 & _ & _ & _ & X0).
  split; cbn [db_sched db_mem g_sched g_member]; try assumption.
  - rewrite map_map. rewrite (map_ext _ _ f_name). exact D.
  - intros m I. apply in_map_iff in I. destruct I as (m' & <- & I). destruct (E m' I) as ((i & kn & k & X) & r & Ir & Er). split; [exists i, kn, k; apply f_of; exact X|].
    destruct (name_dec i j) as [-> |Ne]; [exists r0; rewrite (f_hit m' kn k X); auto|]. exists r. rewrite (f_miss m' i kn k X Ne). auto.
  - intros i sn' kn k. unfold put_member. destruct (name_dec i j) as [-> |Ne].
    + split.
      * intros [= <- <- <-]. exists (f m0), r0. split; [apply in_map; exact Im0|]. split; [exact I0|]. rewrite (f_hit m0 kn0 k0 X0). rewrite f_of. auto.
      * intros (m & r & Im & Ir & Er & En & X). apply in_map_iff in Im. destruct Im as (m' & <- & Im). rewrite f_of in X. rewrite (f_hit m' kn k X) in Er.
        assert (m' = m0) by (apply (nodup_inj _ _ m_name (db_mem d)); try assumption; destruct X as (_ & _ & _ & Y & _), X0 as (_ & _ & _ & Y0 & _); congruence). subst m'.
        destruct (mem_fun _ _ _ _ _ _ _ X0 X) as (_ & -> & ->). assert (r = r0) by (apply (nodup_inj _ _ s_id (db_sched d)); assumption). subst r. congruence.
    + rewrite G. split; intros (m & r & Im & Ir & Er & En & X).
      * exists (f m), r. split; [apply in_map; exact Im|]. rewrite f_of. rewrite (f_miss m i kn k X Ne). auto.
      * apply in_map_iff in Im. destruct Im as (m' & <- & Im). rewrite f_of in X. rewrite (f_miss m' i kn k X Ne) in Er. exists m', r. auto.
Qed.
Lemma updm_none : forall d g j x, rep d g -> fits j -> g_member g j = None ->
  map (fun m => if m_is j m then MRow x (m_name m) (m_key m) (m_pub m) else m) (db_mem d) = db_mem d.
Proof.
  intros d g j x R Fj N. rewrite <- (map_id (db_mem d)) at 2. apply map_ext_in. intros m I. pose proof (hasm_none d g R j Fj N) as K. destruct (m_is j m) eqn:Em; [|reflexivity].
  assert (hasMember d j = true) by (apply existsb_exists; exists m; auto). congruence.
Qed.
