(** * Property C36: an exchange of two nodes, and FullPSync2017 by itself *)
From Verif Require Import Base BaseLemmas TlvModel TlvSpec TlvProofs TlvEncProofs TlvDecProofs NameModel NameSpec NameProofs UriModel MatchProps IbltModel IbltSpec IbltProofs IbltProps DictModel DictProofs PsyncModel PsyncSpec PsyncProofs PsyncProofs2 PsyncProps.
From Coq Require Import Permutation Lia.
Local Open Scope res_scope.

Lemma set_add_nodup x l : NoDup l -> NoDup (set_add x l).
Proof.
  intro H. unfold set_add. destruct (existsb (Z.eqb x) l) eqn:E; [exact H|]. apply nodup_snoc; [exact H|]. intro I. assert (existsb (Z.eqb x) l = true) by (apply existsb_exists; exists x; split; [exact I|apply Z.eqb_refl]). congruence.
Qed.
Lemma pass_nodup mmh : forall js p p', NoDup (p_pos p) -> pass mmh js p = Ok p' -> NoDup (p_pos p').
Proof.
  induction js as [|j js IH]; intros p p' H E; cbn [pass] in E; [congruence|]. destruct (nth_error (p_table p) j) as [e|]; [|discriminate]. destruct (isPure mmh e); [|eapply IH; eassumption].
  destruct (update mmh (p_table p) (- e_count e) (e_keySum e)); [|discriminate]. cbn [rbind] in E. eapply IH; [|exact E]. cbn [p_pos]. destruct (e_count e =? 1); [now apply set_add_nodup|exact H].
Qed.
Lemma rounds_nodup mmh : forall fuel t pos neg p, NoDup pos -> rounds mmh fuel t pos neg = Ok p -> NoDup (p_pos p).
Proof.
  induction fuel as [|fuel IH]; intros t pos neg p H E; cbn [rounds] in E; [discriminate|]. destruct (pass mmh (seq 0 (length t)) (Peel t pos neg 0)) as [q|] eqn:Q; [|discriminate]. cbn [rbind] in E. apply pass_nodup in Q; [|exact H].
  destruct (0 <? p_erased q); [eapply IH; eassumption|congruence].
Qed.
Lemma list_nodup mmh fuel t r pos neg : listEntries mmh fuel t = Ok (r, pos, neg) -> NoDup pos.
Proof. unfold listEntries. destruct (rounds mmh fuel t [] []) as [p|] eqn:R; [|discriminate]. cbn [rbind]. intro E. apply rounds_nodup in R; [congruence|constructor]. Qed.
Lemma nodup_map_inj {A B} (f : A -> B) l : (forall a b, In a l -> In b l -> f a = f b -> a = b) -> NoDup l -> NoDup (map f l).
Proof.
  induction l as [|a l IH]; intros H N; [constructor|]. inversion N as [|? ? N1 N2]; subst. cbn [map]. constructor; [|apply IH; [intros; apply H; [now right|now right|assumption]|exact N2]]. intro I. apply in_map_iff in I. destruct I as (b & E & I). apply H in E; [subst b; contradiction|now right|now left].
Qed.

Lemma filter_length_le {A} (f : A -> bool) l : (length (filter f l) <= length l)%nat.
Proof. induction l as [|x l IH]; [constructor|]. cbn [filter length]. destruct (f x); cbn [length]; lia. Qed.

Section G.
Variables (mmh : Z -> bytes -> Z) (compress : bytes -> bytes) (decompress : bytes -> res bytes) (fuel : nat) (n : Z) (syncPrefix : name).
Variables (P : name -> Prop) (M : Z).
Hypothesis HG : group mmh P M.
Hypothesis Hn : 0 < n.
Notation inv := (inv mmh n P M).
Notation hash := (hash mmh).

Lemma positive_ok s neg : inv s -> (forall p, P p -> getSequenceNo s p < M) -> forall pos, (forall h, In h pos -> exists x, In x (latest s) /\ h = hash (entry2 x)) -> NoDup pos ->
  exists l, positiveNames mmh true pos neg s = (s, Ok (map entry2 l)) /\ NoDup l /\
    (forall p q, In (p, q) l <-> In (p, q) (latest s) /\ In (hash (entry p q)) pos /\ ~ In (hash (entry p (q + 1))) neg).
Proof.
  intros I HM. pose proof (latest_bound mmh n P M HG s I) as B. rewrite Forall_forall in B. pose proof (M64 mmh P M HG) as M6. induction pos as [|h pos IH]; intros Hpos Hu.
  - exists []. split; [reflexivity|]. split; [constructor|]. intros p q. split; [intros []|intros (_ & [] & _)].
  - inversion Hu as [|? ? U1 U2]; subst. destruct IH as (l & E & Nl & L); [intros; apply Hpos; now right|exact U2|]. destruct (Hpos h (or_introl eq_refl)) as ([p q] & Hx & Eh). destruct (B _ Hx) as [Hp Hq]. cbn [fst snd] in *. unfold entry2 in Eh. cbn [fst snd] in Eh.
    cbn [positiveNames]. unfold bind, get, lift.
    assert (Hk : In (entry p q) (dkeys (s_n2h s))) by (apply (latest_keys mmh n P M HG s _ I); apply in_map_iff; exists (p, q); auto).
    assert (T : tables mmh n (U P M) s) by apply I. assert (Hkh : In (h, entry p q) (s_h2n s)). { apply (t_inv _ _ _ _ T). apply in_keys in Hk. destruct Hk as (h' & Hk). rewrite Eh, <- (t_hash _ _ _ _ T _ _ Hk). exact Hk. }
    unfold dindex. rewrite (in_dget Z.eqb (fun _ => True) zeqb_iff _ _ _ (dom_true _) (t_uniq2 _ _ _ _ T) Hkh).
    rewrite (proj2 (din_iff n_equals (U P M) (Ueq _ (U_valid mmh P M HG)) _ _ (t_dom _ _ _ _ T) (U_entry P M p q Hp Hq)) Hk).
    unfold isNotFutureHash, bind, get, lift. rewrite entry_prefix.
    assert (Gs : dget n_equals (s_prefixes s) p = Some q). { destruct I as [[Pd Pu _] _]. apply (in_dget n_equals P (Peq mmh P M HG) _ _ _ Pd Pu). unfold latest in Hx. apply filter_In in Hx. apply Hx. }
    rewrite Gs, fromNumber_entry by lia. cbn [ret]. rewrite E. fold (entry p (q + 1)). unfold ret.
    assert (Un : forall q', In (p, q') (latest s) -> q' = q). { intros q' H. apply (latest_in mmh n P M HG s p q' I) in H. apply (latest_in mmh n P M HG s p q I) in Hx. destruct H as (_ & <- & _), Hx as (_ & <- & _). reflexivity. }
    destruct (existsb (Z.eqb (hash (entry p (q + 1)))) neg) eqn:X; cbn [negb].
    + exists l. split; [reflexivity|]. split; [exact Nl|]. intros p' q'. rewrite L. cbn [In]. split; [tauto|]. intros (H1 & [H2|H2] & H3); [|auto]. exfalso.
      assert (Ee : entry p q = entry p' q') by (destruct (B _ H1) as [Hp' Hq']; apply (g_hash mmh P M HG); try assumption; congruence). destruct (B _ H1) as [Hp' Hq']. cbn [fst snd] in *. apply (entry_inj' mmh P M HG) in Ee; [|lia|lia]. destruct Ee as [<- <-]. apply H3. apply existsb_exists in X. destruct X as (k & K1 & K2). apply Z.eqb_eq in K2. subst k. exact K1.
    + exists ((p, q) :: l). split; [reflexivity|]. split.
      * constructor; [|exact Nl]. intro H. apply L in H. destruct H as (_ & H & _). rewrite <- Eh in H. contradiction.
      * intros p' q'. cbn [In]. rewrite L. split.
        -- intros [H|H]; [|tauto]. injection H as <- <-. split; [exact Hx|]. split; [left; exact Eh|]. intro K. assert (existsb (Z.eqb (hash (entry p (q + 1)))) neg = true) by (apply existsb_exists; eexists; split; [exact K|apply Z.eqb_refl]). congruence.
        -- intros (H1 & [H2|H2] & H3); [|auto]. left. destruct (B _ H1) as [Hp' Hq']. cbn [fst snd] in *. assert (Ee : entry p q = entry p' q') by (apply (g_hash mmh P M HG); try assumption; congruence). apply (entry_inj' mmh P M HG) in Ee; [|lia|lia]. destruct Ee as [<- <-]. reflexivity.
Qed.

(** ** The difference of two tables *)
Lemma inv_hash_inj s s' x y : inv s -> inv s' -> In x (latest s) -> In y (latest s') -> hash (entry2 x) = hash (entry2 y) -> x = y.
Proof.
  intros I I' Hx Hy E. pose proof (latest_bound mmh n P M HG s I) as B. pose proof (latest_bound mmh n P M HG s' I') as B'. rewrite Forall_forall in B, B'. destruct (B _ Hx), (B' _ Hy). pose proof (M64 mmh P M HG). destruct x as [p q], y as [p' q']. unfold entry2 in E. cbn [fst snd] in *.
  apply (g_hash mmh P M HG) in E; try assumption. apply (entry_inj' mmh P M HG) in E; [|lia|lia]. destruct E; congruence.
Qed.
Definition has (s : state) (x : name * Z) : bool := getSequenceNo s (fst x) =? snd x.
Lemma has_iff s s' x : inv s -> inv s' -> In x (latest s) -> (has s' x = true <-> In x (latest s')).
Proof.
  intros I I' Hx. destruct x as [p q]. apply (latest_in mmh n P M HG s p q I) in Hx. destruct Hx as (Hp & _ & Hq). rewrite (latest_in mmh n P M HG s' p q I'). unfold has. cbn [fst snd]. rewrite Z.eqb_eq. tauto.
Qed.
Lemma missing_only a b hs : inv a -> inv b -> missing mmh P a b hs -> Permutation hs (map (fun x => hash (entry2 x)) (filter (fun x => negb (has b x)) (latest a))).
Proof.
  intros Ia Ib [N E]. apply NoDup_Permutation; [exact N|apply nodup_map_inj; [intros x y Hx Hy; apply filter_In in Hx; apply filter_In in Hy; apply (inv_hash_inj a a); tauto|apply NoDup_filter, nodup_fst, (latest_nodup mmh n P M); exact Ia]|].
  intro h. rewrite E, in_map_iff. split.
  - intros (p & Hp & H1 & H2 & ->). exists (p, getSequenceNo a p). split; [reflexivity|]. apply filter_In. split; [apply (latest_in mmh n P M HG a _ _ Ia); auto|]. unfold has. cbn [fst snd]. apply negb_true_iff, Z.eqb_neq. exact H2.
  - intros ([p q] & <- & H). apply filter_In in H. destruct H as [H W]. apply (latest_in mmh n P M HG a _ _ Ia) in H. destruct H as (Hp & <- & Hq). exists p. unfold has in W. cbn [fst snd] in W. apply negb_true_iff, Z.eqb_neq in W. auto.
Qed.
Lemma partition_perm {A} (f : A -> bool) l : Permutation l (filter (fun x => negb (f x)) l ++ filter f l).
Proof.
  induction l as [|x l IH]; [constructor|]. cbn [filter]. destruct (f x); cbn [negb]; [|now constructor]. eapply perm_trans; [apply perm_skip, IH|]. apply Permutation_middle.
Qed.
Lemma difference_ok a b hA hB : inv a -> inv b -> missing mmh P a b hA -> missing mmh P b a hB ->
  exists d, difference (s_iblt a) (s_iblt b) = Ok d /\ holds mmh (per_hash n) d (inserts hA ++ erases hB).
Proof.
  intros Ia Ib MA MB. pose proof (missing_only a b hA Ia Ib MA) as PA. pose proof (missing_only b a hB Ib Ia MB) as PB.
  set (C := map (fun x => hash (entry2 x)) (filter (has b) (latest a))).
  destruct (C35_symmetric mmh n hA hB C Hn) as (t & t' & R & R' & D).
  assert (Et : t = s_iblt a).
  { assert (Q : IbltModel.run mmh (new n) (inserts (map (fun x => hash (entry2 x)) (latest a))) = Ok (s_iblt a)).
    { rewrite <- (map_map entry2 hash). eapply tables_build; [exact Hn|apply Ia|apply (entry2_nodup mmh P M HG); [apply (latest_nodup mmh n P M), Ia|apply (latest_bound mmh n P M HG), Ia]|]. intro x. now apply (latest_keys mmh n P M HG). }
    rewrite (C35_order mmh n _ (inserts (hA ++ C)) Hn) in Q; [congruence|]. unfold inserts. apply Permutation_map. eapply perm_trans; [apply Permutation_map, (partition_perm (has b))|]. rewrite map_app. apply Permutation_app; [symmetry; exact PA|apply Permutation_refl]. }
  assert (Et' : t' = s_iblt b).
  { assert (Q : IbltModel.run mmh (new n) (inserts (map (fun x => hash (entry2 x)) (latest b))) = Ok (s_iblt b)).
    { rewrite <- (map_map entry2 hash). eapply tables_build; [exact Hn|apply Ib|apply (entry2_nodup mmh P M HG); [apply (latest_nodup mmh n P M), Ib|apply (latest_bound mmh n P M HG), Ib]|]. intro x. now apply (latest_keys mmh n P M HG). }
    rewrite (C35_order mmh n _ (inserts (hB ++ C)) Hn) in Q; [congruence|]. unfold inserts. apply Permutation_map. eapply perm_trans; [apply Permutation_map, (partition_perm (has a))|]. rewrite map_app. apply Permutation_app; [symmetry; exact PB|]. unfold C. apply Permutation_map.
    apply NoDup_Permutation; [apply NoDup_filter, nodup_fst, (latest_nodup mmh n P M), Ib|apply NoDup_filter, nodup_fst, (latest_nodup mmh n P M), Ia|]. intro x. rewrite !filter_In. split; intros [H W].
    - split; [now apply (has_iff b a x Ib Ia H)|]. apply (has_iff a b x Ia Ib); [now apply (has_iff b a x Ib Ia H)|exact H].
    - split; [now apply (has_iff a b x Ia Ib H)|]. apply (has_iff b a x Ib Ia); [now apply (has_iff a b x Ia Ib H)|exact H]. }
  subst t t'. destruct (new_sized n Hn) as [[Hb _] En]. destruct (holds_run mmh _ (inserts hA ++ erases hB) _ [] (holds_new mmh _ Hb)) as (d & Rd & Hd). rewrite <- En in Rd. exists d. split; [congruence|exact Hd].
Qed.

(** ** The reply to a sync interest *)
Lemma initialize_ok b : inv b -> zlib_ok compress decompress -> hash32 mmh -> zlen (s_prefixes b) < 2 ^ 32 -> initialize decompress (new n) (encode compress (s_iblt b)) = Ok (s_iblt b).
Proof.
  intros Ib Hz H32 Hl. eapply (C35_roundtrip mmh compress decompress n (map (fun x => hash (entry2 x)) (latest b))); [exact Hz|exact H32|exact Hn| | |].
  - apply Forall_forall. intros h H. apply in_map_iff in H. destruct H as (x & <- & _). apply H32.
  - rewrite zlen_map. unfold latest. unfold zlen in *. pose proof (filter_length_le (fun x : name * Z => 0 <? snd x) (s_prefixes b)) as L. unfold name in *. lia.
  - rewrite <- (map_map entry2 hash). eapply tables_build; [exact Hn|apply Ib|apply (entry2_nodup mmh P M HG); [apply (latest_nodup mmh n P M), Ib|apply (latest_bound mmh n P M HG), Ib]|]. intro x. now apply (latest_keys mmh n P M HG).
Qed.
Lemma subname_last (c : comp) : n_getSubName (syncPrefix ++ [c]) (zlen syncPrefix) None = Ok [c].
Proof.
  unfold n_getSubName. pose proof (zlen_nonneg _ syncPrefix). replace (zlen syncPrefix <? 0) with false by lia. rewrite zlen_app, zlen_cons, zlen_nil. replace (Z.min _ _ - _) with 1 by lia. change (Z.to_nat 1) with 1%nat. cbn [py_collect]. unfold py_getitem.
  replace (zlen syncPrefix <? 0) with false by lia. rewrite zlen_app, zlen_cons, zlen_nil. replace ((0 <=? zlen syncPrefix) && (zlen syncPrefix <? zlen syncPrefix + (1 + 0))) with true by lia.
  replace (Z.to_nat (zlen syncPrefix)) with (length syncPrefix) by (unfold zlen; lia). rewrite nth_error_app2, Nat.sub_diag by lia. reflexivity.
Qed.
Lemma exchange a b hA hB : inv a -> inv b -> zlib_ok compress decompress -> hash32 mmh -> zlen (s_prefixes b) < 2 ^ 32 -> (forall p, P p -> getSequenceNo a p < M) ->
  missing mmh P a b hA -> missing mmh P b a hB -> no_collision mmh (inserts hA ++ erases hB) -> peelable mmh (per_hash n) (inserts hA ++ erases hB) -> (length hA + length hB < fuel)%nat ->
  let i := syncPrefix ++ [c_generic (encode compress (s_iblt b))] in
  exists l, NoDup (map fst l) /\ Forall (fun x => P (fst x) /\ 0 < snd x <= M) l /\
    (forall p q, In (p, q) l <-> P p /\ getSequenceNo a p = q /\ 0 < q /\ getSequenceNo b p <> q /\ getSequenceNo b p <> q + 1) /\
    exists rest, s_log (step mmh compress decompress fuel n syncPrefix true a (EInterest false syncPrefix i)) = s_log a ++ (match l with [] => LLater i (s_next a) | _ => LData i (map entry2 l) end) :: rest.
Proof.
  intros Ia Ib Hz H32 Hl HM MA MB NC PE Hf i. destruct (difference_ok a b hA hB Ia Ib MA MB) as (d & Ed & Hd).
  destruct (proj2 (C35_list_peelable mmh (per_hash n) d hA hB fuel (proj1 MA) (proj1 MB) NC Hd Hf) PE) as (pos & neg & El).
  pose proof (C35_list_exact mmh (per_hash n) d hA hB fuel pos neg (proj1 MA) (proj1 MB) NC Hd El) as X. pose proof (list_nodup _ _ _ _ _ _ El) as Np.
  destruct (positive_ok a neg Ia HM pos) as (l & Epos & Nl & L); [|exact Np|].
  { intros h Hh. apply X in Hh. apply (proj2 MA) in Hh. destruct Hh as (p & Hp & H1 & H2 & ->). exists (p, getSequenceNo a p). split; [apply (latest_in mmh n P M HG a _ _ Ia); auto|reflexivity]. }
  assert (L' : forall p q, In (p, q) l <-> P p /\ getSequenceNo a p = q /\ 0 < q /\ getSequenceNo b p <> q /\ getSequenceNo b p <> q + 1).
  { intros p q. rewrite L, (latest_in mmh n P M HG a p q Ia), (proj1 (X _)), (proj2 (X _)), (proj2 MA), (proj2 MB). pose proof (M64 mmh P M HG) as M6. split.
    - intros ((Hp & <- & Hq) & (p' & Hp' & H1 & H2 & H3) & H4). split; [exact Hp|]. split; [reflexivity|]. split; [exact Hq|]. assert (Ee : entry p (getSequenceNo a p) = entry p' (getSequenceNo a p')) by (apply (g_hash mmh P M HG); try assumption; [specialize (HM p Hp); lia|specialize (HM p' Hp'); lia]).
      apply (entry_inj' mmh P M HG) in Ee; [|specialize (HM p Hp); lia|specialize (HM p' Hp'); lia]. destruct Ee as [<- _]. split; [exact H2|]. intro Eb. apply H4. exists p. split; [exact Hp|]. split; [lia|]. split; [lia|]. rewrite Eb. reflexivity.
    - intros (Hp & <- & Hq & H1 & H2). split; [auto|]. split; [exists p; auto|]. intros (p' & Hp' & H3 & H4 & H5).
      assert (Hb : 0 < getSequenceNo b p' <= M). { split; [exact H3|]. unfold getSequenceNo in *. destruct (dget n_equals (s_prefixes b) p') as [v|] eqn:Gv; [|lia]. apply (pfx_get mmh P M HG _ _ _ (proj1 Ib) Hp' Gv). }
      assert (Ee : entry p (getSequenceNo a p + 1) = entry p' (getSequenceNo b p')) by (apply (g_hash mmh P M HG); try assumption; specialize (HM p Hp); lia).
      apply (entry_inj' mmh P M HG) in Ee; [|specialize (HM p Hp); lia|lia]. destruct Ee as [<- Ee]. lia. }
  exists l. split; [|split; [|split; [exact L'|]]].
  - apply nodup_map_inj; [|exact Nl]. intros [p q] [p' q'] H1 H2 E. cbn [fst] in E. subst p'. apply L' in H1. apply L' in H2. destruct H1 as (_ & <- & _), H2 as (_ & <- & _). reflexivity.
  - apply Forall_forall. intros [p q] H. apply L' in H. destruct H as (Hp & <- & Hq & _). cbn [fst snd]. specialize (HM p Hp). split; [exact Hp|lia].
  - unfold step, act, onSyncInterest. unfold bind at 1, lift at 1. unfold i at 1. rewrite subname_last. rewrite zlen_cons, zlen_nil. cbn [Z.add Z.eqb Pos.eqb]. unfold bind at 1. cbn [ret]. unfold bind at 1, lift at 1. unfold i at 1. rewrite last_getitem. cbn [c_generic c_value]. rewrite (initialize_ok b Ib Hz H32 Hl).
    unfold bind at 1, get at 1. unfold bind at 1, lift at 1. rewrite Ed. unfold bind at 1, lift at 1. rewrite El. cbn [negb andb]. unfold bind at 1. rewrite Epos. destruct l as [|x l].
    + cbn [map]. rewrite zlen_nil. cbn [Z.ltb Z.compare]. unfold bind, get, set_pending, set_next, out, put. cbn [fst s_log s_next]. exists []. reflexivity.
    + replace (0 <? zlen (map entry2 (x :: l))) with true by (cbn [map]; rewrite zlen_cons; pose proof (zlen_nonneg _ (map entry2 l)); lia). unfold sendSyncData, bind at 1, get at 1. destruct (n_equals (s_outstanding a) i).
      * unfold bind, set_outstanding, out, put, sendSyncInterest, get, bind, set_outstanding, out, put. cbn [fst s_log]. rewrite <- app_assoc. eexists. reflexivity.
      * unfold out, put. cbn [fst s_log]. exists []. reflexivity.
Qed.
End G.

(** One exchange: node [a] gets the sync interest of node [b] and answers it, and [b] gets the answer.
    If the 32-bit hashes do not collide and the difference of the two sets can be listed, then [b] has the
    latest of the two for every prefix. (An empty content is not sent, and changes nothing.) *)
Theorem C36_exchange : forall mmh compress decompress fuel n syncPrefix P M a b hA hB bb, group mmh P M -> 0 < n ->
  reach mmh compress decompress fuel n syncPrefix P M a -> reach mmh compress decompress fuel n syncPrefix P M b ->
  zlib_ok compress decompress -> hash32 mmh -> zlen (s_prefixes b) < 2 ^ 32 -> (forall p, P p -> getSequenceNo a p < M) ->
  missing mmh P a b hA -> missing mmh P b a hB -> no_collision mmh (inserts hA ++ erases hB) -> sized bb (new n) -> peelable mmh bb (inserts hA ++ erases hB) -> (length hA + length hB < fuel)%nat ->
  let i := syncPrefix ++ [c_generic (encode compress (s_iblt b))] in
  exists content, (exists rest, s_log (step mmh compress decompress fuel n syncPrefix true a (EInterest false syncPrefix i)) = s_log a ++ (match content with [] => LLater i (s_next a) | _ => LData i content end) :: rest) /\
    wf P M b (EData i content) /\
    forall p, P p -> let v := getSequenceNo (step mmh compress decompress fuel n syncPrefix true b (EData i content)) p in
      (0 < getSequenceNo a p -> v = Z.max (getSequenceNo a p) (getSequenceNo b p)) /\ (getSequenceNo a p <= 0 -> v = getSequenceNo b p).
Proof.
  intros mmh compress decompress fuel n sp P M a b hA hB bb HG Hn Ra Rb Hz H32 Hl HM MA MB NC Sb PE Hf i.
  assert (Ia : inv mmh n P M a) by (eapply reach_inv; eassumption). assert (Ib : inv mmh n P M b) by (eapply reach_inv; eassumption).
  assert (bb = per_hash n). { destruct (new_sized n Hn) as [[_ S] _]. destruct Sb as [_ S']. lia. } subst bb.
  destruct (exchange mmh compress decompress fuel n sp P M HG Hn a b hA hB Ia Ib Hz H32 Hl HM MA MB NC PE Hf) as (l & Nl & Bl & L & rest & E). fold i in E. exists (map entry2 l). split; [exists rest; rewrite E; destruct l; reflexivity|].
  assert (W : wf P M b (EData i (map entry2 l))) by (exists l; auto). split; [exact W|]. intros p Hp. cbn zeta. pose proof (seq_step mmh compress decompress fuel n sp P M HG b _ p Ib W Hp) as [S1 S2]. pose proof (M64 mmh P M HG) as M6.
  assert (Q : forall q, In (entry p q) (map entry2 l) -> 0 < q <= M -> In (p, q) l). { intros q H Hq. apply in_map_iff in H. destruct H as ([p' q'] & Ee & H). rewrite Forall_forall in Bl. destruct (Bl _ H) as [_ Hq']. unfold entry2 in Ee. cbn [fst snd] in *. apply (entry_inj' mmh P M HG) in Ee; [|lia|lia]. destruct Ee as [<- <-]. exact H. }
  specialize (HM p Hp). split; intro Hv.
  - destruct (Z.eq_dec (getSequenceNo b p) (getSequenceNo a p)) as [E1|E1]; [|destruct (Z.eq_dec (getSequenceNo b p) (getSequenceNo a p + 1)) as [E2|E2]].
    + rewrite S2; [lia|]. intros q Hq H. apply (Q q H) in Hq. apply L in Hq. lia.
    + rewrite S2; [lia|]. intros q Hq H. apply (Q q H) in Hq. apply L in Hq. lia.
    + rewrite (S1 (getSequenceNo a p)); [lia|lia|]. apply in_map_iff. exists (p, getSequenceNo a p). split; [reflexivity|]. apply L. auto.
  - apply S2. intros q Hq H. apply (Q q H) in Hq. apply L in Hq. lia.
Qed.

(** ** Every sync interest carries the table that the node has at the end of the call. *)
Section I.
Variables (mmh : Z -> bytes -> Z) (compress : bytes -> bytes) (decompress : bytes -> res bytes) (fuel : nat) (n : Z) (syncPrefix : name) (users : bool).
Definition carries (t : table) (ext : list log) : Prop := forall x, In (LInterest x) ext -> x = syncPrefix ++ [c_generic (encode compress t)].
Definition sends {A} (m : M A) : Prop := forall s, exists ext, s_log (fst (m s)) = s_log s ++ ext /\ s_iblt (fst (m s)) = s_iblt s /\ carries (s_iblt s) ext.
Definition quiet {A} (m : M A) : Prop := forall s, s_log (fst (m s)) = s_log s.
Definition final {A} (m : M A) : Prop := forall s, exists ext, s_log (fst (m s)) = s_log s ++ ext /\ carries (s_iblt (fst (m s))) ext.
Lemma carries_nil t : carries t [].
Proof. intros x []. Qed.
Lemma carries_app t a b : carries t a -> carries t b -> carries t (a ++ b).
Proof. intros Ha Hb x H. apply in_app_iff in H. destruct H; auto. Qed.
Lemma sends_keep {A} (m : M A) : (forall s, s_log (fst (m s)) = s_log s /\ s_iblt (fst (m s)) = s_iblt s) -> sends m.
Proof. intros H s. destruct (H s) as [H1 H2]. exists []. rewrite app_nil_r. split; [exact H1|]. split; [exact H2|apply carries_nil]. Qed.
Lemma sends_bind {A B} (m : M A) (k : A -> M B) : sends m -> (forall a, sends (k a)) -> sends (bind m k).
Proof.
  intros Hm Hk s. unfold bind. destruct (Hm s) as (e & E & T & C). destruct (m s) as [s' [a|x]]; cbn [fst] in *; [|exists e; auto]. destruct (Hk a s') as (e' & E' & T' & C'). exists (e ++ e'). rewrite E', E, app_assoc, T', T. split; [reflexivity|]. split; [reflexivity|]. apply carries_app; [exact C|]. rewrite <- T. exact C'.
Qed.
Lemma sends_final {A} (m : M A) : sends m -> final m.
Proof. intros H s. destruct (H s) as (e & E & T & C). exists e. rewrite T. auto. Qed.
Lemma quiet_final {A} (m : M A) : quiet m -> final m.
Proof. intros H s. exists []. rewrite app_nil_r. split; [apply H|apply carries_nil]. Qed.
Lemma quiet_then {A B} (m : M A) (k : A -> M B) : quiet m -> (forall a, final (k a)) -> final (bind m k).
Proof. intros Hm Hk s. unfold bind. specialize (Hm s). destruct (m s) as [s' [a|x]]; cbn [fst] in *; [destruct (Hk a s') as (e & E & C); exists e; rewrite E, Hm; auto|exists []; rewrite app_nil_r; split; [exact Hm|apply carries_nil]]. Qed.
Lemma quiet_bind {A B} (m : M A) (k : A -> M B) : quiet m -> (forall a, quiet (k a)) -> quiet (bind m k).
Proof. intros Hm Hk s. unfold bind. specialize (Hm s). destruct (m s) as [s' [a|x]]; cbn [fst] in *; [rewrite Hk; exact Hm|exact Hm]. Qed.
Ltac qt := repeat (first [(intro; intros; reflexivity) | apply quiet_bind; [|intro] | match goal with |- quiet (if ?b then _ else _) => destruct b | |- quiet (match ?x with _ => _ end) => destruct x end]).
Ltac sd := repeat (first [apply sends_keep; intro; intros; split; reflexivity | apply sends_bind; [|intro] | match goal with |- sends (if ?b then _ else _) => destruct b | |- sends (match ?x with _ => _ end) => destruct x end]).
Lemma sends_interest : sends (sendSyncInterest compress syncPrefix).
Proof. intro s. eexists. split; [reflexivity|]. split; [reflexivity|]. intros x [H|[]]. congruence. Qed.
Lemma sends_out l : (forall x, l <> LInterest x) -> sends (out l).
Proof. intros H s. exists [l]. split; [reflexivity|]. split; [reflexivity|]. intros x [E|[]]. exfalso. exact (H x E). Qed.
Opaque sendSyncInterest.
Lemma sends_data x c : sends (sendSyncData compress syncPrefix x c).
Proof. unfold sendSyncData. sd; try apply sends_interest; apply sends_out; discriminate. Qed.
Opaque sendSyncData.
Lemma sends_pendingNames l : sends (pendingNames l).
Proof. induction l as [|h l IH]; cbn [pendingNames]; sd. exact IH. Qed.
Lemma sends_positive neg l : sends (positiveNames mmh users l neg).
Proof. induction l as [|h l IH]; cbn [positiveNames]; unfold isNotFutureHash; sd. all: exact IH. Qed.
Lemma sends_satisfy1 x : sends (satisfy1 mmh compress fuel n syncPrefix x).
Proof. unfold satisfy1. sd; try apply sends_pendingNames; apply sends_data. Qed.
Lemma sends_satisfy : sends (satisfyPendingInterests mmh compress fuel n syncPrefix).
Proof. unfold satisfyPendingInterests. apply sends_bind; [sd|]. intro s. induction (dkeys (s_pending s)) as [|x l IH]; cbn [each]; [sd|]. apply sends_bind; [apply sends_satisfy1|]. intro. exact IH. Qed.
Lemma sends_onInterest f p x : sends (onSyncInterest mmh compress decompress fuel n syncPrefix users f p x).
Proof. unfold onSyncInterest. sd; try apply sends_positive; try apply sends_data; apply sends_out; discriminate. Qed.
Lemma quiet_insert x : quiet (insertIntoIblt mmh x).
Proof. unfold insertIntoIblt. qt. Qed.
Lemma quiet_remove x : quiet (removeName mmh x).
Proof. unfold removeName. qt. Qed.
Lemma quiet_receive l : quiet (receive mmh users l).
Proof. induction l as [|x l IH]; cbn [receive]; unfold canAddReceivedName; qt; try apply quiet_insert; try apply quiet_remove; try exact IH. Qed.
Lemma final_publish x : final (publishName mmh compress fuel n syncPrefix x).
Proof.
  unfold publishName. apply quiet_then; [qt|]. intro s. destruct (din n_equals (s_n2h s) x); [apply quiet_final; qt|]. apply quiet_then; [apply quiet_insert|]. intro. apply sends_final, sends_satisfy.
Qed.
Lemma sends_updates l : sends (updates l).
Proof. induction l as [|x l IH]; cbn [updates]; sd. exact IH. Qed.
Lemma final_act e : final (act mmh compress decompress fuel n syncPrefix users e).
Proof.
  destruct e as [p|p|p q|x|x|f p x|i c| |x e]; cbn [act].
  - apply quiet_final. unfold addUserNode. qt.
  - apply quiet_final. unfold removeUserNode. qt.
  - unfold publishUser. apply quiet_then; [qt|]. intro s. destruct (dget n_equals (s_prefixes s) p) as [old|]; [|apply quiet_final; qt]. apply quiet_then; [unfold updateSequenceNo; qt; apply quiet_remove|]. intro ok. destruct ok; [|apply quiet_final; qt]. apply quiet_then; [qt|]. intro. apply final_publish.
  - apply final_publish.
  - apply quiet_final, quiet_remove.
  - apply sends_final, sends_onInterest.
  - unfold onSyncData. apply quiet_then; [unfold deletePendingInterests; qt|]. intro. apply quiet_then; [apply quiet_receive|]. intro names. destruct (0 <? zlen names); [|apply quiet_final; qt]. apply sends_final. apply sends_bind; [|intro; apply sends_interest].
    intro s. cbn [fst]. unfold onNamesUpdate. destruct users; [apply (sends_bind (updates names)); [apply sends_updates|intro; apply sends_out; discriminate]|apply (sends_out (LNames names)); discriminate].
  - apply sends_final, sends_interest.
  - apply quiet_final. unfold delayedRemove. qt.
Qed.
Transparent sendSyncInterest sendSyncData.
End I.
Theorem C36_interest : forall mmh compress decompress fuel n syncPrefix users s e,
  let s' := step mmh compress decompress fuel n syncPrefix users s e in
  exists ext, s_log s' = s_log s ++ ext /\ forall x, In (LInterest x) ext -> x = syncPrefix ++ [c_generic (encode compress (s_iblt s'))].
Proof. intros. apply final_act. Qed.

(** ** FullPSync2017 by itself *)
Section Plain.
Variables (mmh : Z -> bytes -> Z) (compress : bytes -> bytes) (decompress : bytes -> res bytes) (fuel : nat) (n : Z) (syncPrefix : name).
Variable U : name -> Prop.
Hypothesis HV : forall x, U x -> Forall c_valid x.
Hypothesis HI : forall x y, U x -> U y -> hash mmh x = hash mmh y -> x = y.
Notation tables := (tables mmh n U).
Lemma core_tables s s' : core s' = core s -> tables s -> tables s' /\ dkeys (s_n2h s') = dkeys (s_n2h s).
Proof. intros E T. apply core_eq in E. destruct E as (_ & E1 & E2 & E3). split; [eapply same_tables; eassumption|now rewrite E1]. Qed.
Lemma receive_plain : forall c s, tables s -> Forall U c -> exists s' l, receive mmh false c s = (s', Ok l) /\ tables s' /\ forall x, In x (dkeys (s_n2h s')) <-> In x (dkeys (s_n2h s)) \/ In x c.
Proof.
  induction c as [|x c IH]; intros s T Hc; [exists s, []; split; [reflexivity|]; split; [exact T|]; cbn; tauto|]. inversion Hc as [|? ? Hx Hc']; subst. cbn [receive]. unfold bind at 1, get at 1.
  pose proof (din_iff n_equals U (Ueq U HV) (s_n2h s) x (t_dom _ _ _ _ T) Hx) as D. destruct (din n_equals (s_n2h s) x); cbn [negb].
  - destruct (IH s T Hc') as (s' & l & E & T' & K). rewrite E. exists s', l. split; [reflexivity|]. split; [exact T'|]. intro y. rewrite K. cbn [In]. split; [tauto|]. intros [H|[<-|H]]; auto. left. now apply D.
  - unfold bind at 1. cbn [ret]. destruct (insert_ok mmh n U HV HI s x T Hx) as (s1 & E1 & T1 & _ & K1); [intro H; apply D in H; discriminate|]. unfold bind at 1. rewrite E1. unfold bind at 1. destruct (IH s1 T1 Hc') as (s' & l & E & T' & K). rewrite E. cbn [ret]. eexists _, _. split; [reflexivity|]. split; [exact T'|].
    intro y. rewrite K, K1, in_app_iff. cbn [In]. tauto.
Qed.
Lemma plain_act s e : tables s -> plain U e -> exists s' r, act mmh compress decompress fuel n syncPrefix false e s = (s', r) /\
  tables s' /\ forall x, In x (dkeys (s_n2h s')) <-> names_after [e] x (In x (dkeys (s_n2h s))).
Proof.
  assert (KP : forall (m : M unit), keeps m -> tables s -> exists s' r, m s = (s', r) /\ tables s' /\ forall x, In x (dkeys (s_n2h s')) <-> In x (dkeys (s_n2h s))).
  { intros m Hk T. destruct (m s) as [s' r] eqn:E. destruct (core_tables s s') as [T2 K2]; [rewrite <- (Hk s), E; reflexivity|exact T|]. exists s', r. rewrite K2. split; [reflexivity|]. split; [exact T2|tauto]. }
  intros T W. destruct e as [p|p|p q|x|x|f p x|i c| |x e]; cbn [plain act names_after] in *; try contradiction.
  - unfold publishName. unfold bind at 1, get at 1. pose proof (din_iff n_equals U (Ueq U HV) (s_n2h s) x (t_dom _ _ _ _ T) W) as D. destruct (din n_equals (s_n2h s) x).
    + eexists _, _. split; [reflexivity|]. split; [exact T|]. intro y. split; [tauto|]. intros [H|<-]; [exact H|now apply D].
    + destruct (insert_ok mmh n U HV HI s x T W) as (s1 & E1 & T1 & _ & K1); [intro H; apply D in H; discriminate|]. unfold bind. rewrite E1. destruct (satisfyPendingInterests mmh compress fuel n syncPrefix s1) as [s2 r2] eqn:E2.
      destruct (core_tables s1 s2) as [T2 K2]; [rewrite <- (keeps_satisfy mmh compress fuel n syncPrefix s1), E2; reflexivity|exact T1|]. exists s2, r2. split; [reflexivity|]. split; [exact T2|]. intro y. rewrite K2, K1, in_app_iff. cbn [In]. split; [intros [H|[H|[]]]; auto|intros [H|H]; auto].
  - destruct (remove_ok mmh n U HV HI s x T W) as (s1 & E1 & T1 & _ & K1). rewrite E1. eexists _, _. split; [reflexivity|]. split; [exact T1|]. intro y. rewrite (K1 y). split; intros [H1 H2]; split; auto.
  - apply KP; [apply keeps_onSyncInterest|exact T].
  - unfold onSyncData. unfold bind at 1. pose proof (keeps_delete i s) as K. assert (Hdel : exists s0, deletePendingInterests i s = (s0, Ok tt)).
    { unfold deletePendingInterests, bind, get. destruct (dget n_equals (s_pending s) i) as [e|] eqn:G; [|exists s; auto]. unfold set_removed, put, lift, ddel, din. rewrite G. eexists. reflexivity. }
    destruct Hdel as (s0 & E0). rewrite E0 in *. cbn [fst] in K. destruct (core_tables s s0 K T) as [T0 K0]. destruct (receive_plain c s0 T0 W) as (s1 & l & E1 & T1 & K1). unfold bind at 1. rewrite E1.
    destruct (0 <? zlen l).
    + unfold sendSyncInterest, bind, onNamesUpdate, get, set_outstanding, out, put. cbn [fst]. eexists _, _. split; [reflexivity|]. split; [apply (same_tables mmh n U s1); [reflexivity|reflexivity|reflexivity|exact T1]|]. intro y. cbn. rewrite K1, K0. tauto.
    + eexists _, _. split; [reflexivity|]. split; [exact T1|]. intro y. rewrite K1, K0. tauto.
  - apply KP; [apply keeps_sendSyncInterest|exact T].
  - apply KP; [apply keeps_delayed|exact T].
Qed.
Lemma plain_step s e : tables s -> plain U e -> let s' := step mmh compress decompress fuel n syncPrefix false s e in
  tables s' /\ forall x, In x (dkeys (s_n2h s')) <-> names_after [e] x (In x (dkeys (s_n2h s))).
Proof. intros T W. cbn zeta. unfold step. destruct (plain_act s e T W) as (s' & r & E & H). rewrite E. exact H. Qed.
Lemma names_after_iff : forall es x Q R, (Q <-> R) -> (names_after es x Q <-> names_after es x R).
Proof. induction es as [|e es IH]; intros x Q R H; [exact H|]. destruct e; cbn [names_after]; apply IH; tauto. Qed.
Lemma names_after_cons e es x Q : names_after (e :: es) x Q <-> names_after es x (names_after [e] x Q).
Proof. destruct e; cbn [names_after]; tauto. Qed.
Lemma plain_run : forall es s, tables s -> Forall (plain U) es -> let s' := fold_left (step mmh compress decompress fuel n syncPrefix false) es s in
  tables s' /\ forall x, In x (dkeys (s_n2h s')) <-> names_after es x (In x (dkeys (s_n2h s))).
Proof.
  induction es as [|e es IH]; intros s T W; [split; [exact T|reflexivity]|]. inversion W as [|? ? We Wes]; subst. cbn [fold_left]. destruct (plain_step s e T We) as [T1 K1]. destruct (IH _ T1 Wes) as [T2 K2]. split; [exact T2|]. intro x. rewrite K2, names_after_cons. apply names_after_iff. apply K1.
Qed.
End Plain.
(** The table of FullPSync2017 has exactly the names published or received and not removed since. *)
Theorem C36_plain : forall mmh compress decompress fuel n syncPrefix (U : name -> Prop) es, (forall x, U x -> Forall c_valid x) -> (forall x y, U x -> U y -> hash mmh x = hash mmh y -> x = y) -> 0 < n ->
  Forall (plain U) es -> exists l, NoDup l /\ (forall x, In x l <-> names_after es x False) /\
    IbltModel.run mmh (new n) (inserts (map (hash mmh) l)) = Ok (s_iblt (run mmh compress decompress fuel n syncPrefix false es)).
Proof.
  intros mmh compress decompress fuel n sp U es HV HI Hn W. set (s0 := start compress n sp). assert (T0 : tables mmh n U s0).
  { destruct (new_sized n Hn) as [[Hb _] E]. split; [constructor|constructor|intros ? ? []|constructor|intros; cbn; tauto|]. cbn. rewrite E. apply holds_new. exact Hb. }
  destruct (plain_run mmh compress decompress fuel n sp U HV HI es s0 T0 W) as [T K]. fold (run mmh compress decompress fuel n sp false es) in *. exists (dkeys (s_n2h (fold_left (step mmh compress decompress fuel n sp false) es s0))). split; [apply (t_uniq _ _ _ _ T)|]. split; [exact K|].
  eapply tables_build; [exact Hn|exact T|apply (t_uniq _ _ _ _ T)|tauto].
Qed.

(** ** The hypotheses hold *)
Definition ex_a : name := [c_generic [97]].
Definition ex_b : name := [c_generic [98]].
Definition ex_P (p : name) : Prop := p = ex_a \/ p = ex_b.
Definition id_ok (b : bytes) : res bytes := Ok b.
Lemma ex_group : group ex_mmh ex_P 4.
Proof.
  split; [|lia|].
  - intros p [->| ->]; (constructor; [|constructor]); (split; [constructor; [unfold is_byte; lia|constructor]|right; cbn; auto]).
  - intros p q p' q' Hp Hp' Hq Hq' E. assert (Hc : q = 1 \/ q = 2 \/ q = 3 \/ q = 4) by lia. assert (Hc' : q' = 1 \/ q' = 2 \/ q' = 3 \/ q' = 4) by lia. clear Hq Hq'.
    destruct Hp as [->| ->], Hp' as [->| ->], Hc as [->|[->|[->| ->]]], Hc' as [->|[->|[->| ->]]]; try reflexivity; vm_compute in E; discriminate.
Qed.
Definition ex_events : list event := [EAdd ex_a; EPublish ex_a (-1); EPublish ex_a 3; EInterest false [] [c_generic [1]]; EData [] [entry ex_b 2]; EPublish ex_a 2].
Definition ex_run (es : list event) : state := fold_left (step ex_mmh (fun b => b) id_ok 5 10 [] true) es (start (fun b => b) 10 []).
Lemma ex_reach : forall k, reach ex_mmh (fun b => b) id_ok 5 10 [] ex_P 4 (ex_run (firstn k ex_events)).
Proof.
  assert (A : ex_P ex_a) by now left. assert (B : ex_P ex_b) by now right.
  assert (S : forall es e, reach ex_mmh (fun b => b) id_ok 5 10 [] ex_P 4 (ex_run es) -> wf ex_P 4 (ex_run es) e -> reach ex_mmh (fun b => b) id_ok 5 10 [] ex_P 4 (ex_run (es ++ [e]))) by (intros es e R W; unfold ex_run; rewrite fold_left_app; now apply R_step).
  assert (R0 : reach ex_mmh (fun b => b) id_ok 5 10 [] ex_P 4 (ex_run [])) by constructor.
  assert (R1 := S _ (EAdd ex_a) R0 A). assert (R2 := S _ (EPublish ex_a (-1)) R1 ltac:(split; [exact A|split; [lia|intros _; vm_compute; reflexivity]])). assert (R3 := S _ (EPublish ex_a 3) R2 ltac:(split; [exact A|split; [lia|lia]])).
  assert (R4 := S _ (EInterest false [] [c_generic [1]]) R3 Logic.I). assert (R5 := S _ (EData [] [entry ex_b 2]) R4 ltac:(exists [(ex_b, 2)]; split; [reflexivity|]; split; [repeat constructor; intros []|constructor; [cbn; split; [exact B|lia]|constructor]])). assert (R6 := S _ (EPublish ex_a 2) R5 ltac:(split; [exact A|split; [lia|lia]])).
  intro k. destruct k as [|[|[|[|[|[|k]]]]]]; [exact R0|exact R1|exact R2|exact R3|exact R4|exact R5|]. cbn [firstn ex_events]. rewrite firstn_nil. exact R6.
Qed.
Example C36_example : getSequenceNo (ex_run ex_events) ex_a = 3 /\ getSequenceNo (ex_run ex_events) ex_b = 2 /\
  IbltModel.run ex_mmh (new 10) (inserts [hash ex_mmh (entry ex_b 2); hash ex_mmh (entry ex_a 3)]) = Ok (s_iblt (ex_run ex_events)) /\
  exists us, In (LUpdate us) (s_log (ex_run ex_events)) /\ us = [(ex_b, 1, 2)].
Proof. split; [vm_compute; reflexivity|]. split; [vm_compute; reflexivity|]. split; [vm_compute; reflexivity|]. eexists. split; [vm_compute; right; left; reflexivity|reflexivity]. Qed.

(** The hypotheses of C36_exchange hold for the node above and a new node. *)
Lemma ex_exchange : let a := ex_run ex_events in let b := ex_run [] in let hA := [hash ex_mmh (entry ex_b 2); hash ex_mmh (entry ex_a 3)] in
  (forall p, ex_P p -> getSequenceNo a p < 4) /\ missing ex_mmh ex_P a b hA /\ missing ex_mmh ex_P b a [] /\ no_collision ex_mmh (inserts hA ++ erases []) /\ sized 5 (new 10) /\
  peelable ex_mmh 5 (inserts hA ++ erases []) /\ (length hA + length (@nil Z) < 5)%nat.
Proof.
  cbn zeta. assert (SA : getSequenceNo (ex_run ex_events) ex_a = 3) by (vm_compute; reflexivity). assert (SB : getSequenceNo (ex_run ex_events) ex_b = 2) by (vm_compute; reflexivity).
  assert (NS : forall p, getSequenceNo (ex_run []) p = -1) by reflexivity.
  set (k1 := hash ex_mmh (entry ex_b 2)). set (k2 := hash ex_mmh (entry ex_a 3)). assert (K : k1 <> k2) by (vm_compute; discriminate).
  split; [intros p [->| ->]; lia|]. split; [split|split; [split|]].
  - constructor; [intros [E|[]]; congruence|]. constructor; [intros []|constructor].
  - intro h. cbn [In]. split.
    + intros [<-|[<-|[]]]; [exists ex_b; rewrite SB, NS; split; [now right|]|exists ex_a; rewrite SA, NS; split; [now left|]]; split; [lia|split; [lia|reflexivity]|lia|split; [lia|reflexivity]].
    + intros (p & [->| ->] & _ & _ & ->); [rewrite SA; right; now left|rewrite SB; now left].
  - constructor.
  - intro h. cbn [In]. split; [intros []|]. intros (p & _ & H & _). rewrite NS in H. lia.
  - split; [|split; [split; vm_compute; reflexivity|split; [|cbn; lia]]].
    + intro f. cbn [inserts erases map app filter]. destruct (f (1, k1)), (f (1, k2)); (split; [intros Sg C|intros Sg X C]); try (vm_compute in Sg; lia); try reflexivity; eauto; try (exfalso; vm_compute in Sg; destruct Sg; discriminate); try (exfalso; vm_compute in Sg; discriminate).
    + cbn [inserts erases map app]. apply (Peel_step ex_mmh 5 [] (1, k1) [(1, k2)] 0).
      * exists 0. split; [lia|]. vm_compute. reflexivity.
      * intros y [<-|[]] (i & Hi & E). assert (Hc : i = 0 \/ i = 1 \/ i = 2) by lia. destruct Hc as [->|[->| ->]]; vm_compute in E; discriminate.
      * apply (Peel_step ex_mmh 5 [] (1, k2) [] 2); [exists 0; split; [lia|vm_compute; reflexivity]|intros y []|constructor].
Qed.

(** ** Received sync data that puts the sequence numbers and the table out of step *)
(** Sequence number 0 is put in the table when it is received, and stays there. *)
Theorem C36_zero_refuted : let s := ex_run [EData [] [entry ex_b 0]; EPublish ex_b 1] in
  getSequenceNo s ex_b = 1 /\ IbltModel.run ex_mmh (new 10) (inserts [hash ex_mmh (entry ex_b 0); hash ex_mmh (entry ex_b 1)]) = Ok (s_iblt s) /\ ~ in_step ex_mmh 10 ex_P 4 s.
Proof.
  split; [vm_compute; reflexivity|]. split; [vm_compute; reflexivity|]. intros (l & N & H & R).
  assert (E : l = [(ex_b, 1)]).
  { assert (X : forall x, In x l <-> x = (ex_b, 1)). { intros [p q]. rewrite (H p q). split.
      - intros ([->| ->] & <- & Hq); [vm_compute in Hq; discriminate|vm_compute; reflexivity].
      - intro E. injection E as -> ->. split; [now right|]. split; [vm_compute; reflexivity|lia]. }
    destruct l as [|x [|y l]]; [exfalso; apply (X (ex_b, 1)); reflexivity|f_equal; apply X; now left|].
    exfalso. inversion N as [|? ? N1 N2]; subst. apply N1. left. rewrite (proj1 (X x)) by (left; reflexivity). apply X. right. now left. }
  subst l. vm_compute in R. discriminate.
Qed.
(** The same prefix twice in one reply: the last one wins, even if it is lower, and both stay in the table. *)
Theorem C36_twice_refuted : let s := ex_run [EData [] [entry ex_b 3; entry ex_b 2]] in
  getSequenceNo s ex_b = 2 /\ IbltModel.run ex_mmh (new 10) (inserts [hash ex_mmh (entry ex_b 3); hash ex_mmh (entry ex_b 2)]) = Ok (s_iblt s).
Proof. split; vm_compute; reflexivity. Qed.
(** A number that is not encoded in the shortest way is not removed from the table when it is superseded. *)
Theorem C36_encoding_refuted : let x := ex_b ++ [c_generic [0; 2]] in let s := ex_run [EData [] [x]; EData [] [entry ex_b 3]] in
  getSequenceNo s ex_b = 3 /\ IbltModel.run ex_mmh (new 10) (inserts [hash ex_mmh x; hash ex_mmh (entry ex_b 3)]) = Ok (s_iblt s).
Proof. split; vm_compute; reflexivity. Qed.
(** An empty name in the reply raises an exception after the names before it went into the table; they
    are never reported to the application, not even when they are received again. *)
Theorem C36_empty_refuted : let s := ex_run [EData [] [entry ex_b 2; []]; EData [] [entry ex_b 2]] in
  getSequenceNo s ex_b = -1 /\ IbltModel.run ex_mmh (new 10) (inserts [hash ex_mmh (entry ex_b 2)]) = Ok (s_iblt s) /\
  snd (act ex_mmh (fun b => b) id_ok 5 10 [] true (EData [] [entry ex_b 2; []]) (start (fun b => b) 10 [])) = Err IndexError /\ forall us, ~ In (LUpdate us) (s_log s).
Proof. split; [vm_compute; reflexivity|]. split; [vm_compute; reflexivity|]. split; [vm_compute; reflexivity|]. intros us H. vm_compute in H. destruct H as [H|[]]. discriminate. Qed.
Print Assumptions C36_in_step.
Print Assumptions C36_sequence.
Print Assumptions C36_monotone.
Print Assumptions C36_update.
Print Assumptions C36_exchange.
Print Assumptions C36_interest.
Print Assumptions C36_plain.
Print Assumptions C36_zero_refuted.
Print Assumptions C36_twice_refuted.
Print Assumptions C36_encoding_refuted.
Print Assumptions C36_empty_refuted.
