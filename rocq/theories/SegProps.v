(** * Properties C32 (segment fetcher) and C33 (PSync segment publisher) *)
From Verif Require Import Base BaseLemmas TlvModel TlvSpec TlvProofs TlvEncProofs NameModel NameSpec NameProofs WireModel MatchProps SegModel SegSpec ListAux SegProofs.
From Coq Require Import Lia.
Local Open Scope res_scope.

(** ** C32 *)
(** onComplete and onError are called at most once in total, *)
Theorem C32_once : forall kc base os, (length (filter is_terminal (s_log (run kc (start base) os))) <= 1)%nat.
Proof. intros kc base os. destruct (inv_run kc base os) as (ds & I). pose proof (v_wait _ _ _ _ _ I) as H. unfold cnt in H. destruct (s_wait _); lia. Qed.
(** nothing happens after that, *)
Theorem C32_stops : forall kc base os1 os2, existsb is_terminal (s_log (run kc (start base) os1)) = true ->
  s_log (run kc (start base) (os1 ++ os2)) = s_log (run kc (start base) os1).
Proof.
  intros kc base os1 os2 H. destruct (inv_run kc base os1) as (ds & I). pose proof (v_wait _ _ _ _ _ I) as Hw.
  assert (En : s_wait (run kc (start base) os1) = None).
  { destruct (s_wait _); [|reflexivity]. apply existsb_exists in H. destruct H as (e & Hi & He). pose proof (cnt_pos _ _ _ Hi He). lia. }
  unfold run at 1. rewrite fold_left_app. fold (run kc (start base) os1). induction os2 as [|o os2 IH]; [reflexivity|]. cbn [fold_left]. unfold step at 2. rewrite En. destruct o; exact IH.
Qed.
(** and before that the fetcher waits for an answer or a verification, unless an exception was raised. *)
Theorem C32_waits : forall kc base os, existsb (fun e => is_terminal e || is_raise e) (s_log (run kc (start base) os)) = false <-> s_wait (run kc (start base) os) <> None.
Proof.
  intros kc base os. destruct (inv_run kc base os) as (ds & I). pose proof (v_wait _ _ _ _ _ I) as Hw. split.
  - intros H E. rewrite E in Hw. assert (K : forall e, In e (s_log (run kc (start base) os)) -> is_terminal e || is_raise e = false).
    { intros e He. destruct (is_terminal e || is_raise e) eqn:X; [|reflexivity]. assert (Y : existsb (fun e => is_terminal e || is_raise e) (s_log (run kc (start base) os)) = true) by (apply existsb_exists; eauto). congruence. }
    rewrite (cnt_zero_of is_terminal), (cnt_zero_of is_raise) in Hw; [discriminate|..]; intros e He; specialize (K e He); apply orb_false_elim in K; tauto.
  - intro E. destruct (s_wait _); [|congruence]. destruct (existsb _ _) eqn:X; [|reflexivity]. apply existsb_exists in X. destruct X as (e & Hi & He).
    apply orb_prop in He. destruct He as [He|He]; pose proof (cnt_pos _ _ _ Hi He); lia.
Qed.
(** The content given to onComplete is the concatenation of segments 0, 1, ... in order, each an
    accepted packet, up to the first one whose FinalBlockId names itself. *)
Theorem C32_content : forall kc base os b, In (LComplete b) (s_log (run kc (start base) os)) ->
  exists ds d, all_content (ds ++ [d]) b /\ final_of d (zlen ds) /\
    (forall k d', nth_error (ds ++ [d]) k = Some d' -> segment_of d' (Z.of_nat k) /\ accepted kc base os d') /\
    (forall k d', nth_error ds k = Some d' -> ~ final_of d' (Z.of_nat k)).
Proof.
  intros kc base os b H. destruct (inv_run kc base os) as (ds & I). destruct (v_complete _ _ _ _ _ I b H) as (Ha & ds' & d & -> & Hf & Hn).
  exists ds', d. split; [exact Ha|]. split; [exact Hf|]. split; [apply I|exact Hn].
Qed.
(** Each interest after the first asks for a segment with the name of an accepted packet up to its last component. *)
Theorem C32_interests : forall kc base os j, In (LExpress j) (s_log (run kc (start base) os)) ->
  (i_name j = i_name base /\ i_child j = Some 1 /\ i_mustBeFresh j = true) \/
  exists d c k, accepted kc base os d /\ 0 <= k /\ i_name j = removelast (d_name d) ++ [c] /\ (k < 2 ^ 64 -> is_segment c k) /\ i_child j = Some 0 /\ i_mustBeFresh j = false.
Proof.
  intros kc base os j H. destruct (inv_run kc base os) as (ds & I). destruct (v_express _ _ _ _ _ I j H) as [->|(i & d & k & Ha & Hk & Hj)]; [left; auto|right].
  destruct (nextInterest_ok i (d_name d) k Hk) as (c & E & Ec). rewrite E in Hj. injection Hj as <-. exists d, c, k. split; [exact Ha|]. split; [exact Hk|]. split; [reflexivity|].
  split; [|auto]. intro Hk'. unfold c_fromSegment in Ec. rewrite c_fromMarker_ok in Ec; [|exact Hk|unfold is_byte, MARK_SEGMENT; lia]. injection Ec as <-.
  split; [reflexivity|]. exists (nonneg k). split; [reflexivity|]. rewrite nonneg_value by exact Hk. apply Z.mod_small. lia.
Qed.
Lemma segment_unique d j k : segment_of d j -> segment_of d k -> j = k.
Proof. intros (p & c & E & _ & v & Ev & <-) (p' & c' & E' & _ & v' & Ev' & <-). rewrite E in E'. apply app_inj_tail in E'. destruct E' as [_ <-]. congruence. Qed.
Lemma final_unique d j k : final_of d j -> final_of d k -> j = k.
Proof. intros (v & Ev & <-) (v' & Ev' & <-). congruence. Qed.
Lemma not_final_spec d k : not_final d k -> ~ final_of d k /\ (c_value (mi_final (d_meta d)) <> [] -> exists m, final_of d m).
Proof.
  intros [H|(m & Hm & H)]; split.
  - intros (v & E & _). congruence.
  - congruence.
  - intro K. apply Hm. eapply final_unique; eassumption.
  - eauto.
Qed.
(** One step with the awaited segment which is not the last. *)
Lemma fetch_one s i d b bs : s_parts s = map Some bs -> s_wait s = Some (WInterest i) -> d_content d = Some b -> segment_of d (zlen bs) -> not_final d (zlen bs) ->
  exists j, step false s (FData d (Ok true)) = express (State (map Some (bs ++ [b])) (s_wait s) (s_log s)) j /\ nextInterest i (d_name d) (zlen bs + 1) = Ok j.
Proof.
  intros Ep Ew Ec Hs Hn. assert (Ez : zlen (s_parts s) = zlen bs) by (rewrite Ep; apply zlen_map). apply not_final_spec in Hn. destruct Hn as [Hn1 Hn2].
  unfold step. rewrite Ew. assert (Em : s_parts s ++ [d_content d] = map Some (bs ++ [b])) by (rewrite map_app, Ep, Ec; reflexivity).
  destruct (onVerified_step s d i) as [K|k s' K1 K2 _|K1 K2 K3|b1 K1 K2 K3|x K1 K2 K3|s' K1 K2 ->]; rewrite ?Ez in *.
  - edestruct K; eassumption.
  - exfalso. apply K2. eapply segment_unique; eassumption.
  - destruct (Hn2 K2) as (m & Hm). edestruct K3; eassumption.
  - contradiction.
  - contradiction.
  - rewrite Em, Ew. apply fetchNext_ok. pose proof (zlen_nonneg _ bs). lia.
Qed.
Lemma fetch_last s i d b bs : s_parts s = map Some bs -> s_wait s = Some (WInterest i) -> d_content d = Some b -> segment_of d (zlen bs) -> final_of d (zlen bs) ->
  s_log (step false s (FData d (Ok true))) = s_log s ++ [LComplete (concat (bs ++ [b]))].
Proof.
  intros Ep Ew Ec Hs Hf. assert (Ez : zlen (s_parts s) = zlen bs) by (rewrite Ep; apply zlen_map).
  unfold step. rewrite Ew. assert (Em : s_parts s ++ [d_content d] = map Some (bs ++ [b])) by (rewrite map_app, Ep, Ec; reflexivity).
  assert (Eco : concat_parts (s_parts s ++ [d_content d]) = Ok (concat (bs ++ [b]))) by (apply concat_parts_iff; exists (bs ++ [b]); auto).
  destruct (onVerified_step s d i) as [K|k s' K1 K2 _|K1 K2 K3|b1 K1 K2 K3|x K1 K2 K3|s' K1 K2 _]; rewrite ?Ez in *.
  - edestruct K; eassumption.
  - exfalso. apply K2. eapply segment_unique; eassumption.
  - edestruct K3; eassumption.
  - rewrite K3 in Eco. injection Eco as ->. reflexivity.
  - congruence.
  - contradiction.
Qed.
Definition feed (ds : list data) : list op := map (fun d => FData d (Ok true)) ds.
Lemma fetch_many : forall ds s i bs bs', s_parts s = map Some bs -> s_wait s = Some (WInterest i) -> map d_content ds = map Some bs' ->
  (forall k d, nth_error ds k = Some d -> segment_of d (zlen bs + Z.of_nat k) /\ not_final d (zlen bs + Z.of_nat k)) ->
  exists i' l, s_parts (run false s (feed ds)) = map Some (bs ++ bs') /\ s_wait (run false s (feed ds)) = Some (WInterest i') /\ s_log (run false s (feed ds)) = s_log s ++ map LExpress l /\ length l = length ds /\
    (ds <> [] -> exists i0 d0, last ds d0 = d0 /\ In d0 ds /\ nextInterest i0 (d_name d0) (zlen bs + zlen ds) = Ok i') /\ (ds = [] -> i' = i).
Proof.
  induction ds as [|d ds IH]; intros s i bs bs' Ep Ew Ec Hs.
  - destruct bs'; [|discriminate]. exists i, []. cbn. rewrite !app_nil_r. repeat split; auto. congruence.
  - destruct bs' as [|b bs']; [discriminate|]. cbn [map] in Ec. injection Ec as Ec Ec'.
    destruct (Hs 0%nat d eq_refl) as [H1 H2]. rewrite Z.add_0_r in H1, H2. destruct (fetch_one s i d b bs Ep Ew Ec H1 H2) as (j & Ej & Hj).
    set (s1 := express (State (map Some (bs ++ [b])) (s_wait s) (s_log s)) j).
    assert (Er : run false s (feed (d :: ds)) = run false s1 (feed ds)) by (unfold run, feed; cbn [map fold_left]; rewrite Ej; reflexivity). rewrite Er.
    destruct (IH s1 j (bs ++ [b]) bs') as (i' & l & R1 & R2 & R3 & R4 & R5 & R6); [reflexivity|reflexivity|exact Ec'| |].
    + intros k d' Hk. destruct (Hs (S k) d' Hk) as [K1 K2]. rewrite zlen_app, zlen_cons, zlen_nil. replace (zlen bs + (1 + 0) + Z.of_nat k) with (zlen bs + Z.of_nat (S k)) by lia. auto.
    + exists i', (j :: l). rewrite R1, R2, R3, <- !app_assoc. split; [reflexivity|]. split; [reflexivity|].
      split; [cbn [express s_log s1 map]; unfold s1; cbn [express s_log]; rewrite <- app_assoc; reflexivity|]. split; [cbn; now rewrite R4|].
      split; [|discriminate]. intros _. destruct ds as [|d1 ds].
      * rewrite (R6 eq_refl). exists i, d. split; [reflexivity|]. split; [now left|]. rewrite !zlen_cons, zlen_nil. replace (zlen bs + (1 + 0)) with (zlen bs + 1) by lia. exact Hj.
      * destruct R5 as (i0 & d0 & L & Hin & Hn); [discriminate|]. exists i0, d0. split; [exact L|]. split; [now right|].
        rewrite zlen_app, (zlen_cons _ b), zlen_nil in Hn. rewrite (zlen_cons _ d). replace (zlen bs + (1 + zlen (d1 :: ds))) with (zlen bs + (1 + 0) + zlen (d1 :: ds)) by lia. exact Hn.
Qed.
(** Fed with segments 0 to n, of which only the last one has a FinalBlockId naming itself, the fetcher completes. *)
Theorem C32_completes : forall base ds d bs, map d_content (ds ++ [d]) = map Some bs ->
  (forall k d', nth_error (ds ++ [d]) k = Some d' -> segment_of d' (Z.of_nat k)) ->
  (forall k d', nth_error ds k = Some d' -> not_final d' (Z.of_nat k)) -> final_of d (zlen ds) ->
  In (LComplete (concat bs)) (s_log (run false (start base) (map (fun d => FData d (Ok true)) (ds ++ [d])))).
Proof.
  intros base ds d bs Ec Hs Hn Hf. rewrite map_app in Ec. cbn [map] in Ec.
  assert (Hb : exists bs1 b, bs = bs1 ++ [b]).
  { destruct bs as [|b0 bs0 _] using rev_ind; [destruct ds; discriminate|eauto]. }
  destruct Hb as (bs1 & b & ->). rewrite map_app in Ec. cbn [map] in Ec. apply app_inj_tail in Ec. destruct Ec as [Ec1 Ec2].
  destruct (fetch_many ds (start base) (firstInterest base) [] bs1) as (i' & l & R1 & R2 & R3 & R4 & _); [reflexivity|reflexivity|exact Ec1| |].
  - intros k d' Hk. rewrite zlen_nil, Z.add_0_l. split; [apply Hs; rewrite nth_error_app1; [exact Hk|apply nth_error_Some; congruence]|now apply Hn].
  - rewrite map_app. cbn [map]. rewrite run_snoc. fold (feed ds). cbn [app] in R1.
    assert (El : zlen ds = zlen bs1) by (rewrite <- (zlen_map _ _ d_content ds), Ec1, zlen_map; reflexivity).
    rewrite (fetch_last _ i' d b bs1 R1 R2 Ec2).
    + apply in_or_app. right. now left.
    + rewrite <- El. unfold zlen. apply Hs. rewrite nth_error_app2, Nat.sub_diag by lia. reflexivity.
    + rewrite <- El. exact Hf.
Qed.

(** What is reported: a time-out, a failed verification, or a packet which is not a segment (or
    whose FinalBlockId is not a segment). *)
Theorem C32_errors : forall kc base os o e, s_log (run kc (start base) (os ++ [o])) = s_log (run kc (start base) os) ++ [LError e] ->
  match e with
  | INTEREST_TIMEOUT => o = FTimeout
  | SEGMENT_VERIFICATION_FAILED => o = FFailed \/ exists d, o = FData d (Ok false)
  | DATA_HAS_NO_SEGMENT => exists d, accepted kc base (os ++ [o]) d /\
      ((forall k, ~ segment_of d k) \/ (c_value (mi_final (d_meta d)) <> [] /\ forall m, ~ final_of d m))
  end.
Proof.
  intros kc base os o e H. rewrite run_snoc in H. set (s := run kc (start base) os) in *.
  assert (V : forall d i, accepted kc base (os ++ [o]) d -> s_log (onVerified s d i) = s_log s ++ [LError e] ->
    e = DATA_HAS_NO_SEGMENT /\ exists d, accepted kc base (os ++ [o]) d /\ ((forall k, ~ segment_of d k) \/ (c_value (mi_final (d_meta d)) <> [] /\ forall m, ~ final_of d m))).
  { intros d i Ha. destruct (onVerified_step s d i) as [K|k s' K1 K2 K3|K1 K2 K3|b1 K1 K2 K3|x K1 K2 K3|s' K1 K2 K3]; intro L.
    - cbn [finish s_log] in L. apply app_inj_tail in L. destruct L as [_ L]. injection L as <-. split; [reflexivity|]. exists d. split; [exact Ha|]. left. exact K.
    - exfalso. rewrite K3 in L. destruct (fetchNext_ok s i (d_name d) (zlen (s_parts s)) (zlen_nonneg _ _)) as (j & Ej & _). rewrite Ej in L. cbn [express s_log] in L. apply app_inj_tail in L. destruct L as [_ L]. discriminate.
    - cbn [finish s_log] in L. apply app_inj_tail in L. destruct L as [_ L]. injection L as <-. split; [reflexivity|]. exists d. split; [exact Ha|]. right. auto.
    - exfalso. cbn [finish s_log] in L. apply app_inj_tail in L. destruct L as [_ L]. discriminate.
    - exfalso. cbn [finish s_log] in L. apply app_inj_tail in L. destruct L as [_ L]. discriminate.
    - exfalso. rewrite K3 in L. edestruct (fetchNext_ok (State (s_parts s ++ [d_content d]) (s_wait s) (s_log s)) i (d_name d) (zlen (s_parts s) + 1)) as (j & Ej & _); [pose proof (zlen_nonneg _ (s_parts s)); lia|]. rewrite Ej in L. cbn [express s_log] in L. apply app_inj_tail in L. destruct L as [_ L]. discriminate. }
  assert (N : s_log s = s_log s ++ [LError e] -> False) by (intro X; apply (f_equal (@length _)) in X; rewrite app_length in X; cbn in X; lia).
  assert (F : forall x, s_log (finish s x) = s_log s ++ [LError e] -> x = LError e) by (intros x X; cbn [finish s_log] in X; apply app_inj_tail in X; tauto).
  unfold step in H. destruct (s_wait s) as [[i|i d]|] eqn:Ew; [| |exfalso; destruct o; apply N, H].
  - destruct o as [d v| | | |]; [|apply F in H; injection H as <-; reflexivity|exfalso; apply N, H..].
    destruct kc eqn:Ek; [exfalso; apply N, H|]. destruct v as [[|]|x].
    + apply V in H; [destruct H as [-> H]; exact H|]. exists os, i, (FData d (Ok true)), []. cbn. auto.
    + apply F in H. injection H as <-. right. eauto.
    + apply F in H. discriminate.
  - destruct o as [d' v| | | |]; [exfalso; apply N, H..| | |].
    + apply V in H; [destruct H as [-> H]; exact H|]. exists os, i, FVerified, []. split; [reflexivity|].
      destruct kc eqn:Ek.
      * split; [exact Ew|]. split; [reflexivity|]. destruct (inv_run true base os) as (ds & I). eapply v_verify; eassumption.
      * exfalso. eapply (no_verify base os); eassumption.
    + apply F in H. injection H as <-. now left.
    + apply F in H. discriminate.
Qed.
(** The hypotheses hold: two segments, and the content in order. *)
Definition ex_seg (k : Z) (b : bytes) : data := Data [c_generic [97]; c_generic [253; 1]; c_generic [0; k]] (MI 0 (-1) None (c_generic [0; 1])) (Some b) (SigDigest None).
Definition ex_base : interest := Interest [c_generic [97]] None None kl_empty [] None true None None [] None None None.
Example C32_example : s_log (run false (start ex_base) [FData (ex_seg 0 [1; 2]) (Ok true); FData (ex_seg 1 [3]) (Ok true)]) =
  [LExpress (firstInterest ex_base);
   LExpress (Interest [c_generic [97]; c_generic [253; 1]; c_generic [0; 1]] None None (i_keyLocator ex_base) [] (Some 0) false None None [] None None None);
   LComplete [1; 2; 3]].
Proof. vm_compute. reflexivity. Qed.
Print Assumptions C32_once.
Print Assumptions C32_stops.
Print Assumptions C32_waits.
Print Assumptions C32_content.
Print Assumptions C32_interests.
Print Assumptions C32_completes.
Print Assumptions C32_errors.
