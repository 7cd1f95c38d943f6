(** * C27-C30: pending interests, delivery, delayed calls, filters and registrations of the
    client node, over every history of API calls, received packets, clock readings and
    reentrant callbacks. *)
From Verif Require Import Base BaseLemmas NodeModel NodeSpec NodeProofs NodeProofs2 NodeProofs3 NodeProofs4 NodeProofs5 NodeProofs6.
From Verif Require Import TlvModel NameModel WireModel MatchModel.
From Coq Require Import Lia.

Section Node.
Context {I D F : Type}.
Variable matches : I -> D -> res bool.
Variable wire : I -> res bytes.
Variable lifetime : I -> option Z.
Variable isLocalTimeout : I -> bool.
Variable fmatch : F -> I -> res bool.
Variable status : D -> res Z.
Notation entry := (entry I F). Notation state := (state I D F). Notation event := (event I D F). Notation op := (op I D F). Notation fentry := (fentry F).
Notation run := (run matches wire lifetime isLocalTimeout fmatch status).
Notation step := (step matches wire lifetime isLocalTimeout fmatch status).
Notation uses := (uses matches wire lifetime isLocalTimeout fmatch status).

(** ** C27 *)
(** An expressed interest gets at most one of onData, onNetworkNack, onTimeout. *)
Theorem C27_at_most_once : forall async os (e : entry), (terminals e (s_log (run (init async) os)) <= 1)%nat.
Proof. exact (at_most_once matches wire lifetime isLocalTimeout fmatch status). Qed.

(** A callback is for an interest that was expressed; onTimeout and onNetworkNack only if they
    were given, and onTimeout not before the lifetime (or 4 s) has passed. *)
Theorem C27_only_expressed : forall async os x e, In x (s_log (run (init async) os)) -> terminal x = Some e ->
  exists t, In (LAdd e t) (s_log (run (init async) os)) /\
    match x with
    | LNack _ => e_nack e = true
    | LTimeout _ now => e_timeout e = true /\ t + timer lifetime e <= now
    | _ => True
    end.
Proof.
  intros async os x e Hx Ht. pose proof (is_log _ _ _ (inv_src_run matches wire lifetime isLocalTimeout fmatch status async os) x Hx) as H.
  destruct x; cbn [terminal] in Ht; try discriminate; injection Ht as ->; cbn [event_ok] in H.
  - destruct H as [_ (t & H)]. now exists t.
  - destruct H as [H1 (t & H)]. now exists t.
  - destruct H as [H1 (t & H & H2)]. exists t. auto.
Qed.

(** When matching and encoding do not raise, an interest with an onTimeout which is not removed
    gets exactly one callback once its time has passed and all due events were processed. *)
Theorem C27_exactly_once : forall async os e t now,
  (forall i d, exists b, matches i d = Ok b) -> (forall i, exists b, wire i = Ok b) ->
  In (LAdd e t) (s_log (run (init async) os)) -> e_timeout e = true ->
  (forall os1 os2, os = os1 ++ ORemovePending (e_id e) :: os2 -> ~ In (LAdd e t) (s_log (run (init async) os1))) ->
  settled (run (init async) os) now -> t + timer lifetime e <= now ->
  terminals e (s_log (run (init async) os)) = 1%nat.
Proof. exact (exactly_once matches wire lifetime isLocalTimeout fmatch status). Qed.

(** After removePendingInterest(id) there is no callback for an interest expressed with this id
    (before or after, also if it waits for the connection), unless it is already in the batch of
    callbacks for a packet which is being delivered. *)
Theorem C27_removed : forall async os1 os2 id,
  (uses id (init async) (os1 ++ ORemovePending id :: os2) <= 1)%nat ->
  (forall e, In e (in_dispatch (run (init async) os1)) -> e_id e <> id) ->
  exists l, s_log (run (init async) (os1 ++ ORemovePending id :: os2)) = s_log (run (init async) os1) ++ l /\ ~ calls_id id l.
Proof. exact (removed matches wire lifetime isLocalTimeout fmatch status). Qed.

(** ** C28 *)
(** A Data packet takes exactly the matching interests out of the table, and they are called. *)
Theorem C28_data : forall (s : state) d, (forall e, In e (s_table s) -> exists b, matches (e_int e) d = Ok b) ->
  let hit := fun e => match matches (e_int e) d with Ok b => b | Err _ => false end in
  s_table (step s (OReceiveData d)) = filter (fun e => negb (hit e)) (s_table s) /\
  s_frames (step s (OReceiveData d)) = FrData (rev (filter hit (s_table s))) d :: s_frames s.
Proof. intros s d H hit. destruct (receive_data matches wire lifetime isLocalTimeout fmatch status s d H) as (H1 & H2 & _). split; assumption. Qed.
Theorem C28_data_called : forall (s : state) d os e, (forall e, In e (s_table s) -> exists b, matches (e_int e) d = Ok b) ->
  s_frames (run (step s (OReceiveData d)) os) = [] -> In e (s_table s) -> matches (e_int e) d = Ok true -> In (LData e d) (s_log (run (step s (OReceiveData d)) os)).
Proof. exact (data_called matches wire lifetime isLocalTimeout fmatch status). Qed.
Theorem C28_only_matching : forall async os e d, In (LData e d) (s_log (run (init async) os)) -> matches (e_int e) d = Ok true /\ In (OReceiveData d) os.
Proof.
  intros async os e d H. split.
  - apply (is_log _ _ _ (inv_src_run matches wire lifetime isLocalTimeout fmatch status async os) _ H).
  - apply (proj2 (packets matches wire lifetime isLocalTimeout fmatch status async os) _ H).
Qed.
(** A Nack takes exactly the entries with an equal interest and an onNetworkNack. *)
Theorem C28_nack : forall (s : state) i b, wire i = Ok b -> (forall e, In e (s_table s) -> exists b, wire (e_int e) = Ok b) ->
  let hit := fun e => e_nack e && match wire (e_int e) with Ok b' => zlist_eqb b' b | Err _ => false end in
  s_table (step s (OReceiveNack i)) = filter (fun e => negb (hit e)) (s_table s) /\
  s_frames (step s (OReceiveNack i)) = FrNack (rev (filter hit (s_table s))) :: s_frames s.
Proof. intros s i b Hb H hit. destruct (receive_nack matches wire lifetime isLocalTimeout fmatch status s i b Hb H) as (H1 & H2 & _). split; assumption. Qed.
Theorem C28_nack_called : forall (s : state) i b os e, wire i = Ok b -> (forall e, In e (s_table s) -> exists b, wire (e_int e) = Ok b) ->
  s_frames (run (step s (OReceiveNack i)) os) = [] -> In e (s_table s) -> e_nack e = true -> wire (e_int e) = Ok b -> In (LNack e) (s_log (run (step s (OReceiveNack i)) os)).
Proof. exact (nack_called matches wire lifetime isLocalTimeout fmatch status). Qed.
Theorem C28_only_nacked : forall async os e, In (LNack e) (s_log (run (init async) os)) ->
  e_nack e = true /\ exists i b, In (OReceiveNack i) os /\ wire i = Ok b /\ wire (e_int e) = Ok b.
Proof.
  intros async os e H. split.
  - apply (is_log _ _ _ (inv_src_run matches wire lifetime isLocalTimeout fmatch status async os) _ H).
  - apply (proj2 (packets matches wire lifetime isLocalTimeout fmatch status async os) _ H).
Qed.

(** ** C29 *)
(** A delayed call (number [q]) is made at most once, was asked for, and is not early. *)
Theorem C29_at_most_once : forall async os q, (length (filter (fun x => match x with LCall q' _ _ => Nat.eqb q' q | _ => false end) (s_log (run (init async) os))) <= 1)%nat.
Proof. exact (call_once matches wire lifetime isLocalTimeout fmatch status). Qed.
Theorem C29_not_early : forall async os q cid t, In (LCall q cid t) (s_log (run (init async) os)) ->
  exists os1 delay now os2, os = os1 ++ OCallLater delay cid now :: os2 /\ s_nextSeq (run (init async) os1) = q /\ now + delay <= t.
Proof.
  intros async os q cid t H. destruct (proj2 (src_calls matches wire lifetime isLocalTimeout fmatch status async os) _ _ _ H) as (t0 & (os1 & de & now & os2 & H1 & H2 & H3) & Hle).
  exists os1, de, now, os2. split; [exact H1|split; [exact H2|lia]].
Qed.
(** It is made exactly once when its time has come and all due events were processed. *)
Theorem C29_exactly_once : forall async os1 delay cid now os2 t0,
  let os := os1 ++ OCallLater delay cid now :: os2 in let q := s_nextSeq (run (init async) os1) in
  settled (run (init async) os) t0 -> now + delay <= t0 ->
  length (filter (fun x => match x with LCall q' _ _ => Nat.eqb q' q | _ => false end) (s_log (run (init async) os))) = 1%nat /\
  exists t, In (LCall q cid t) (s_log (run (init async) os)) /\ now + delay <= t.
Proof. exact (call_exactly_once matches wire lifetime isLocalTimeout fmatch status). Qed.
(** Of two waiting calls, the one with the earlier time is made first; with equal times, the one
    asked for first. *)
Theorem C29_order : forall async os1 os2 c1 cid1 c2 cid2 l1 l2 t2,
  let s := run (init async) os1 in
  In c1 (s_delayed s) -> In c2 (s_delayed s) -> c_what c1 = CUser cid1 -> c_what c2 = CUser cid2 ->
  (c_time c1 < c_time c2 \/ c_time c1 = c_time c2 /\ (c_seq c1 < c_seq c2)%nat) ->
  s_log (run s os2) = s_log s ++ l1 ++ LCall (c_seq c2) cid2 t2 :: l2 -> exists t1, In (LCall (c_seq c1) cid1 t1) l1.
Proof. exact (call_order matches wire lifetime isLocalTimeout fmatch status). Qed.
(** One pass of processEvents, without reentrant calls, ends after the due calls and leaves the others. *)
Theorem C29_drains : forall async os now ns,
  let s := run (init async) os in
  length ns = S (length (filter (fun c => c_time c <=? now) (s_delayed s))) ->
  let s' := run (step s (OProcess now)) (map OContinue ns) in
  s_frames s' = s_frames s /\ s_delayed s' = filter (fun c => now <? c_time c) (s_delayed s).
Proof. exact (process_drains matches wire lifetime isLocalTimeout fmatch status). Qed.

(** ** C30 *)
(** An interest is dispatched to exactly the matching filters, in the order they were set. *)
Theorem C30_dispatch : forall (s : state) i, (forall f, In f (s_filters s) -> exists b, fmatch (f_filter f) i = Ok b) ->
  s_frames (step s (OReceiveInterest i)) = FrInterest (filter (fun f => match fmatch (f_filter f) i with Ok b => b | Err _ => false end) (s_filters s)) i :: s_frames s.
Proof. exact (receive_interest matches wire lifetime isLocalTimeout fmatch status). Qed.
Theorem C30_called : forall (s : state) i os f, (forall f, In f (s_filters s) -> exists b, fmatch (f_filter f) i = Ok b) ->
  s_frames (run (step s (OReceiveInterest i)) os) = [] -> In f (s_filters s) -> fmatch (f_filter f) i = Ok true -> In (LInterest f i) (s_log (run (step s (OReceiveInterest i)) os)).
Proof. exact (interest_called matches wire lifetime isLocalTimeout fmatch status). Qed.
Theorem C30_only_matching : forall async os f i, In (LInterest f i) (s_log (run (init async) os)) -> fmatch (f_filter f) i = Ok true.
Proof. intros async os f i. apply (proj2 (inv_int_run matches wire lifetime isLocalTimeout fmatch status async os)). Qed.
(** setInterestFilter and unsetInterestFilter change exactly the filters with the id. *)
Theorem C30_set_unset : forall (s : state) id f,
  s_filters (step s (OSetFilter id f)) = s_filters s ++ [FEntry id f UserCb] /\
  s_filters (step s (OUnsetFilter id)) = filter (fun f => negb (f_id f =? id)) (s_filters s).
Proof. intros s id f. split; reflexivity. Qed.
Theorem C30_unset_silent : forall (s : state) id os,
  id <= s_lastId s -> (forall f, In f (filters_in_dispatch s) -> f_id f <> id) ->
  forallb (fun o => negb (match o with OSetFilter id' _ => id' =? id | _ => false end)) os = true ->
  exists l, s_log (run (step s (OUnsetFilter id)) os) = s_log s ++ l /\ forall f i, In (LInterest f i) l -> f_id f <> id.
Proof. exact (unset_silent matches wire lifetime isLocalTimeout fmatch status). Qed.
(** After removeRegisteredPrefix(rid) neither onRegisterSuccess nor onInterest of this
    registration is called, also if the response comes later. *)
Theorem C30_removed : forall async os1 os2 rid, rid <> 0 -> (length (filter (registers rid) (os1 ++ os2)) <= 1)%nat ->
  (forall f, In f (filters_in_dispatch (run (init async) os1)) -> f_cb f <> RegCb rid) ->
  exists l, s_log (run (init async) (os1 ++ ORemoveRegistered rid :: os2)) = s_log (run (init async) os1) ++ l /\
    forall x, In x l -> x <> LRegOk rid /\ forall f i, x = LInterest f i -> f_cb f <> RegCb rid.
Proof. exact (reg_removed matches wire lifetime isLocalTimeout fmatch status). Qed.
(** The ids handed out strictly increase. *)
Theorem C30_ids : forall async os l1 n l2 m l3, s_log (run (init async) os) = l1 ++ LId n :: l2 ++ LId m :: l3 -> n < m.
Proof.
  intros async os l1 n l2 m l3 H.
  apply (proj2 (ids_increase matches wire lifetime isLocalTimeout fmatch status (init async) os (s_log (run (init async) os)) eq_refl) l1 n l2 m l3 H).
Qed.
End Node.

(** ** Examples: names are numbers, an interest [i] matches the data [i / 10], its lifetime is
    [i mod 10] seconds (0: none) *)
Module Ex.
Definition matches (i d : Z) : res bool := Ok (i / 10 =? d).
Definition wire (i : Z) : res bytes := Ok [i].
Definition lifetime (i : Z) : option Z := if i mod 10 =? 0 then None else Some (1000 * (i mod 10)).
Definition fmatch (f i : Z) : res bool := Ok (f =? i / 10).
Definition status (d : Z) : res Z := Ok 200.
Definition run := run matches wire lifetime (fun _ => false) fmatch status.
Definition uses := uses matches wire lifetime (fun _ => false) fmatch status.
End Ex.
Definition x_express : list (op Z Z Z) := [OExpress 1 12 true true 0; OExpress 2 22 true false 5; OExpress 3 11 true true 6].
Lemma ex_total : (forall i d, exists b, Ex.matches i d = Ok b) /\ forall i, exists b, Ex.wire i = Ok b.
Proof. split; intros; eexists; reflexivity. Qed.
(** data 1 answers the interests 1 and 3, the interest 2 times out; then everything is settled *)
Example C27_example :
  let os := x_express ++ [OReceiveData 1; OContinue 10; OContinue 10; OContinue 10; OProcess 3000; OContinue 3000; OContinue 3000; OContinue 3000; OContinue 3000] in
  let e := Entry 1 2 22 true false User in
  s_log (Ex.run (init false) os) =
    [LAdd (Entry 0 1 12 true true User) 0; LSend [12]; LAdd e 5; LSend [22]; LAdd (Entry 2 3 11 true true User) 6; LSend [11];
     LData (Entry 2 3 11 true true User) 1; LData (Entry 0 1 12 true true User) 1; LTimeout e 3000] /\
  settled (Ex.run (init false) os) 3000 /\ 5 + timer Ex.lifetime e <= 3000 /\ terminals e (s_log (Ex.run (init false) os)) = 1%nat.
Proof. vm_compute. split; [reflexivity|split; [split; [reflexivity|intros c []]|split; [discriminate|reflexivity]]]. Qed.
(** removal while connecting: the interest is never added *)
Example C27_removed_example :
  let os1 := [OExpress 1 12 true true 0; OExpress 2 22 true true 0] in let os2 := [OConnected; OContinue 1; OContinue 1; OContinue 1; OReceiveData 1; OContinue 2; OProcess 9000; OContinue 9000; OContinue 9000] in
  Ex.uses 1 (init true) (os1 ++ ORemovePending 1 :: os2) = 1%nat /\ in_dispatch (Ex.run (init true) os1) = [] /\
  s_log (Ex.run (init true) (os1 ++ ORemovePending 1 :: os2)) = [LAdd (Entry 0 2 22 true true User) 1; LSend [22]; LTimeout (Entry 0 2 22 true true User) 9000].
Proof. vm_compute. split; [reflexivity|split; reflexivity]. Qed.
(** Removing inside the callback of another interest of the same batch is too late. *)
Theorem C27_removed_batch_refuted : exists (os1 os2 : list (op Z Z Z)) id,
  Ex.uses id (init false) (os1 ++ ORemovePending id :: os2) = 1%nat /\
  exists l, s_log (Ex.run (init false) (os1 ++ ORemovePending id :: os2)) = s_log (Ex.run (init false) os1) ++ l /\ calls_id id l.
Proof.
  exists (x_express ++ [OReceiveData 1; OContinue 10]), [OContinue 10], 1. split; [vm_compute; reflexivity|].
  eexists. split; [vm_compute; reflexivity|]. exists (LData (Entry 0 1 12 true true User) 1), (Entry 0 1 12 true true User).
  split; [vm_compute; now left|split; reflexivity].
Qed.
(** expressInterest that raises because the packet is too large leaves the interest in the table:
    its onTimeout is called later. *)
Theorem C27_raise_still_pending_refuted :
  let bigwire := fun i : Z => if i =? 99 then Ok (repeat 0 8801) else Ok [i] in
  let run := NodeModel.run Ex.matches bigwire Ex.lifetime (fun _ => false) Ex.fmatch Ex.status in
  exists os e, In (LRaise RuntimeError) (s_log (run (init false) os)) /\ ~ (exists b, In (LSend b) (s_log (run (init false) os))) /\ In (LTimeout e 9000) (s_log (run (init false) os)).
Proof.
  intros bigwire run. exists [OExpress 1 99 true true 0; OProcess 9000; OContinue 9000], (Entry 0 1 99 true true User).
  assert (E : s_log (run (init false) [OExpress 1 99 true true 0; OProcess 9000; OContinue 9000]) = [LAdd (Entry 0 1 99 true true User) 0; LRaise RuntimeError; LTimeout (Entry 0 1 99 true true User) 9000]) by (vm_compute; reflexivity).
  rewrite E. split; [cbn; auto|split; [|cbn; auto]]. intros [b [H|[H|[H|[]]]]]; discriminate.
Qed.
(** If a waiting interest raises when the connection opens, the interests after it are never
    expressed: no callback for them, whatever happens later. *)
Theorem C27_wedged_connection_refuted :
  let bigwire := fun i : Z => if i =? 99 then Ok (repeat 0 8801) else Ok [i] in
  let step := NodeModel.step Ex.matches bigwire Ex.lifetime (fun _ => false) Ex.fmatch Ex.status in
  let run := NodeModel.run Ex.matches bigwire Ex.lifetime (fun _ => false) Ex.fmatch Ex.status in
  let s := run (init true) [OExpress 1 99 true true 0; OExpress 2 12 true true 0; OConnected; OContinue 1] in
  s_frames s = [] /\
  forall os, let l := s_log (run s os) in (forall e t, In (LAdd e t) l -> e_id e = 1) /\ forall x e, In x l -> terminal x = Some e -> e_id e = 1.
Proof.
  intros bigwire step run s. split; [vm_compute; reflexivity|]. intros os.
  assert (Hinv : s_conn (run s os) = Requested true /\ s_async (run s os) = true /\ cnt is_conn (s_frames (run s os)) = 0%nat /\
                 forall e t, In (LAdd e t) (s_log (run s os)) -> e_id e = 1).
  { unfold run. apply (run_ind2 Ex.matches bigwire Ex.lifetime (fun _ => false) Ex.fmatch Ex.status
      (fun s => s_conn s = Requested true /\ s_async s = true /\ cnt is_conn (s_frames s) = 0%nat /\ forall e t, In (LAdd e t) (s_log s) -> e_id e = 1) (fun _ => True)).
    - split; [vm_compute; reflexivity|split; [vm_compute; reflexivity|split; [vm_compute; reflexivity|]]].
      intros e t H. assert (E : s_log s = [LAdd (Entry 0 1 99 true true User) 1; LRaise RuntimeError]) by (vm_compute; reflexivity). rewrite E in H.
      destruct H as [H|[H|[]]]; [injection H as <- <-; reflexivity|discriminate].
    - intros s0 o _ (H1 & H2 & H3 & H4).
      pose proof (step_trans Ex.matches bigwire Ex.lifetime (fun _ => false) Ex.fmatch Ex.status s0 o) as Ht.
      assert (Hns : forall a c fr, ~ source s0 o a c fr).
      { intros a c fr [c0 Ha Hs Hc|k f1 f' now Ho Hf Hn Hor]; [destruct Hs; congruence|]. rewrite Hf, cnt_cons in H3. cbn [is_conn] in H3. lia. }
      assert (Ha' : s_async (NodeModel.step Ex.matches bigwire Ex.lifetime (fun _ => false) Ex.fmatch Ex.status s0 o) = true) by (rewrite step_async; exact H2).
      assert (Hadd : forall e t, In (LAdd e t) (s_log (NodeModel.step Ex.matches bigwire Ex.lifetime (fun _ => false) Ex.fmatch Ex.status s0 o)) -> e_id e = 1).
      { intros e t H. destruct (add_trans _ _ _ (fun _ => false) _ Ex.status _ _ _ Ht) as [[_ Hi]|(e0 & t0 & Hs & _ & _)]; [apply Hi in H; eauto|].
        exfalso. destruct Ht as [l Hq K|a c fr l Hsr Hm Hq K|a c fr now e1 dl sq fr' l Hsr Hm He Hd Hf Hq K|a c Hak Has' Hcc K|Hcc K|k fr Hf Hn K|id0 rq Ho Hrq K|p stay out x0 fr l He Hcc Hx Hq K
          |f0 [Hf Hft] Hk H0 K|f0 fr Hf He Hk K|e1 es d fr l Hf Hq K|e1 es fr Hf K|f0 fs i0 fr Hf K|delay cid now Ho K|t1 fr c cs cid Hf Hd Htt Hw K|t1 fr c cs e1 Hf Hd Htt Hw Hg K|t1 fr c cs e1 t' l Hf Hd Htt Hw Hm He Hl K];
        pose proof (sh_sr _ _ _ _ _ _ _ _ _ _ _ K); try (exfalso; eapply Hns; eassumption); lia. }
      assert (Hcf : s_conn (NodeModel.step Ex.matches bigwire Ex.lifetime (fun _ => false) Ex.fmatch Ex.status s0 o) = Requested true /\ cnt is_conn (s_frames (NodeModel.step Ex.matches bigwire Ex.lifetime (fun _ => false) Ex.fmatch Ex.status s0 o)) = 0%nat).
      { destruct Ht as [l Hq K|a c fr l Hsr Hm Hq K|a c fr now e1 dl sq fr' l Hsr Hm He Hd Hf Hq K|a c Hak Has' Hcc K|Hcc K|k fr Hf Hn K|id0 rq Ho Hrq K|p stay out x0 fr l He Hcc Hx Hq K
          |f0 [Hf Hft] Hk H0 K|f0 fr Hf He Hk K|e1 es d fr l Hf Hq K|e1 es fr Hf K|f0 fs i0 fr Hf K|delay cid now Ho K|t1 fr c cs cid Hf Hd Htt Hw K|t1 fr c cs e1 Hf Hd Htt Hw Hg K|t1 fr c cs e1 t' l Hf Hd Htt Hw Hm He Hl K];
        pose proof (sh_cn _ _ _ _ _ _ _ _ _ _ _ K) as Kcn; pose proof (sh_fr _ _ _ _ _ _ _ _ _ _ _ K) as Kfr; rewrite Kcn, Kfr; try (exfalso; eapply Hns; eassumption); auto.
        - destruct Hcc as [[E _]|[_ ->]]; [congruence|auto].
        - congruence.
        - exfalso. rewrite Hf, cnt_cons in H3. cbn [is_conn] in H3. lia.
        - destruct (extract_frames _ _ _ _ _ _ _ Hcc Hx) as [_ Hz]. rewrite cnt_app, Hz. auto.
        - rewrite cnt_cons, (not_conn _ Hk). auto.
        - rewrite Hf, cnt_cons in H3. split; [exact H1|lia].
        - rewrite Hf, cnt_cons in H3. rewrite cnt_cons. auto.
        - rewrite Hf, cnt_cons in H3. rewrite cnt_cons. auto.
        - rewrite Hf, cnt_cons in H3. rewrite cnt_cons. auto. }
      destruct Hcf. auto.
    - apply Forall_forall. auto. }
  destruct Hinv as (_ & _ & _ & Hadd). split; [exact Hadd|].
  intros x e Hx Ht.
  assert (Er : run s os = run (init true) ([OExpress 1 99 true true 0; OExpress 2 12 true true 0; OConnected; OContinue 1] ++ os)) by (unfold run, s; now rewrite run_app).
  rewrite Er in *. destruct (C27_only_expressed Ex.matches bigwire Ex.lifetime (fun _ => false) Ex.fmatch Ex.status true _ x e Hx Ht) as (t & Ha & _). eapply Hadd, Ha.
Qed.
(** Interest.matchesData raises for an Exclude with two adjacent ANY: the other interests, already
    taken out of the table for the same packet, get no callback, not even a timeout. *)
Theorem C27_lost_refuted : forall sha : bytes -> bytes,
  exists (i1 i2 : interest) d e2,
  let run := NodeModel.run (F := Z) (i_matchesData sha) (fun i => Ok [zlen (i_exclude i)]) (fun i => i_lifetime i) (fun _ => false) (fun _ _ => Ok false) (fun _ => Ok 200) in
  let s := run (init false) [OExpress 1 i1 true true 0; OExpress 2 i2 true true 0; OReceiveData d; OProcess 9000; OContinue 9000; OContinue 9000; OContinue 9000] in
  i_matchesData sha i2 d = Ok true /\ In (LAdd e2 0) (s_log s) /\ e_int e2 = i2 /\ settled s 9000 /\ terminals e2 (s_log s) = 0%nat.
Proof.
  intro sha.
  set (ci := fun ex => Interest [c_generic [120]] None None (KL None [] None) ex None true (Some [1; 2; 3; 4]) None [] None None None).
  exists (ci [ExComp (c_generic [66]); ExAny; ExAny]), (ci []), (Data [c_generic [120]; c_generic [65]] (MI 0 0 None (c_generic [])) (Some []) (SigDigest (Some []))),
    (Entry 1 2 (ci []) true true User).
  cbn zeta.
  assert (M1 : i_matchesData sha (ci [ExComp (c_generic [66]); ExAny; ExAny]) (Data [c_generic [120]; c_generic [65]] (MI 0 0 None (c_generic [])) (Some []) (SigDigest (Some []))) = Err AttributeError) by reflexivity.
  assert (M2 : i_matchesData sha (ci []) (Data [c_generic [120]; c_generic [65]] (MI 0 0 None (c_generic [])) (Some []) (SigDigest (Some []))) = Ok true) by reflexivity.
  split; [exact M2|].
  set (d := Data _ _ _ _) in *. set (j1 := ci [ExComp (c_generic [66]); ExAny; ExAny]) in *. set (j2 := ci []) in *.
  assert (El : forall os, NodeModel.run (F := Z) (i_matchesData sha) (fun i => Ok [zlen (i_exclude i)]) (fun i => i_lifetime i) (fun _ => false) (fun _ _ => Ok false) (fun _ => Ok 200) (init false) (OExpress 1 j1 true true 0 :: OExpress 2 j2 true true 0 :: OReceiveData d :: os) =
     NodeModel.run (F := Z) (i_matchesData sha) (fun i => Ok [zlen (i_exclude i)]) (fun i => i_lifetime i) (fun _ => false) (fun _ _ => Ok false) (fun _ => Ok 200)
       (State [Entry 0 1 j1 true true User] [] [1%nat] 2 [DCall 0 4000 (CTimeout (Entry 0 1 j1 true true User)); DCall 1 4000 (CTimeout (Entry 1 2 j2 true true User))] 2 Complete false [] [] [] [] 0 false []
         [LAdd (Entry 0 1 j1 true true User) 0; LSend [3]; LAdd (Entry 1 2 j2 true true User) 0; LSend [0]; LRaise AttributeError]) os).
  { intro os. rewrite !run_cons. f_equal. }
  rewrite El. split; [cbn; auto|]. split; [reflexivity|]. split; [split; [reflexivity|intros c []]|]. reflexivity.
Qed.

Example C28_example :
  let s := Ex.run (init false) x_express in
  map e_id (s_table (Ex.run s [OReceiveData 1])) = [2] /\ map e_id (s_table (Ex.run s [OReceiveNack 11])) = [1; 2] /\
  map e_id (in_dispatch (Ex.run s [OReceiveNack 22])) = [] /\ s_frames (Ex.run s [OReceiveData 1; OContinue 1; OContinue 1; OContinue 1]) = [].
Proof. vm_compute. split; [reflexivity|split; [reflexivity|split; reflexivity]]. Qed.
(** calls at 30, 10 and 10; the first due one schedules another for the same pass *)
Example C29_example :
  let os := [OCallLater 30 100 0; OCallLater 10 101 0; OCallLater 10 102 0; OProcess 30; OContinue 30; OCallLater 0 103 30; OContinue 31; OContinue 31; OContinue 31; OContinue 31] in
  s_log (Ex.run (init false) os) = [LCall 1 101 30; LCall 2 102 30; LCall 0 100 30; LCall 3 103 30] /\ settled (Ex.run (init false) os) 30.
Proof. vm_compute. split; [reflexivity|split; [reflexivity|intros c []]]. Qed.
(** a registration completes: its filter gets interests until it is removed; a second one is removed
    before its response comes *)
Example C30_example :
  let os := [ONextId; ORegister 1 7 true 501 0; OReceiveData 50; OContinue 1; OContinue 1; OReceiveInterest 72; OContinue 2; OContinue 2; ORemoveRegistered 1; OReceiveInterest 72; OContinue 3;
             ONextId; ORegister 4 8 true 601 5; ORemoveRegistered 4; OReceiveData 60; OContinue 6; OContinue 6; OReceiveInterest 82; OContinue 7] in
  s_log (Ex.run (init false) os) =
    [LId 1; LAdd (Entry 0 2 501 true false (Reg 1 7 true)) 0; LSend [501]; LData (Entry 0 2 501 true false (Reg 1 7 true)) 50; LRegOk 1; LInterest (FEntry 3 7 (RegCb 1)) 72;
     LId 4; LAdd (Entry 1 5 601 true false (Reg 4 8 true)) 5; LSend [601]; LData (Entry 1 5 601 true false (Reg 4 8 true)) 60] /\
  s_filters (Ex.run (init false) os) = [] /\ s_frames (Ex.run (init false) os) = [] /\ length (filter (registers 4) os) = 1%nat.
Proof. vm_compute. split; [reflexivity|split; [reflexivity|split; reflexivity]]. Qed.
(** Unsetting a filter inside the callback of another filter for the same interest is too late. *)
Theorem C30_unset_batch_refuted : exists (os : list (op Z Z Z)) f i,
  f_id f = 2 /\ s_filters (Ex.run (init false) (os ++ [OUnsetFilter 2])) = [FEntry 1 7 UserCb] /\
  In (LInterest f i) (s_log (Ex.run (init false) (os ++ [OUnsetFilter 2; OContinue 1]))) /\ ~ In (LInterest f i) (s_log (Ex.run (init false) os)).
Proof.
  exists [OSetFilter 1 7; OSetFilter 2 7; OReceiveInterest 72; OContinue 1], (FEntry 2 7 UserCb), 72.
  split; [reflexivity|split; [vm_compute; reflexivity|split; [vm_compute; right; now left|]]]. vm_compute. intros [H|[]]; discriminate.
Qed.
Print Assumptions C27_at_most_once. Print Assumptions C27_only_expressed. Print Assumptions C27_exactly_once. Print Assumptions C27_removed.
Print Assumptions C27_removed_batch_refuted. Print Assumptions C27_raise_still_pending_refuted. Print Assumptions C27_wedged_connection_refuted. Print Assumptions C27_lost_refuted.
Print Assumptions C28_data. Print Assumptions C28_data_called. Print Assumptions C28_only_matching. Print Assumptions C28_nack. Print Assumptions C28_nack_called. Print Assumptions C28_only_nacked.
Print Assumptions C29_at_most_once. Print Assumptions C29_not_early. Print Assumptions C29_exactly_once. Print Assumptions C29_order. Print Assumptions C29_drains.
Print Assumptions C30_dispatch. Print Assumptions C30_called. Print Assumptions C30_only_matching. Print Assumptions C30_set_unset. Print Assumptions C30_unset_silent. Print Assumptions C30_removed. Print Assumptions C30_ids. Print Assumptions C30_unset_batch_refuted.
