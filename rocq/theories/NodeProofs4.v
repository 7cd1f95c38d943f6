(** * Client node: nothing is called after a removal. *)
From Verif Require Import Base NodeModel NodeSpec NodeProofs NodeProofs2 NodeProofs3.
From Coq Require Import Lia.

Section Node.
Context {I D F : Type}.
Variable matches : I -> D -> res bool.
Variable wire : I -> res bytes.
Variable lifetime : I -> option Z.
Variable isLocalTimeout : I -> bool.
Variable fmatch : F -> I -> res bool.
Variable status : D -> res Z.
Notation entry := (entry I F). Notation state := (state I D F). Notation event := (event I D F). Notation op := (op I D F).
Notation frame := (frame I D F). Notation args := (args I F).
Notation run := (run matches wire lifetime isLocalTimeout fmatch status).
Notation step := (step matches wire lifetime isLocalTimeout fmatch status).
Notation uses := (uses matches wire lifetime isLocalTimeout fmatch status).
Notation trans := (trans matches wire lifetime fmatch).
Notation step_trans := (step_trans matches wire lifetime isLocalTimeout fmatch status).
Notation inv_src := (inv_src matches lifetime).
Implicit Types (s : state) (e : entry) (l : list event).

Lemma helper_async s a now : s_async (fst (expressHelper wire lifetime isLocalTimeout fmatch s a now)) = s_async s.
Proof. destruct (expressHelper_spec wire lifetime isLocalTimeout fmatch s a now); reflexivity. Qed.
Lemma raised_async (r : state * option exn) : s_async (raised r) = s_async (fst r).
Proof. unfold raised. destruct (snd r); reflexivity. Qed.
Lemma express_async s a now : s_async (express wire lifetime isLocalTimeout fmatch s a now) = s_async s.
Proof.
  unfold express. destruct (s_conn s) eqn:E.
  - destruct (negb _); [|reflexivity]. destruct (snd _); [rewrite raised_async|cbn [s_async set_conn]]; apply helper_async.
  - destruct (negb _); [|reflexivity]. destruct (snd _); [rewrite raised_async|cbn [s_async set_conn]]; apply helper_async.
  - rewrite raised_async. apply helper_async.
Qed.
Lemma step_async s o : s_async (step s o) = s_async s.
Proof.
  destruct o; cbn [NodeModel.step]; try reflexivity.
  - apply express_async.
  - unfold receiveData, pit_extract. destruct (extract _ _) as [[? ?] [x|]]; reflexivity.
  - unfold receiveNack, pit_extract. destruct (wire i); [|reflexivity]. destruct (extract _ _) as [[? ?] [x|]]; reflexivity.
  - rewrite raised_async. unfold dispatch. destruct (matched _ _ _); reflexivity.
  - destruct (s_conn s) as [|[|]|]; reflexivity.
  - unfold continue. destruct (s_frames s) as [|[[|e es] d|[|e es]|[|f fs] i|t|k] fr]; try reflexivity.
    + unfold callOnData. destruct (e_owner e) as [|rid p b]; [reflexivity|]. etransitivity; [apply (sb_async _ _ (registerOnData_same _ _ _ _ _ _))|reflexivity].
    + destruct (s_delayed s) as [|c cs]; [reflexivity|]. destruct (_ <=? _); [|reflexivity]. destruct (c_what c) as [e|]; [|reflexivity].
      unfold pit_removeEntry. cbn [s_removed s_table set_delayed]. destruct (memn _ _); [reflexivity|]. destruct (del_entry _ _); [|reflexivity].
      unfold callTimeout. destruct (e_timeout e); [|reflexivity]. destruct (e_owner e); reflexivity.
    + destruct (nth_error _ _) as [a|]; [|reflexivity]. destruct (snd _); cbn [s_async logs set_frames]; apply (helper_async (set_frames s (FrConn (S k) :: fr)) a now).
  - destruct (s_frames s) as [|[ | | | | ] fr]; reflexivity.
  - apply (express_async (nextId s)).
Qed.

(** *** The connection start: at most one loop over the waiting requests *)
Definition is_conn (f : frame) : bool := match f with FrConn _ => true | _ => false end.
Definition inv_conn s : Prop :=
  (cnt is_conn (s_frames s) <= match s_conn s with Requested true => 1 | _ => 0 end)%nat /\
  (s_async s = false -> forall b, s_conn s <> Requested b).
Lemma matched_frames (fr' : list frame) x i : (fr' = [] \/ exists fs, fr' = [FrInterest fs i] /\ x fs) -> cnt is_conn fr' = 0%nat.
Proof. intros [->|(fs & -> & _)]; reflexivity. Qed.
Lemma not_conn (f : frame) : (forall k, f <> FrConn k) -> is_conn f = false.
Proof. destruct f; try reflexivity. intro H. now destruct (H k). Qed.
Lemma inv_conn_trans s o s' : s_async s' = s_async s -> trans s o s' -> inv_conn s -> inv_conn s'.
Proof.
  intros Has Ht [Hc Hy].
  assert (Hsrc : forall a c fr, source s o a c fr -> (cnt is_conn fr <= match c with Requested true => 1 | _ => 0 end)%nat /\ (s_async s = false -> forall b, c <> Requested b)).
  { intros a c fr [c0 Ha Hs Hcc|k f1 f' now Ho Hf Hn Hor].
    - split.
      + destruct Hcc as [->| ->]; [exact Hc|]. destruct (s_conn s) as [|[|]|] eqn:E; try exact Hc; destruct Hs as [Hs|Hs]; try discriminate; exfalso; eapply (Hy Hs); reflexivity.
      + intros Hs0 b. destruct Hcc as [->| ->]; [now apply Hy|discriminate].
    - split; [|exact Hy]. rewrite Hf, cnt_cons in Hc. destruct Hor as [->| ->]; [rewrite cnt_cons|]; cbn [is_conn] in *; lia. }
  destruct Ht as [l Hq H|a c fr l Hs Hm Hq H|a c fr now e1 dl sq fr' l Hs Hm He Hd Hf Hq H|a c Ha Has' Hcc H|Hcc H|k fr Hf Hn H|id rq Ho Hrq H|p stay out x fr l He Hcc Hx Hq H
    |f [Hf Hft] Hk Hi H|f fr Hf [He Hfi] Hk H|e1 es d fr l Hf Hq H|e1 es fr Hf H|f fs i fr Hf H|delay cid now Ho H|t1 fr c cs cid Hf Hd Ht Hw H|t1 fr c cs e1 Hf Hd Ht Hw Hg H|t1 fr c cs e1 t' l Hf Hd Ht Hw Hm He Hl H];
    destruct H as [Kt Krq Krm Ksr Kdl Ksq Kcn Kqu Kfr Klg]; unfold inv_conn; rewrite Kcn, Kfr, Has; auto.
  - apply (Hsrc _ _ _ Hs).
  - rewrite cnt_app. rewrite (matched_frames fr' _ _ Hf). apply (Hsrc _ _ _ Hs).
  - destruct Hcc as [[E ->]|[[b E] ->]]; rewrite ?E in *; [split; [exact Hc|congruence]|split; [exact Hc|congruence]].
  - rewrite Hcc in *. split; [rewrite cnt_cons; cbn [is_conn]; lia|]. intros Hs b. exfalso. now apply (Hy Hs false).
  - rewrite Hf, cnt_cons in Hc. cbn [is_conn] in Hc. split; [destruct (s_conn s) as [|[|]|]; lia|discriminate].
  - rewrite cnt_app. assert (E : cnt is_conn fr = 0%nat); [|rewrite E; auto].
    destruct x as [x|]; [rewrite Hx by discriminate; reflexivity|]. destruct Hcc as [(d & _ & _ & Hcc)|(i & b & _ & _ & _ & Hcc)]; rewrite Hcc by reflexivity; reflexivity.
  - rewrite cnt_cons, (not_conn _ Hk). auto.
  - rewrite Hf, cnt_cons, (not_conn _ Hk) in Hc. auto.
  - rewrite Hf, cnt_cons in Hc. rewrite cnt_cons. auto.
  - rewrite Hf, cnt_cons in Hc. rewrite cnt_cons. auto.
  - rewrite Hf, cnt_cons in Hc. rewrite cnt_cons. auto.
Qed.
Lemma inv_conn_run async os : inv_conn (run (init async) os).
Proof.
  apply (run_ind matches wire lifetime isLocalTimeout fmatch status inv_conn).
  - split; cbn; [lia|discriminate].
  - intros s o. apply (inv_conn_trans s o), step_trans. apply step_async.
Qed.

(** *** Requests with an id which may still reach the table *)
(** [pa] selects requests, [ent pa] the entries made from them *)
Definition ent (pa : args -> bool) (e : entry) : bool := pa (Args (e_id e) (e_int e) (e_timeout e) (e_nack e) (e_owner e)).
Lemma ent_entry pa n (a : args) : ent pa (Entry n (a_id a) (a_int a) (a_timeout a) (a_nack a) (a_owner a)) = pa a.
Proof. now destruct a. Qed.
Definition uses_of (pa : args -> bool) s (o : op) : nat :=
  match o with
  | OExpress id i t n _ => if pa (Args id i t n User) then 1 else 0
  | ORegister rid p b i _ => if pa (Args (s_lastId s + 1) i true false (Reg rid p b)) then 1 else 0
  | _ => 0
  end.
Fixpoint qfr (pa : args -> bool) (q : list args) (fr : list frame) : nat :=
  match fr with [] => 0 | FrConn k :: r => cnt pa (skipn k q) + qfr pa q r | _ :: r => qfr pa q r end.
Definition qr (pa : args -> bool) (c : conn) (q : list args) (fr : list frame) : nat :=
  (match c with Unconnected | Requested false => cnt pa q | _ => 0 end + qfr pa q fr)%nat.
Definition qrem (pa : args -> bool) s : nat := qr pa (s_conn s) (s_queue s) (s_frames s).
Lemma qfr_none pa q fr : cnt is_conn fr = 0%nat -> qfr pa q fr = 0%nat.
Proof. induction fr as [|[ | | | |k] fr IH]; rewrite ?cnt_nil, ?cnt_cons; cbn [is_conn qfr]; auto; lia. Qed.
Lemma qfr_app pa q fr' fr : cnt is_conn fr' = 0%nat -> qfr pa q (fr' ++ fr) = qfr pa q fr.
Proof. induction fr' as [|[ | | | |k] fr' IH]; rewrite ?cnt_nil, ?cnt_cons; cbn [is_conn qfr app]; auto; lia. Qed.
Lemma cnt_skipn (p : args -> bool) k q : (cnt p (skipn k q) <= cnt p q)%nat.
Proof. rewrite <- (firstn_skipn k q) at 2. rewrite cnt_app. lia. Qed.
Lemma qfr_add pa q a fr : (cnt is_conn fr <= 1)%nat -> (qfr pa (q ++ [a]) fr <= qfr pa q fr + (if pa a then 1 else 0))%nat.
Proof.
  induction fr as [|[ | | | |k] fr IH]; rewrite ?cnt_nil, ?cnt_cons; cbn [is_conn qfr]; auto; try lia.
  intro H. rewrite !(qfr_none pa _ fr) by lia. rewrite skipn_app, cnt_app.
  pose proof (cnt_skipn pa (k - length q) [a]) as H1. rewrite cnt_cons, cnt_nil in H1. lia.
Qed.
Lemma skipn_nth (q : list args) k a : nth_error q k = Some a -> skipn k q = a :: skipn (S k) q.
Proof. revert k. induction q as [|x q IH]; intros [|k]; cbn; try discriminate; [congruence|]. intro H. rewrite (IH _ H). reflexivity. Qed.
Lemma asks_uses s o a pa : asks s o a -> uses_of pa s o = (if pa a then 1 else 0)%nat.
Proof. destruct o; cbn [asks]; try contradiction; intros ->; reflexivity. Qed.
Lemma source_qrem pa s o a c fr fr' : inv_conn s -> cnt is_conn fr' = 0%nat -> source s o a c fr ->
  (qr pa c (s_queue s) (fr' ++ fr) + (if pa a then 1 else 0) <= qrem pa s + uses_of pa s o)%nat.
Proof.
  intros [Hc Hy] Hfr [c0 Ha Hs Hcc|k f1 f' now Ho Hf Hn Hor]; unfold qrem, qr; rewrite qfr_app by assumption.
  - rewrite (asks_uses _ _ _ _ Ha). assert (Hl : (match c0 with Unconnected | Requested false => cnt pa (s_queue s) | _ => 0 end <= match s_conn s with Unconnected | Requested false => cnt pa (s_queue s) | _ => 0 end)%nat); [|lia].
    destruct Hcc as [->| ->]; lia.
  - rewrite Hf. cbn [qfr]. rewrite (skipn_nth _ _ _ Hn), cnt_cons. destruct Hor as [->| ->]; cbn [qfr]; lia.
Qed.

Definition pot (pa : args -> bool) s : nat := (cnt (ent pa) (s_table s) + cnt (ent pa) (in_dispatch s) + qrem pa s)%nat.
Lemma extract_frames (fr : list frame) (out : list entry) (x : option exn) (o : op) p wire' matches' :
    ((exists d, o = OReceiveData d /\ p = (fun e : entry => matches' (e_int e) d : res bool) /\ (x = None -> fr = [FrData out d])) \/
     (exists i b, o = OReceiveNack i /\ wire' i = Ok b /\ p = nack_test wire' b /\ (x = None -> fr = [FrNack out]))) ->
    (x <> None -> fr = []) -> (fr = [] \/ flat_map fr_entries fr = out) /\ cnt is_conn fr = 0%nat.
Proof.
  intros Hcc Hx. destruct x as [x|]; [rewrite Hx by discriminate; auto|].
  destruct Hcc as [(d & _ & _ & Hcc)|(i & b & _ & _ & _ & Hcc)]; rewrite Hcc by reflexivity; cbn [flat_map fr_entries]; rewrite app_nil_r; auto.
Qed.

(** what a step does to the three places *)
Lemma pot_trans pa s o s' : inv_conn s -> trans s o s' -> (pot pa s' <= pot pa s + uses_of pa s o)%nat.
Proof.
  intros Hic Ht. pose proof Hic as [Hc Hy]. unfold pot, qrem, in_dispatch.
  destruct Ht as [l Hq H|a c fr l Hs Hm Hq H|a c fr now e1 dl sq fr' l Hs Hm He Hd Hf Hq H|a c Ha Has' Hcc H|Hcc H|k fr Hf Hn H|id0 rq Ho Hrq H|p stay out x fr l He Hcc Hx Hq H
    |f [Hf Hft] Hk Hi H|f fr Hf [He Hfi] Hk H|e1 es d fr l Hf Hq H|e1 es fr Hf H|f fs i fr Hf H|delay cid now Ho H|t1 fr c cs cid Hf Hd Ht Hw H|t1 fr c cs e1 Hf Hd Ht Hw Hg H|t1 fr c cs e1 t' l Hf Hd Ht Hw Hm He Hl H];
    destruct H as [Kt Krq Krm Ksr Kdl Ksq Kcn Kqu Kfr Klg]; rewrite Kt, Kcn, Kqu, Kfr; try lia.
  - pose proof (source_qrem pa s o a c fr [] Hic eq_refl Hs) as H. cbn [app] in H. rewrite (source_frames _ _ _ _ _ Hs). unfold qrem, in_dispatch in *. lia.
  - pose proof (source_qrem pa s o a c fr fr' Hic (matched_frames _ _ _ Hf) Hs) as H. rewrite flat_map_app, (source_frames _ _ _ _ _ Hs).
    assert (E : flat_map fr_entries fr' = []) by (destruct Hf as [->|(fs & -> & _)]; reflexivity). rewrite E. cbn [app].
    rewrite cnt_app, cnt_cons, cnt_nil, He, ent_entry. unfold qrem, in_dispatch in *. lia.
  - unfold qr. rewrite (asks_uses _ _ _ _ Ha).
    assert (Hle : (cnt is_conn (s_frames s) <= 1)%nat) by (destruct (s_conn s) as [|[|]|]; lia).
    pose proof (qfr_add pa (s_queue s) a (s_frames s) Hle) as H1.
    destruct Hcc as [[E ->]|[[b E] ->]]; rewrite ?E in *; rewrite ?cnt_app, ?cnt_cons, ?cnt_nil.
    + rewrite !qfr_none in * by lia. lia.
    + destruct b; [lia|]. rewrite !qfr_none in * by lia. lia.
  - unfold qr. rewrite Hcc. cbn [qfr skipn flat_map fr_entries app]. lia.
  - unfold qr. rewrite Hf in *. cbn [qfr flat_map fr_entries app]. rewrite cnt_cons in Hc. cbn [is_conn] in Hc.
    rewrite !qfr_none by (destruct (s_conn s) as [|[|]|]; lia). lia.
  - pose proof (cnt_filter_split (ent pa) (fun e => e_id e =? id0) (s_table s)). lia.
  - pose proof (extract_cnt p (ent pa) _ _ _ _ He) as E. rewrite cnt_rev in E.
    destruct (extract_frames _ _ _ _ _ _ _ Hcc Hx) as [Hfr Hk].
    unfold qr. rewrite qfr_app by assumption. rewrite flat_map_app, cnt_rev, cnt_app. destruct Hfr as [->| ->]; cbn [flat_map cnt filter length]; rewrite ?cnt_nil; lia.
  - unfold qr. cbn [flat_map]. rewrite Hf. cbn [app]. change (f :: s_frames s) with ([f] ++ s_frames s). rewrite qfr_app by (rewrite cnt_cons, (not_conn _ Hk); reflexivity). lia.
  - unfold qr. rewrite Hf. cbn [flat_map]. rewrite He. cbn [app]. change (f :: fr) with ([f] ++ fr). rewrite (qfr_app _ _ [f]) by (rewrite cnt_cons, (not_conn _ Hk); reflexivity). lia.
  - unfold qr. rewrite Hf. cbn [flat_map fr_entries qfr app]. rewrite cnt_cons. lia.
  - unfold qr. rewrite Hf. cbn [flat_map fr_entries qfr app]. rewrite cnt_cons. lia.
  - unfold qr. rewrite Hf. cbn [flat_map fr_entries qfr app]. lia.
  - destruct (del_entry_cnt _ (ent pa) _ _ He) as (e0 & _ & _ & E). lia.
Qed.

Definition arg_id (id : Z) (a : args) : bool := a_id a =? id.
Definition has_id (id : Z) (e : entry) : bool := e_id e =? id.
Lemma uses_id_of id s o : uses_id id s o = uses_of (arg_id id) s o.
Proof. destruct o; reflexivity. Qed.
(** *** After a removal *)
Record gone (id : Z) s (u : nat) : Prop := {
  gn_table : cnt (has_id id) (s_table s) = 0%nat;
  gn_dis : cnt (has_id id) (in_dispatch s) = 0%nat;
  gn_q : (qrem (arg_id id) s + u = 0 \/ (qrem (arg_id id) s + u <= 1 /\ In id (s_removeReq s)))%nat }.
Definition calls1 (id : Z) (x : event) : bool := match terminal x with Some e => e_id e =? id | None => false end.
Lemma calls1_quiet id l : Forall quiet l -> cnt (calls1 id) l = 0%nat.
Proof. intro H. apply cnt_zero_of. intros x Hx. rewrite Forall_forall in H. specialize (H x Hx). now destruct x. Qed.
Lemma gone_trans id s o s' u : inv_conn s -> inv_src s -> inv_uniq s -> trans s o s' -> gone id s (uses_id id s o + u) ->
  gone id s' u /\ exists l, s_log s' = s_log s ++ l /\ cnt (calls1 id) l = 0%nat.
Proof.
  intros Hic Hin2 [_ Hun] Ht [G1 G2 G3]. rewrite uses_id_of in G3. pose proof Hic as [Hc Hy].
  assert (Hsame : forall s', shape s' (s_table s) (s_removeReq s) (s_removed s') (s_nextSer s') (s_delayed s') (s_nextSeq s') (s_conn s') (s_queue s') (s_frames s') (s_log s') ->
      (qrem (arg_id id) s' <= qrem (arg_id id) s + uses_of (arg_id id) s o)%nat -> in_dispatch s' = in_dispatch s -> gone id s' u).
  { intros s1 [Kt Krq Krm Ksr Kdl Ksq Kcn Kqu Kfr Klg] Hle Hd. constructor; [rewrite Kt; exact G1|rewrite Hd; exact G2|]. rewrite Krq. destruct G3 as [G3|[G3 G4]]; [left; lia|right; split; [lia|exact G4]]. }
  pose proof (pot_trans (arg_id id) _ _ _ Hic Ht) as Hpot. unfold pot in Hpot. change (ent (arg_id id)) with (has_id id) in Hpot. rewrite G1, G2 in Hpot. cbn [Nat.add] in Hpot.
  assert (Hq' : (qrem (arg_id id) s' <= qrem (arg_id id) s + uses_of (arg_id id) s o)%nat) by lia.
  destruct Ht as [l Hq H|a c fr l Hs Hm Hq H|a c fr now e1 dl sq fr' l Hs Hm He Hd Hf Hq H|a c Ha Has' Hcc H|Hcc H|k fr Hf Hn H|id0 rq Ho Hrq H|p stay out x fr l He Hcc Hx Hq H
    |f [Hf Hft] Hk Hi H|f fr Hf [He Hfi] Hk H|e1 es d fr l Hf Hq H|e1 es fr Hf H|f fs i fr Hf H|delay cid now Ho H|t1 fr c cs cid Hf Hd Ht Hw H|t1 fr c cs e1 Hf Hd Ht Hw Hg H|t1 fr c cs e1 t' l Hf Hd Ht Hw Hm He Hl H];
    destruct H as [Kt Krq Krm Ksr Kdl Ksq Kcn Kqu Kfr Klg].
  all: try (split; [|exists l; split; [exact Klg|now apply calls1_quiet]]).
  all: try (split; [|exists []; split; [now rewrite app_nil_r|reflexivity]]).
  - apply Hsame; [constructor; auto|exact Hq'|unfold in_dispatch; now rewrite Kfr].
  - constructor; [now rewrite Kt|unfold in_dispatch; rewrite Kfr, (source_frames _ _ _ _ _ Hs); exact G2|]. rewrite Krq.
    pose proof (source_qrem (arg_id id) s o a c fr [] Hic eq_refl Hs) as H. cbn [app] in H. unfold qrem in *. rewrite Kcn, Kqu, Kfr in *. apply mem_in in Hm.
    destruct (arg_id id a) eqn:E; [left; lia|]. destruct G3 as [G3|[G3 G4]]; [left; lia|right; split; [lia|]].
    apply remove1_in; [|exact G4]. unfold arg_id in E. apply Z.eqb_neq in E. congruence.
  - pose proof (source_qrem (arg_id id) s o a c fr fr' Hic (matched_frames _ _ _ Hf) Hs) as H. unfold qrem in *. rewrite Kcn, Kqu, Kfr in *.
    assert (E : arg_id id a = false).
    { destruct (arg_id id a) eqn:E; [|reflexivity]. exfalso. destruct G3 as [G3|[_ G4]]; [lia|]. unfold arg_id in E. apply Z.eqb_eq in E. subst id. apply mem_in in G4. congruence. }
    split; [|exists (LAdd e1 now :: l); split; [exact Klg|rewrite cnt_cons, (calls1_quiet id l Hq); reflexivity]].
    constructor.
    + rewrite Kt, cnt_app, G1, cnt_cons, cnt_nil, He. change (has_id id _) with (arg_id id a). now rewrite E.
    + unfold in_dispatch. rewrite Kfr, flat_map_app, (source_frames _ _ _ _ _ Hs). assert (E1 : flat_map fr_entries fr' = []) by (destruct Hf as [->|(fs & -> & _)]; reflexivity). rewrite E1. exact G2.
    + unfold qrem. rewrite Krq, Kcn, Kqu, Kfr. destruct G3 as [G3|[G3 G4]]; [left; lia|right; split; [lia|exact G4]].
  - apply Hsame; [constructor; auto|exact Hq'|unfold in_dispatch; now rewrite Kfr].
  - apply Hsame; [constructor; auto|exact Hq'|unfold in_dispatch; now rewrite Kfr].
  - apply Hsame; [constructor; auto|exact Hq'|unfold in_dispatch; now rewrite Kfr, Hf].
  - constructor.
    + pose proof (cnt_filter_split (has_id id) (fun e => e_id e =? id0) (s_table s)). rewrite Kt. cbv beta in H. lia.
    + unfold in_dispatch. now rewrite Kfr.
    + destruct G3 as [G3|[G3 G4]]; [left; lia|right; split; [lia|]]. rewrite Krq, Hrq. destruct (filter _ _); [|exact G4].
      destruct (mem id0 (s_removeReq s)); [exact G4|apply in_or_app; now left].
  - pose proof (extract_cnt p (has_id id) _ _ _ _ He) as E. rewrite cnt_rev in E. destruct (extract_frames _ _ _ _ _ _ _ Hcc Hx) as [Hfr Hk].
    constructor.
    + rewrite Kt, cnt_rev. lia.
    + unfold in_dispatch. rewrite Kfr, flat_map_app, cnt_app. unfold in_dispatch in G2. rewrite G2. destruct Hfr as [->| ->]; [reflexivity|lia].
    + rewrite Krq. destruct G3 as [G3|[G3 G4]]; [left; lia|right; split; [lia|exact G4]].
  - apply Hsame; [constructor; auto|exact Hq'|unfold in_dispatch; rewrite Kfr; cbn [flat_map]; now rewrite Hf].
  - apply Hsame; [constructor; auto|exact Hq'|unfold in_dispatch; rewrite Kfr, Hf; cbn [flat_map]; now rewrite He].
  - unfold in_dispatch in G2. rewrite Hf in G2. cbn [flat_map fr_entries] in G2. rewrite cnt_app, cnt_cons in G2.
    assert (E : has_id id e1 = false) by (destruct (has_id id e1); [lia|reflexivity]).
    split; [constructor; [now rewrite Kt|unfold in_dispatch; rewrite Kfr; cbn [flat_map fr_entries]; rewrite cnt_app; lia|]; rewrite Krq; destruct G3 as [G3|[G3 G4]]; [left; lia|right; split; [lia|exact G4]]|].
    exists (LData e1 d :: l). split; [exact Klg|]. rewrite cnt_cons, (calls1_quiet id l Hq).
    change (calls1 id (LData e1 d)) with (has_id id e1). lia.
  - unfold in_dispatch in G2. rewrite Hf in G2. cbn [flat_map fr_entries] in G2. rewrite cnt_app, cnt_cons in G2.
    split; [constructor; [now rewrite Kt|unfold in_dispatch; rewrite Kfr; cbn [flat_map fr_entries]; rewrite cnt_app; lia|]; rewrite Krq; destruct G3 as [G3|[G3 G4]]; [left; lia|right; split; [lia|exact G4]]|].
    exists [LNack e1]. split; [exact Klg|]. rewrite cnt_cons, cnt_nil. change (calls1 id (LNack e1 : event)) with (has_id id e1). lia.
  - split; [|exists [LInterest f i]; split; [exact Klg|reflexivity]]. apply Hsame; [constructor; auto|exact Hq'|unfold in_dispatch; now rewrite Kfr, Hf].
  - apply Hsame; [constructor; auto|exact Hq'|unfold in_dispatch; now rewrite Kfr].
  - split; [|exists [LCall (c_seq c) cid t1]; split; [exact Klg|reflexivity]]. apply Hsame; [constructor; auto|exact Hq'|unfold in_dispatch; now rewrite Kfr].
  - apply Hsame; [constructor; auto|exact Hq'|unfold in_dispatch; now rewrite Kfr].
  - destruct (del_entry_cnt _ (has_id id) _ _ He) as (e0 & Hi0 & Hs0 & E).
    split.
    + constructor; [rewrite Kt; lia|unfold in_dispatch; now rewrite Kfr|]. rewrite Krq. destruct G3 as [G3|[G3 G4]]; [left; lia|right; split; [lia|exact G4]].
    + exists l. split; [exact Klg|]. destruct Hl as [[_ ->]|[_ (l' & -> & Hq)]]; [reflexivity|]. rewrite cnt_cons, (calls1_quiet id l' Hq).
      assert (Hc1 : delayed_ok lifetime (s_log s) c) by (apply (is_del _ _ _ Hin2); rewrite Hd; now left). unfold delayed_ok in Hc1. rewrite Hw in Hc1.
      destruct Hc1 as (n & Hn & _). destruct (is_table _ _ _ Hin2 e0 Hi0) as [t0 Ha0]. destruct (Hun _ _ _ _ Ha0 Hn Hs0) as [-> _].
      change (calls1 id (LTimeout e1 t1 : event)) with (has_id id e1). lia.
Qed.

Lemma uses_app id s os1 os2 : uses id s (os1 ++ os2) = (uses id s os1 + uses id (run s os1) os2)%nat.
Proof. revert s. induction os1 as [|o os1 IH]; intro s; [reflexivity|]. cbn [app NodeSpec.uses]. rewrite IH, run_cons. lia. Qed.
Lemma pot_run async id os : (pot (arg_id id) (run (init async) os) <= uses id (init async) os)%nat.
Proof.
  induction os as [|o os IH] using rev_ind; [cbn; lia|].
  rewrite uses_app, run_app. change (run (run (init async) os) [o]) with (step (run (init async) os) o). cbn [NodeSpec.uses]. rewrite uses_id_of.
  pose proof (pot_trans (arg_id id) _ _ _ (inv_conn_run async os) (step_trans (run (init async) os) o)). lia.
Qed.

Theorem removed async os1 os2 id :
  (uses id (init async) (os1 ++ ORemovePending id :: os2) <= 1)%nat ->
  (forall e, In e (in_dispatch (run (init async) os1)) -> e_id e <> id) ->
  exists l, s_log (run (init async) (os1 ++ ORemovePending id :: os2)) = s_log (run (init async) os1) ++ l /\ ~ calls_id id l.
Proof.
  intros Hu Hd. rewrite uses_app in Hu. cbn [NodeSpec.uses uses_id] in Hu.
  pose proof (pot_run async id os1) as Hp.
  assert (Hg : gone id (step (run (init async) os1) (ORemovePending id)) (uses id (step (run (init async) os1) (ORemovePending id)) os2)).
  { set (s := run (init async) os1) in *. set (s' := step s (ORemovePending id)) in *. assert (Hdz : cnt (has_id id) (in_dispatch s) = 0%nat) by (apply cnt_zero_of; intros e He; apply Z.eqb_neq; now apply Hd).
    pose proof (cnt_filter_split (has_id id) (fun e => e_id e =? id) (s_table s)) as Hsp.
    assert (Hf1 : cnt (has_id id) (filter (fun e => negb (e_id e =? id)) (s_table s)) = 0%nat).
    { apply cnt_zero_of. intros e He. apply filter_In in He. destruct He as [_ He]. apply Bool.negb_true_iff in He. exact He. }
    constructor; [exact Hf1|exact Hdz|]. change (qrem (arg_id id) s') with (qrem (arg_id id) s).
    unfold pot in Hp. change (ent (arg_id id)) with (has_id id) in Hp.
    change (s_removeReq s') with (match filter (fun e => e_id e =? id) (s_table s) with [] => if mem id (s_removeReq s) then s_removeReq s else s_removeReq s ++ [id] | _ => s_removeReq s end).
    destruct (filter (fun e => e_id e =? id) (s_table s)) as [|e0 r] eqn:Ef.
    - right. split; [lia|]. destruct (mem id (s_removeReq s)) eqn:Em; [now apply mem_in|apply in_or_app; right; now left].
    - left. assert (He0 : In e0 (filter (fun e => e_id e =? id) (s_table s))) by (rewrite Ef; now left). apply filter_In in He0. destruct He0 as [Hi0 He0].
      pose proof (cnt_pos (has_id id) (s_table s) e0 Hi0 He0). lia. }
  assert (Hlog : exists l, s_log (run (step (run (init async) os1) (ORemovePending id)) os2) = s_log (step (run (init async) os1) (ORemovePending id)) ++ l /\ cnt (calls1 id) l = 0%nat).
  { assert (Hinv : forall os', inv_conn (run (init async) os') /\ inv_src (run (init async) os') /\ inv_uniq (run (init async) os')) by (intro; split; [apply inv_conn_run|split; [apply inv_src_run|apply inv_uniq_run]]).
    assert (Hst : step (run (init async) os1) (ORemovePending id) = run (init async) (os1 ++ [ORemovePending id])) by now rewrite run_app.
    rewrite Hst in *. clear Hst. revert Hg. generalize (os1 ++ [ORemovePending id]) as os'. clear Hu Hd Hp.
    induction os2 as [|o os2 IH]; intros os' Hg.
    { exists []. split; [symmetry; apply app_nil_r|reflexivity]. }
    cbn [NodeSpec.uses] in Hg. destruct (Hinv os') as (V1 & V2 & V3).
    destruct (gone_trans id _ _ _ _ V1 V2 V3 (step_trans _ o) Hg) as (Hg' & l1 & Hl1 & Hc1).
    rewrite run_cons. specialize (IH (os' ++ [o])). rewrite run_app in IH. change (run (run (init async) os') [o]) with (step (run (init async) os') o) in IH.
    destruct (IH Hg') as (l2 & Hl2 & Hc2). exists (l1 ++ l2). split; [now rewrite Hl2, Hl1, app_assoc|rewrite cnt_app; lia]. }
  destruct Hlog as (l & Hl & Hc). exists l. split; [rewrite run_app, run_cons; exact Hl|].
  intros (ev & e & Hi & Ht & He). pose proof (cnt_zero _ _ Hc ev Hi) as Hz. unfold calls1 in Hz. rewrite Ht in Hz. apply Z.eqb_neq in Hz. contradiction.
Qed.
End Node.
