(** * Client node: who gets a packet, and delayed calls. *)
From Verif Require Import Base BaseLemmas NodeModel NodeSpec NodeProofs NodeProofs2 NodeProofs3 NodeProofs4.
From Coq Require Import Lia Sorted.

Section Node.
Context {I D F : Type}.
Variable matches : I -> D -> res bool.
Variable wire : I -> res bytes.
Variable lifetime : I -> option Z.
Variable isLocalTimeout : I -> bool.
Variable fmatch : F -> I -> res bool.
Variable status : D -> res Z.
Notation entry := (entry I F). Notation state := (state I D F). Notation event := (event I D F). Notation op := (op I D F).
Notation frame := (frame I D F). Notation args := (args I F). Notation dcall := (dcall I F).
Notation run := (run matches wire lifetime isLocalTimeout fmatch status).
Notation step := (step matches wire lifetime isLocalTimeout fmatch status).
Notation trans := (trans matches wire lifetime fmatch).
Notation step_trans := (step_trans matches wire lifetime isLocalTimeout fmatch status).
Notation log_run := (log_run matches wire lifetime isLocalTimeout fmatch status).
Implicit Types (s : state) (e : entry).

(** *** Extraction *)
Definition okt (r : res bool) : bool := match r with Ok b => b | Err _ => false end.
Lemma extract_exact p (lt : list entry) : (forall e, In e lt -> exists b, p e = Ok b) ->
  extract p lt = (filter (fun e => negb (okt (p e))) lt, filter (fun e => okt (p e)) lt, None).
Proof.
  induction lt as [|e lt IH]; intro H; [reflexivity|]. cbn [extract filter].
  destruct (H e (or_introl eq_refl)) as [b Hb]. rewrite IH by (intros; apply H; now right). rewrite Hb. destruct b; reflexivity.
Qed.
Lemma filter_rev' {A} (p : A -> bool) (l : list A) : filter p (rev l) = rev (filter p l).
Proof. induction l as [|x l IH]; [reflexivity|]. cbn [rev filter]. rewrite filter_app, IH. cbn [filter]. destruct (p x); [reflexivity|now rewrite app_nil_r]. Qed.
Lemma receive_data s d : (forall e, In e (s_table s) -> exists b, matches (e_int e) d = Ok b) ->
  let s' := step s (OReceiveData d) in
  s_table s' = filter (fun e => negb (okt (matches (e_int e) d))) (s_table s) /\
  s_frames s' = FrData (rev (filter (fun e => okt (matches (e_int e) d)) (s_table s))) d :: s_frames s /\ s_log s' = s_log s.
Proof.
  intros H s'. subst s'. cbn [NodeModel.step]. unfold receiveData, pit_extract.
  rewrite extract_exact by (intros e He; apply H; now apply in_rev). rewrite !filter_rev', rev_involutive. split; [reflexivity|split; reflexivity].
Qed.
Lemma receive_nack s i b : wire i = Ok b -> (forall e, In e (s_table s) -> exists b, wire (e_int e) = Ok b) ->
  let hit := fun e => e_nack e && match wire (e_int e) with Ok b' => zlist_eqb b' b | Err _ => false end in
  let s' := step s (OReceiveNack i) in
  s_table s' = filter (fun e => negb (hit e)) (s_table s) /\
  s_frames s' = FrNack (rev (filter hit (s_table s))) :: s_frames s /\ s_log s' = s_log s.
Proof.
  intros Hb H hit s'. subst s'. cbn [NodeModel.step]. unfold receiveNack, pit_extract. rewrite Hb.
  assert (Hok : forall e, In e (s_table s) -> okt (nack_test wire b e) = hit e).
  { intros e He. unfold nack_test, hit. destruct (e_nack e); [|reflexivity]. destruct (H e He) as [b' ->]. reflexivity. }
  rewrite extract_exact. 2: { intros e He. unfold nack_test. destruct (e_nack e); [|eauto]. destruct (H e) as [b' ->]; [now apply in_rev|]. cbn. eauto. }
  rewrite !filter_rev', rev_involutive. cbn [s_table set_pit push set_frames s_frames s_log].
  split; [apply filter_ext_in; intros e He; now rewrite Hok|split; [|reflexivity]]. do 3 f_equal. apply filter_ext_in. intros e He. now apply Hok.
Qed.

(** what waits in a loop of callbacks is called before the loop ends *)
Definition waits (x : event) (f : frame) : Prop :=
  match f, x with
  | FrData es d, LData e d' => In e es /\ d = d'
  | FrNack es, LNack e => In e es
  | FrInterest fs i, LInterest f i' => In f fs /\ i = i'
  | _, _ => False
  end.
Lemma waits_trans s o s' x f : trans s o s' -> In f (s_frames s) -> waits x f -> (exists f', In f' (s_frames s') /\ waits x f') \/ In x (s_log s').
Proof.
  intros Ht Hi Hx0.
  destruct Ht as [l Hq H|a c fr l Hs Hm Hq H|a c fr now e1 dl sq fr' l Hs Hm He Hd Hf Hq H|a c Ha Has' Hcc H|Hcc H|k fr Hf Hn H|id0 rq Ho Hrq H|p stay out x0 fr l He Hcc Hx Hq H
    |f0 [Hf Hft] Hk H0 H|f0 fr Hf [He Hfi] Hk H|e1 es d fr l Hf Hq H|e1 es fr Hf H|f0 fs i fr Hf H|delay cid now Ho H|t1 fr c cs cid Hf Hd Ht Hw H|t1 fr c cs e1 Hf Hd Ht Hw Hg H|t1 fr c cs e1 t' l Hf Hd Ht Hw Hm He Hl H];
    destruct H as [Kt Krq Krm Ksr Kdl Ksq Kcn Kqu Kfr Klg]; rewrite Kfr, Klg.
  all: try solve [left; exists f; split; [assumption|assumption]].
  all: try solve [left; exists f; split; [now right|assumption]].
  all: assert (Hsrc : forall a c fr, source s o a c fr -> In f fr) by (intros a0 c0 fr0 [|k0 f1 f'0 now0 Ho0 Hf0 Hn0 Hor]; [exact Hi|]; rewrite Hf0 in Hi; destruct Hi as [<-|Hi]; [contradiction|]; destruct Hor as [->| ->]; [now right|assumption]).
  - left; exists f; split; [eapply Hsrc; eassumption|assumption].
  - left; exists f; split; [apply in_or_app; right; eapply Hsrc; eassumption|assumption].
  - left; exists f; split; [|assumption]. rewrite Hf in Hi. destruct Hi as [<-|Hi]; [contradiction|exact Hi].
  - left; exists f; split; [apply in_or_app; now right|assumption].
  - rewrite Hf in Hi. destruct Hi as [<-|Hi]; [|left; exists f; split; assumption].
    clear Hsrc. destruct f0 as [es d|es|fs i|t|k], x; cbn [waits] in Hx0; try contradiction; cbn [fr_entries fr_filters] in He, Hfi; subst; try (destruct Hx0 as [[] _]); contradiction.
  - rewrite Hf in Hi. destruct Hi as [<-|Hi]; [|left; exists f; split; [now right|assumption]].
    destruct x; cbn [waits] in Hx0; try contradiction. destruct Hx0 as [[<-|Hx0] <-]; [right; apply in_or_app; right; now left|].
    left. exists (FrData es d). split; [now left|split; [assumption|reflexivity]].
  - rewrite Hf in Hi. destruct Hi as [<-|Hi]; [|left; exists f; split; [now right|assumption]].
    destruct x; cbn [waits] in Hx0; try contradiction. destruct Hx0 as [<-|Hx0]; [right; apply in_or_app; right; now left|].
    left. exists (FrNack es). split; [now left|assumption].
  - rewrite Hf in Hi. destruct Hi as [<-|Hi]; [|left; exists f; split; [now right|assumption]].
    destruct x; cbn [waits] in Hx0; try contradiction. destruct Hx0 as [[<-|Hx0] <-]; [right; apply in_or_app; right; now left|].
    left. exists (FrInterest fs i). split; [now left|split; [assumption|reflexivity]].
Qed.
Lemma waits_run s os x f : In f (s_frames s) -> waits x f -> s_frames (run s os) = [] -> In x (s_log (run s os)).
Proof.
  revert s f. induction os as [|o os IH]; intros s f Hi Hw Hfr.
  - cbn in Hfr. rewrite Hfr in Hi. destruct Hi.
  - rewrite run_cons in *. destruct (waits_trans _ _ _ x f (step_trans s o) Hi Hw) as [(f' & Hi' & Hw')|Hin]; [eapply IH; eassumption|].
    destruct (log_run (step s o) os) as [l ->]. apply in_or_app; now left.
Qed.
Lemma data_called s d os e : (forall e, In e (s_table s) -> exists b, matches (e_int e) d = Ok b) ->
  s_frames (run (step s (OReceiveData d)) os) = [] -> In e (s_table s) -> matches (e_int e) d = Ok true -> In (LData e d) (s_log (run (step s (OReceiveData d)) os)).
Proof.
  intros H Hfr Hi Hm. destruct (receive_data s d H) as (_ & Hf & _).
  apply (waits_run _ os _ (FrData (rev (filter (fun e => okt (matches (e_int e) d)) (s_table s))) d)); [rewrite Hf; now left| |exact Hfr].
  split; [|reflexivity]. apply in_rev. rewrite rev_involutive. apply filter_In. split; [exact Hi|now rewrite Hm].
Qed.
Lemma nack_called s i b os e : wire i = Ok b -> (forall e, In e (s_table s) -> exists b, wire (e_int e) = Ok b) ->
  s_frames (run (step s (OReceiveNack i)) os) = [] -> In e (s_table s) -> e_nack e = true -> wire (e_int e) = Ok b -> In (LNack e) (s_log (run (step s (OReceiveNack i)) os)).
Proof.
  intros Hb H Hfr Hi He Hw. destruct (receive_nack s i b Hb H) as (_ & Hf & _).
  eapply (waits_run _ os _ (FrNack _)); [rewrite Hf; now left| |exact Hfr].
  cbn [waits]. apply in_rev. rewrite rev_involutive. apply filter_In. split; [exact Hi|]. rewrite He, Hw. cbn [andb]. apply zlist_eqb_eq. reflexivity.
Qed.

(** every callback is for a packet which was received *)
Definition pk_frame (os : list op) (f : frame) : Prop :=
  match f with
  | FrData es d => In (OReceiveData d) os
  | FrNack es => exists i b, In (OReceiveNack i) os /\ wire i = Ok b /\ forall e, In e es -> wire (e_int e) = Ok b
  | _ => True
  end.
Definition pk_log (os : list op) (x : event) : Prop :=
  match x with
  | LData e d => In (OReceiveData d) os
  | LNack e => exists i b, In (OReceiveNack i) os /\ wire i = Ok b /\ wire (e_int e) = Ok b
  | _ => True
  end.
Lemma pk_frame_app os o f : pk_frame os f -> pk_frame (os ++ [o]) f.
Proof. destruct f; cbn; auto; [intro; apply in_or_app; now left|]. intros (i & b & H1 & H2 & H3). exists i, b. split; [apply in_or_app; now left|split; assumption]. Qed.
Lemma pk_log_app os o x : pk_log os x -> pk_log (os ++ [o]) x.
Proof. destruct x; cbn; auto; [intro; apply in_or_app; now left|]. intros (i & b & H1 & H2 & H3). exists i, b. split; [apply in_or_app; now left|split; assumption]. Qed.
Lemma packets async os : (forall f, In f (s_frames (run (init async) os)) -> pk_frame os f) /\ (forall x, In x (s_log (run (init async) os)) -> pk_log os x).
Proof.
  induction os as [|o os [IH1 IH2]] using rev_ind; [split; cbn; contradiction|].
  rewrite run_app. change (run (run (init async) os) [o]) with (step (run (init async) os) o). set (s := run (init async) os) in *.
  pose proof (step_trans s o) as Ht.
  assert (B1 : forall f, In f (s_frames s) -> pk_frame (os ++ [o]) f) by (intros; now apply pk_frame_app, IH1).
  assert (B2 : forall x, In x (s_log s) -> pk_log (os ++ [o]) x) by (intros; now apply pk_log_app, IH2).
  assert (Bq : forall l : list event, Forall quiet l -> forall x, In x l -> pk_log (os ++ [o]) x) by (intros l H x Hx; rewrite Forall_forall in H; specialize (H x Hx); now destruct x).
  assert (Hsrc : forall a c fr f, source s o a c fr -> In f fr -> pk_frame (os ++ [o]) f).
  { intros a c fr f Hs Hi. destruct (source_in _ _ _ _ _ _ Hs Hi) as [H|[k ->]]; [auto|exact Logic.I]. }
  destruct Ht as [l Hq H|a c fr l Hs Hm Hq H|a c fr now e1 dl sq fr' l Hs Hm He Hd Hf Hq H|a c Ha Has' Hcc H|Hcc H|k fr Hf Hn H|id0 rq Ho Hrq H|p stay out x0 fr l He Hcc Hx Hq H
    |f0 [Hf Hft] Hk H0 H|f0 fr Hf He Hk H|e1 es d fr l Hf Hq H|e1 es fr Hf H|f0 fs i0 fr Hf H|delay cid now Ho H|t1 fr c cs cid Hf Hd Ht Hw H|t1 fr c cs e1 Hf Hd Ht Hw Hg H|t1 fr c cs e1 t' l Hf Hd Ht Hw Hm He Hl H];
    destruct H as [Kt Krq Krm Ksr Kdl Ksq Kcn Kqu Kfr Klg]; split; rewrite ?Kfr, ?Klg; auto.
  all: try (intros x Hi; apply in_app_or in Hi; destruct Hi as [Hi|Hi]; [now apply B2|]).
  all: try (eapply Bq; eassumption).
  - intros f Hi. eapply Hsrc; eassumption.
  - intros f Hi. apply in_app_or in Hi. destruct Hi as [Hi|Hi]; [|eapply Hsrc; eassumption].
    destruct Hf as [->|(fs & -> & Hf)]; [destruct Hi|]. destruct Hi as [<-|[]]. exact Logic.I.
  - destruct Hi as [<-|Hi]; [exact Logic.I|eapply Bq; eassumption].
  - intros f [<-|Hi]; [exact Logic.I|auto].
  - intros f Hi. apply B1. rewrite Hf. now right.
  - intros f Hi. apply in_app_or in Hi. destruct Hi as [Hi|Hi]; [|auto]. destruct x0 as [x|]; [rewrite Hx in Hi by discriminate; destruct Hi|].
    destruct Hcc as [(d & -> & _ & Hcc)|(i & b & -> & Hb & -> & Hcc)]; rewrite Hcc in Hi by reflexivity; destruct Hi as [<-|[]]; cbn [pk_frame].
    + apply in_or_app; right; now left.
    + exists i, b. split; [apply in_or_app; right; now left|split; [exact Hb|]]. intros e1 H1. pose proof (extract_out _ _ _ _ _ _ He H1) as Hp.
      unfold nack_test in Hp. destruct (e_nack e1); [|discriminate]. destruct (wire (e_int e1)) as [b'|]; [|discriminate]. cbn [rbind] in Hp. injection Hp as Hp. apply zlist_eqb_eq in Hp. now subst.
  - intros f [<-|Hi]; [|auto]. destruct f0; try exact Logic.I; destruct Hft.
  - intros f Hi. apply B1. rewrite Hf. now right.
  - intros f [<-|Hi]; [|apply B1; rewrite Hf; now right]. assert (Hok : pk_frame (os ++ [o]) (FrData (e1 :: es) d)) by (apply B1; rewrite Hf; now left). exact Hok.
  - destruct Hi as [<-|Hi]; [|eapply Bq; eassumption]. assert (Hok : pk_frame (os ++ [o]) (FrData (e1 :: es) d)) by (apply B1; rewrite Hf; now left). exact Hok.
  - intros f [<-|Hi]; [|apply B1; rewrite Hf; now right]. assert (Hok : pk_frame (os ++ [o]) (FrNack (e1 :: es))) by (apply B1; rewrite Hf; now left).
    destruct Hok as (i & b & H1 & H2 & H3). exists i, b. split; [exact H1|split; [exact H2|intros e He; apply H3; now right]].
  - destruct Hi as [<-|[]]. assert (Hok : pk_frame (os ++ [o]) (FrNack (e1 :: es))) by (apply B1; rewrite Hf; now left).
    destruct Hok as (i & b & H1 & H2 & H3). exists i, b. split; [exact H1|split; [exact H2|apply H3; now left]].
  - intros f [<-|Hi]; [exact Logic.I|apply B1; rewrite Hf; now right].
  - destruct Hi as [<-|[]]. exact Logic.I.
  - destruct Hi as [<-|[]]. exact Logic.I.
  - destruct Hl as [[_ ->]|[_ (l' & -> & Hq)]]; [destruct Hi|]. destruct Hi as [<-|Hi]; [exact Logic.I|eapply Bq; eassumption].
Qed.

(** *** Delayed calls: sorted by time, then by the order of the calls *)
Definition before (c1 c2 : dcall) : Prop := c_time c1 < c_time c2 \/ c_time c1 = c_time c2 /\ (c_seq c1 < c_seq c2)%nat.
Lemma insert_split (l : list dcall) c : exists l1 l2, l = l1 ++ l2 /\ rev (insert_back (rev l) c) = l1 ++ c :: l2 /\
  Forall (fun x => c_time c < c_time x) l2 /\ (l1 = [] \/ exists l0 x, l1 = l0 ++ [x] /\ c_time x <= c_time c).
Proof.
  induction l as [|x l IH] using rev_ind.
  - exists [], []. cbn. split; [reflexivity|split; [reflexivity|split; [constructor|now left]]].
  - rewrite rev_app_distr. cbn [rev app insert_back]. destruct (Z.leb_spec (c_time x) (c_time c)).
    + exists (l ++ [x]), []. cbn [rev]. rewrite rev_involutive, <- !app_assoc. cbn [app].
      split; [reflexivity|split; [reflexivity|split; [constructor|right; now exists l, x]]].
    + destruct IH as (l1 & l2 & E & Er & Hf & Hl). exists l1, (l2 ++ [x]). cbn [rev]. rewrite Er, E, <- !app_assoc. cbn [app].
      split; [reflexivity|split; [reflexivity|split; [|exact Hl]]]. apply Forall_app; split; [exact Hf|constructor; [lia|constructor]].
Qed.
Lemma ss_app_inv {A} (R : A -> A -> Prop) l1 l2 : StronglySorted R (l1 ++ l2) -> StronglySorted R l1 /\ StronglySorted R l2 /\ forall x y, In x l1 -> In y l2 -> R x y.
Proof.
  induction l1 as [|x l1 IH]; cbn [app]; intro H; [split; [constructor|split; [exact H|intros ? ? []]]|].
  inversion H as [|? ? H1 H2]; subst. destruct (IH H1) as (A1 & A2 & A3). rewrite Forall_app in H2. destruct H2 as [B1 B2].
  split; [now constructor|split; [exact A2|]]. intros a b [<-|Ha] Hb; [rewrite Forall_forall in B2; now apply B2|now apply A3].
Qed.
Lemma ss_app {A} (R : A -> A -> Prop) l1 l2 : StronglySorted R l1 -> StronglySorted R l2 -> (forall x y, In x l1 -> In y l2 -> R x y) -> StronglySorted R (l1 ++ l2).
Proof.
  induction l1 as [|x l1 IH]; cbn [app]; intros H1 H2 H; [exact H2|]. inversion H1; subst. constructor; [apply IH; auto; intros; apply H; [now right|assumption]|].
  apply Forall_app; split; [assumption|]. apply Forall_forall. intros y Hy. apply H; [now left|assumption].
Qed.
Definition inv_sorted s : Prop := StronglySorted before (s_delayed s) /\ forall c, In c (s_delayed s) -> (c_seq c < s_nextSeq s)%nat.
Lemma insert_sorted (l : list dcall) n t w : StronglySorted before l -> (forall c, In c l -> (c_seq c < n)%nat) -> StronglySorted before (rev (insert_back (rev l) (DCall n t w))).
Proof.
  intros Hs Hn. destruct (insert_split l (DCall n t w)) as (l1 & l2 & E & -> & Hf & Hl). cbn [c_time] in *. subst l.
  destruct (ss_app_inv _ _ _ Hs) as (S1 & S2 & S3). apply ss_app; [exact S1| |].
  - constructor; [exact S2|]. eapply Forall_impl; [|exact Hf]. intros c Hc. left. exact Hc.
  - assert (H1 : forall x, In x l1 -> c_time x <= t).
    { destruct Hl as [->|(l0 & y & -> & Hy)]; [intros ? []|]. destruct (ss_app_inv _ _ _ S1) as (_ & _ & S4).
      intros x Hx. apply in_app_or in Hx. destruct Hx as [Hx|[<-|[]]]; [|exact Hy]. destruct (S4 x y Hx (or_introl eq_refl)) as [?|[? _]]; lia. }
    intros x y Hx [<-|Hy]; [|apply S3; assumption]. unfold before; cbn [c_time c_seq]. specialize (H1 x Hx).
    assert (c_seq x < n)%nat by (apply Hn, in_or_app; now left). lia.
Qed.
Lemma delayed_trans s o s' : trans s o s' ->
  (s_delayed s' = s_delayed s /\ s_nextSeq s' = s_nextSeq s) \/
  (exists c cs, s_delayed s = c :: cs /\ s_delayed s' = cs /\ s_nextSeq s' = s_nextSeq s) \/
  (exists t w, s_delayed s' = rev (insert_back (rev (s_delayed s)) (DCall (s_nextSeq s) t w)) /\ s_nextSeq s' = S (s_nextSeq s)).
Proof.
  intros [l Hq H|a c fr l Hs Hm Hq H|a c fr now e1 dl sq fr' l Hs Hm He Hd Hf Hq H|a c Ha Has' Hcc H|Hcc H|k fr Hf Hn H|id0 rq Ho Hrq H|p stay out x0 fr l He Hcc Hx Hq H
    |f0 [Hf Hft] Hk H0 H|f0 fr Hf He Hk H|e1 es d fr l Hf Hq H|e1 es fr Hf H|f0 fs i fr Hf H|delay cid now Ho H|t1 fr c cs cid Hf Hd Ht Hw H|t1 fr c cs e1 Hf Hd Ht Hw Hg H|t1 fr c cs e1 t' l Hf Hd Ht Hw Hm He Hl H];
    destruct H as [Kt Krq Krm Ksr Kdl Ksq Kcn Kqu Kfr Klg]; rewrite Kdl, Ksq; auto.
  - destruct Hd as [(-> & -> & _)|(_ & -> & ->)]; [now left|]. right; right. eauto.
  - right; right. eauto.
  - right; left. exists c, cs. auto.
  - right; left. exists c, cs. auto.
  - right; left. exists c, cs. auto.
Qed.
Lemma inv_sorted_trans s o s' : trans s o s' -> inv_sorted s -> inv_sorted s'.
Proof.
  intros Ht [H1 H2]. unfold inv_sorted. destruct (delayed_trans _ _ _ Ht) as [[-> ->]|[(c & cs & E & -> & ->)|(t & w & -> & ->)]].
  - split; assumption.
  - rewrite E in *. inversion H1; subst. split; [assumption|]. intros c0 Hc. apply H2. now right.
  - split; [now apply insert_sorted|]. intros c Hc. apply insert_in in Hc. destruct Hc as [->|Hc]; [cbn; lia|apply H2 in Hc; lia].
Qed.
Lemma inv_sorted_run async os : inv_sorted (run (init async) os).
Proof.
  apply (run_ind matches wire lifetime isLocalTimeout fmatch status inv_sorted).
  - split; cbn; [constructor|contradiction].
  - intros s o. apply (inv_sorted_trans s o), step_trans.
Qed.

(** which events are delayed calls *)
Definition is_call (n : nat) (x : event) : bool := match x with LCall q _ _ => Nat.eqb q n | _ => false end.
Definition has_seq (n : nat) (c : dcall) : bool := Nat.eqb (c_seq c) n.
Lemma call_quiet (l : list event) : Forall quiet l -> forall q cid t, ~ In (LCall q cid t) l.
Proof. intros H q cid t Hi. rewrite Forall_forall in H. apply (H _ Hi). Qed.
Inductive called s : state -> Prop :=
| cl_none s' : (exists l, s_log s' = s_log s ++ l /\ forall q cid t, ~ In (LCall q cid t) l) ->
    (forall c cid, In c (s_delayed s) -> c_what c = CUser cid -> In c (s_delayed s')) -> called s s'
| cl_one s' t c cs cid : s_delayed s = c :: cs -> c_what c = CUser cid -> c_time c <= t -> s_delayed s' = cs -> s_log s' = s_log s ++ [LCall (c_seq c) cid t] -> called s s'.
Lemma called_trans s o s' : trans s o s' -> called s s'.
Proof.
  intros [l Hq H|a c fr l Hs Hm Hq H|a c fr now e1 dl sq fr' l Hs Hm He Hd Hf Hq H|a c Ha Has' Hcc H|Hcc H|k fr Hf Hn H|id0 rq Ho Hrq H|p stay out x0 fr l He Hcc Hx Hq H
    |f0 [Hf Hft] Hk H0 H|f0 fr Hf He Hk H|e1 es d fr l Hf Hq H|e1 es fr Hf H|f0 fs i fr Hf H|delay cid now Ho H|t1 fr c cs cid Hf Hd Ht Hw H|t1 fr c cs e1 Hf Hd Ht Hw Hg H|t1 fr c cs e1 t' l Hf Hd Ht Hw Hm He Hl H];
    destruct H as [Kt Krq Krm Ksr Kdl Ksq Kcn Kqu Kfr Klg].
  all: try (apply cl_none; [|rewrite Kdl; auto]; first [exists l; split; [exact Klg|now apply call_quiet]|exists []; split; [now rewrite app_nil_r|intros ? ? ? []]]).
  - apply cl_none.
    + eexists; split; [exact Klg|]. intros q cid t [Hx|Hx]; [discriminate|]. now apply (call_quiet _ Hq) in Hx.
    + intros c0 cid Hc0 _. rewrite Kdl. destruct Hd as [(-> & _ & _)|(_ & -> & _)]; [exact Hc0|]. apply insert_in. now right.
  - apply cl_none; [|rewrite Kdl; auto]. eexists; split; [exact Klg|]. intros q cid t [Hx|Hx]; [discriminate|]. now apply (call_quiet _ Hq) in Hx.
  - apply cl_none; [|rewrite Kdl; auto]. eexists; split; [exact Klg|]. intros q cid t [Hx|[]]; discriminate.
  - apply cl_none; [|rewrite Kdl; auto]. eexists; split; [exact Klg|]. intros q cid t [Hx|[]]; discriminate.
  - apply cl_none; [exists []; split; [now rewrite app_nil_r|intros ? ? ? []]|]. intros c0 cid0 Hc0 _. rewrite Kdl. apply insert_in. now right.
  - now apply (cl_one _ _ t1 c cs cid).
  - apply cl_none; [exists []; split; [now rewrite app_nil_r|intros ? ? ? []]|]. intros c0 cid0 Hc0 Hw0. rewrite Kdl. rewrite Hd in Hc0. destruct Hc0 as [<-|Hc0]; [congruence|exact Hc0].
  - apply cl_none.
    + eexists; split; [exact Klg|]. destruct Hl as [[_ ->]|[_ (l' & -> & Hq)]]; [intros ? ? ? []|]. intros q cid t [Hx|Hx]; [discriminate|]. now apply (call_quiet _ Hq) in Hx.
    + intros c0 cid0 Hc0 Hw0. rewrite Kdl. rewrite Hd in Hc0. destruct Hc0 as [<-|Hc0]; [congruence|exact Hc0].
Qed.
Lemma cnt_no_call (l : list event) n : (forall q cid t, ~ In (LCall q cid t) l) -> cnt (is_call n) l = 0%nat.
Proof. intro H. apply cnt_zero_of. intros x Hx. destruct x; try reflexivity. now apply H in Hx. Qed.

(** each number at most once, in the table or called *)
Definition inv_calls s : Prop := forall n, (cnt (has_seq n) (s_delayed s) + cnt (is_call n) (s_log s) <= (if Nat.ltb n (s_nextSeq s) then 1 else 0))%nat.
Lemma cnt_insert n (l : list dcall) q t w : cnt (has_seq n) (rev (insert_back (rev l) (DCall q t w))) = ((if Nat.eqb q n then 1 else 0) + cnt (has_seq n) l)%nat.
Proof. destruct (insert_split l (DCall q t w)) as (l1 & l2 & E & -> & _). subst l. rewrite !cnt_app, cnt_cons. unfold has_seq at 2. cbn [c_seq]. lia. Qed.
Lemma inv_calls_trans s o s' : trans s o s' -> inv_sorted s -> inv_calls s -> inv_calls s'.
Proof.
  intros Ht [_ Hlt] Hi n. specialize (Hi n).
  pose proof (called_trans _ _ _ Ht) as Hcl. pose proof (delayed_trans _ _ _ Ht) as Hdl.
  destruct Hcl as [s' (l & Hl & Hno) Hkeep|s' t c cs cid Hd Hw Hle Hd' Hl].
  - rewrite Hl, cnt_app, (cnt_no_call l n Hno).
    destruct Hdl as [[-> ->]|[(c & cs & E & -> & ->)|(t & w & -> & ->)]]; [lia|rewrite E, cnt_cons in Hi; lia|].
    rewrite cnt_insert. destruct (Nat.ltb_spec n (s_nextSeq s)), (Nat.ltb_spec n (S (s_nextSeq s))), (Nat.eqb_spec (s_nextSeq s) n); lia.
  - assert (Hsq : s_nextSeq s' = s_nextSeq s).
    { destruct Hdl as [[_ ->]|[(c0 & cs0 & E & _ & ->)|(t0 & w & E & _)]]; [reflexivity|reflexivity|].
      exfalso. rewrite Hd', Hd in E. destruct (insert_split (c :: cs) (DCall (s_nextSeq s) t0 w)) as (l1 & l2 & E1 & E2 & _). rewrite E2 in E. apply (f_equal (@length _)) in E, E1. rewrite app_length in E, E1. cbn [length] in E, E1. lia. }
    rewrite Hsq, Hd', Hl, cnt_app, cnt_cons, cnt_nil. rewrite Hd, cnt_cons in Hi. unfold is_call at 2. unfold has_seq at 1 in Hi. lia.
Qed.
Lemma inv_calls_run async os : inv_calls (run (init async) os).
Proof.
  cut (inv_sorted (run (init async) os) /\ inv_calls (run (init async) os)); [now intros []|].
  apply (run_ind matches wire lifetime isLocalTimeout fmatch status (fun s => inv_sorted s /\ inv_calls s)).
  - split; [split; cbn; [constructor|contradiction]|]. intro n. cbn. lia.
  - intros s o [H1 H2]. pose proof (step_trans s o) as Ht. split; [eapply inv_sorted_trans; eassumption|eapply inv_calls_trans; eassumption].
Qed.
Theorem call_once async os q : (length (filter (is_call q) (s_log (run (init async) os))) <= 1)%nat.
Proof. pose proof (inv_calls_run async os q) as H. unfold cnt in H at 2. destruct (Nat.ltb _ _); lia. Qed.

(** a call in the table is made or still in the table *)
Lemma seq_eq s c1 c2 : inv_calls s -> In c1 (s_delayed s) -> In c2 (s_delayed s) -> c_seq c1 = c_seq c2 -> c1 = c2.
Proof.
  intros Hi H1 H2 E. specialize (Hi (c_seq c1)). assert (Hc : (cnt (has_seq (c_seq c1)) (s_delayed s) <= 1)%nat) by (destruct (Nat.ltb _ _); lia). clear Hi.
  assert (P1 : has_seq (c_seq c1) c1 = true) by apply Nat.eqb_refl. assert (P2 : has_seq (c_seq c1) c2 = true) by (unfold has_seq; rewrite E; apply Nat.eqb_refl).
  revert H1 H2 Hc. generalize (s_delayed s) as l. induction l as [|x l IH]; intros []; intros [] Hc; subst; auto; rewrite cnt_cons in Hc.
  - rewrite P1 in Hc. pose proof (cnt_pos _ _ _ H0 P2). lia.
  - rewrite P2 in Hc. pose proof (cnt_pos _ _ _ H P1). lia.
  - apply IH; [assumption|assumption|lia].
Qed.
Lemma pending_run s os c cid : In c (s_delayed s) -> c_what c = CUser cid ->
  In c (s_delayed (run s os)) \/ exists t l, s_log (run s os) = s_log s ++ l /\ In (LCall (c_seq c) cid t) l /\ c_time c <= t.
Proof.
  revert s. induction os as [|o os IH]; intros s Hc Hw; [now left|]. rewrite run_cons.
  destruct (log_run (step s o) os) as [lr Hlr].
  destruct (called_trans _ _ _ (step_trans s o)) as [s' (l & Hl & Hno) Hkeep|s' t c0 cs cid0 Hd Hw0 Hle Hd' Hl].
  - destruct (IH s' (Hkeep c cid Hc Hw) Hw) as [H|(t & l2 & H2 & H3 & H4)]; [now left|]. right. exists t, (l ++ l2). split; [now rewrite H2, Hl, app_assoc|split; [apply in_or_app; now right|exact H4]].
  - rewrite Hd in Hc. destruct Hc as [->|Hc].
    + right. rewrite Hw in Hw0. injection Hw0 as <-. exists t, ([LCall (c_seq c) cid t] ++ lr). split; [now rewrite Hlr, Hl, app_assoc|split; [now left|exact Hle]].
    + rewrite <- Hd' in Hc. destruct (IH s' Hc Hw) as [H|(t2 & l2 & H2 & H3 & H4)]; [now left|]. right. exists t2, ([LCall (c_seq c0) cid0 t] ++ l2). split; [now rewrite H2, Hl, app_assoc|split; [now right|exact H4]].
Qed.
Lemma later_in s delay cid now : In (DCall (s_nextSeq s) (now + delay) (CUser cid)) (s_delayed (step s (OCallLater delay cid now))).
Proof. cbn. apply insert_in. now left. Qed.

Theorem call_exactly_once async os1 delay cid now os2 t0 :
  settled (run (init async) (os1 ++ OCallLater delay cid now :: os2)) t0 -> now + delay <= t0 ->
  length (filter (is_call (s_nextSeq (run (init async) os1))) (s_log (run (init async) (os1 ++ OCallLater delay cid now :: os2)))) = 1%nat /\
  exists t, In (LCall (s_nextSeq (run (init async) os1)) cid t) (s_log (run (init async) (os1 ++ OCallLater delay cid now :: os2))) /\ now + delay <= t.
Proof.
  intros [Hfr Hdue] Hle. pose proof (call_once async (os1 ++ OCallLater delay cid now :: os2) (s_nextSeq (run (init async) os1))) as H1.
  rewrite run_app, run_cons in *. set (s := run (init async) os1) in *.
  destruct (pending_run (step s (OCallLater delay cid now)) os2 _ cid (later_in s delay cid now) eq_refl) as [H|(t & l & Hl & Hi & Ht)]; [apply Hdue in H; cbn in H; lia|].
  cbn [c_seq c_time] in *. rewrite Hl in *. assert (Hin : In (LCall (s_nextSeq s) cid t) (s_log (step s (OCallLater delay cid now)) ++ l)) by (apply in_or_app; now right).
  split; [|exists t; split; assumption].
  assert (Hp : is_call (s_nextSeq s) (LCall (s_nextSeq s) cid t) = true) by apply Nat.eqb_refl.
  pose proof (cnt_pos (is_call (s_nextSeq s)) _ _ Hin Hp). unfold cnt in *. lia.
Qed.

(** every call made was asked for, and is not early *)
Definition asked async (os : list op) q cid (t : Z) : Prop :=
  exists os1 delay now os2, os = os1 ++ OCallLater delay cid now :: os2 /\ s_nextSeq (run (init async) os1) = q /\ now + delay = t.
Lemma asked_app async os q cid t o : asked async os q cid t -> asked async (os ++ [o]) q cid t.
Proof. intros (os1 & de & no & os2 & -> & H). exists os1, de, no, (os2 ++ [o]). split; [now rewrite <- app_assoc|exact H]. Qed.
Lemma src_calls async os :
  (forall c cid, In c (s_delayed (run (init async) os)) -> c_what c = CUser cid -> asked async os (c_seq c) cid (c_time c)) /\
  (forall q cid t, In (LCall q cid t) (s_log (run (init async) os)) -> exists t0, asked async os q cid t0 /\ t0 <= t).
Proof.
  induction os as [|o os [IH1 IH2]] using rev_ind; [split; cbn; contradiction|].
  rewrite run_app. change (run (run (init async) os) [o]) with (step (run (init async) os) o). set (s := run (init async) os) in *.
  pose proof (step_trans s o) as Ht. split.
  - intros c cid Hc Hw.
    assert (Hx : In c (s_delayed s) \/ exists de no, o = OCallLater de cid no /\ c_seq c = s_nextSeq s /\ c_time c = no + de).
    { destruct Ht as [l Hq H|a c0 fr l Hs Hm Hq H|a c0 fr now e1 dl sq fr' l Hs Hm He Hd Hf Hq H|a c0 Ha Has' Hcc H|Hcc H|k fr Hf Hn H|id0 rq Ho Hrq H|p stay out x0 fr l He Hcc Hx Hq H
    |f0 [Hf Hft] Hk H0 H|f0 fr Hf He Hk H|e1 es d fr l Hf Hq H|e1 es fr Hf H|f0 fs i fr Hf H|delay cid0 now Ho H|t1 fr c0 cs cid0 Hf Hd Ht Hw0 H|t1 fr c0 cs e1 Hf Hd Ht Hw0 Hg H|t1 fr c0 cs e1 t' l Hf Hd Ht Hw0 Hm He Hl H];
      pose proof (sh_dl _ _ _ _ _ _ _ _ _ _ _ H) as Kdl; rewrite Kdl in Hc; auto.
      - destruct Hd as [(-> & _ & _)|(_ & -> & _)]; [now left|]. apply insert_in in Hc. destruct Hc as [->|Hc]; [discriminate|now left].
      - apply insert_in in Hc. destruct Hc as [->|Hc]; [|now left]. cbn in Hw. injection Hw as ->. right. exists delay, now. auto.
      - left. rewrite Hd. now right.
      - left. rewrite Hd. now right.
      - left. rewrite Hd. now right. }
    destruct Hx as [Hx|(de & no & -> & E1 & E2)]; [now apply asked_app, IH1|].
    exists os, de, no, []. split; [reflexivity|split; [now rewrite E1|now rewrite E2]].
  - intros q cid t Hi. destruct (called_trans _ _ _ Ht) as [s' (l & Hl & Hno) _|s' t1 c cs cid0 Hd Hw Hle Hd' Hl]; rewrite Hl in Hi; apply in_app_or in Hi; destruct Hi as [Hi|Hi].
    + destruct (IH2 _ _ _ Hi) as (t0 & H1 & H2). exists t0; split; [now apply asked_app|exact H2].
    + now apply Hno in Hi.
    + destruct (IH2 _ _ _ Hi) as (t0 & H1 & H2). exists t0; split; [now apply asked_app|exact H2].
    + destruct Hi as [Hi|[]]. injection Hi as <- <- <-. exists (c_time c). split; [|exact Hle]. apply asked_app, IH1; [rewrite Hd; now left|exact Hw].
Qed.

(** order *)
Theorem call_order async os1 os2 c1 cid1 c2 cid2 l1 l2 t2 :
  let s := run (init async) os1 in
  In c1 (s_delayed s) -> In c2 (s_delayed s) -> c_what c1 = CUser cid1 -> c_what c2 = CUser cid2 -> before c1 c2 ->
  s_log (run s os2) = s_log s ++ l1 ++ LCall (c_seq c2) cid2 t2 :: l2 -> exists t1, In (LCall (c_seq c1) cid1 t1) l1.
Proof.
  intros s H1 H2 Hw1 Hw2 Hb. revert l1 l2. induction os2 as [|o os2 IH] using rev_ind; intros l1 l2 Hl.
  { cbn [NodeModel.run fold_left] in Hl. unfold NodeModel.run in Hl. cbn [fold_left] in Hl. apply (f_equal (@length _)) in Hl. rewrite !app_length in Hl. cbn [length] in Hl. lia. }
  rewrite run_app in Hl. change (run (run s os2) [o]) with (step (run s os2) o) in Hl.
  destruct (log_run s os2) as [lp Hlp].
  pose proof (pending_run s os2 c1 cid1 H1 Hw1) as P1. pose proof (pending_run s os2 c2 cid2 H2 Hw2) as P2.
  assert (Hrun : run s os2 = run (init async) (os1 ++ os2)) by (unfold s; now rewrite run_app).
  destruct (called_trans _ _ _ (step_trans (run s os2) o)) as [s' (l & Hl' & Hno) _|s' t c cs cid Hd Hw Hle Hd' Hl']; rewrite Hl', Hlp, <- app_assoc in Hl; apply app_inv_head in Hl.
  - assert (Hx : exists l2', lp = l1 ++ LCall (c_seq c2) cid2 t2 :: l2').
    { clear -Hl Hno. revert lp Hl. induction l1 as [|x l1 IH]; intros lp Hl; destruct lp as [|y lp]; cbn [app] in Hl.
      - exfalso. apply (Hno (c_seq c2) cid2 t2). rewrite Hl. now left.
      - injection Hl as -> _. now exists lp.
      - exfalso. apply (Hno (c_seq c2) cid2 t2). rewrite Hl. right. apply in_or_app. right. now left.
      - injection Hl as -> Hl. destruct (IH _ Hl) as [l2' ->]. now exists l2'. }
    destruct Hx as [l2' ->]. apply (IH l1 l2'). exact Hlp.
  - destruct l2 as [|y l2] using rev_ind.
    + assert (El : lp = l1 /\ LCall (c_seq c) cid t = LCall (c_seq c2) cid2 t2 :> event) by (now apply app_inj_tail).
      destruct El as [-> El]. injection El as Es -> ->.
      destruct P1 as [P1|(t1 & l & P1 & P3 & _)]; [|rewrite Hlp in P1; apply app_inv_head in P1; subst; eauto].
      exfalso. assert (Hi : inv_calls (run s os2)) by (rewrite Hrun; apply inv_calls_run). assert (Hso : inv_sorted (run s os2)) by (rewrite Hrun; apply inv_sorted_run).
      assert (Hc2 : c = c2).
      { destruct P2 as [P2|(t3 & l & P2 & P3 & _)]; [apply (seq_eq _ _ _ Hi); [rewrite Hd; now left|exact P2|exact Es]|].
        exfalso. specialize (Hi (c_seq c2)). rewrite Hd, cnt_cons in Hi. assert (E1 : has_seq (c_seq c2) c = true) by (unfold has_seq; rewrite Es; apply Nat.eqb_refl). rewrite E1 in Hi.
        assert (E2 : In (LCall (c_seq c2) cid2 t3) (s_log (run s os2))) by (rewrite P2; apply in_or_app; now right).
        assert (Hp : is_call (c_seq c2) (LCall (c_seq c2) cid2 t3 : event) = true) by apply Nat.eqb_refl.
        pose proof (cnt_pos _ _ _ E2 Hp). destruct (Nat.ltb _ _); lia. }
      subst c. destruct Hso as [Hso _]. rewrite Hd in Hso, P1. inversion Hso as [|? ? _ Hall]; subst. rewrite Forall_forall in Hall.
      destruct P1 as [<-|P1]; [unfold before in Hb; lia|]. apply Hall in P1. unfold before in *. lia.
    + rewrite app_comm_cons, app_assoc in Hl. apply app_inj_tail in Hl. destruct Hl as [Hl _]. apply (IH l1 l2). now rewrite <- Hl.
Qed.

(** one pass makes all due calls *)
Lemma continue_timed s t fr now c cs : s_frames s = FrTimed t :: fr -> s_delayed s = c :: cs -> c_time c <= t ->
  s_frames (step s (OContinue now)) = FrTimed t :: fr /\ s_delayed (step s (OContinue now)) = cs.
Proof.
  intros Hf Hd Hle. cbn [NodeModel.step]. unfold continue. rewrite Hf, Hd. assert (E : (c_time c <=? t) = true) by lia. rewrite E.
  destruct (c_what c) as [e|cid]; [|split; [exact Hf|reflexivity]].
  unfold pit_removeEntry. cbn [s_removed s_table set_delayed]. destruct (memn _ _); [split; [exact Hf|reflexivity]|].
  destruct (del_entry _ _); [|split; [exact Hf|reflexivity]]. unfold callTimeout. destruct (e_timeout e); [|split; [exact Hf|reflexivity]].
  destruct (e_owner e); (split; [exact Hf|reflexivity]).
Qed.
Lemma continue_timed_done s t fr now : s_frames s = FrTimed t :: fr -> (forall c cs, s_delayed s = c :: cs -> t < c_time c) ->
  s_frames (step s (OContinue now)) = fr /\ s_delayed (step s (OContinue now)) = s_delayed s.
Proof.
  intros Hf Hd. cbn [NodeModel.step]. unfold continue. rewrite Hf. destruct (s_delayed s) as [|c cs] eqn:E; [split; [reflexivity|exact E]|].
  specialize (Hd c cs eq_refl). assert (E0 : (c_time c <=? t) = false) by lia. rewrite E0. split; [reflexivity|exact E].
Qed.
Theorem process_drains async os now ns :
  let s := run (init async) os in
  let due := filter (fun c => c_time c <=? now) (s_delayed s) in
  length ns = S (length due) ->
  let s' := run (step s (OProcess now)) (map OContinue ns) in
  s_frames s' = s_frames s /\ s_delayed s' = filter (fun c => now <? c_time c) (s_delayed s).
Proof.
  intros s due Hn. destruct (inv_sorted_run async os) as [Hso _]. fold s in Hso.
  cut (forall st fr, s_frames st = FrTimed now :: fr -> StronglySorted before (s_delayed st) -> length ns = S (length (filter (fun c => c_time c <=? now) (s_delayed st))) ->
       s_frames (run st (map OContinue ns)) = fr /\ s_delayed (run st (map OContinue ns)) = filter (fun c => now <? c_time c) (s_delayed st)).
  { intros H. exact (H (step s (OProcess now)) (s_frames s) eq_refl Hso Hn). }
  clear. intros st fr. revert st. induction ns as [|n ns IH]; intros st Hf Hso Hn; [discriminate|]. cbn [map]. rewrite run_cons.
  destruct (s_delayed st) as [|c cs] eqn:Ed.
  - destruct (continue_timed_done st now fr n Hf) as [H1 H2]; [rewrite Ed; discriminate|]. cbn in Hn. destruct ns; [|discriminate]. cbn [map].
    unfold NodeModel.run. cbn [fold_left]. rewrite H1, H2, Ed. split; reflexivity.
  - inversion Hso as [|? ? Hss Hall]; subst. destruct (Z.leb_spec (c_time c) now) as [Hle|Hgt].
    + destruct (continue_timed st now fr n c cs Hf Ed Hle) as [H1 H2].
      cbn [filter] in *. assert (E1 : (c_time c <=? now) = true) by lia. assert (E2 : (now <? c_time c) = false) by lia. rewrite E1 in Hn. rewrite E2.
      rewrite <- H2. apply IH; [exact H1|now rewrite H2|rewrite H2; cbn [length] in Hn; lia].
    + assert (Hnone : forall x, In x (c :: cs) -> now < c_time x).
      { intros x [<-|Hx]; [lia|]. rewrite Forall_forall in Hall. destruct (Hall x Hx) as [?|[? _]]; lia. }
      destruct (continue_timed_done st now fr n Hf) as [H1 H2]; [intros c0 cs0 E; rewrite Ed in E; injection E as <- <-; lia|].
      assert (Ez : filter (fun c => c_time c <=? now) (c :: cs) = []).
      { rewrite <- Ed in *. clear -Hnone. induction (s_delayed st) as [|x l IH]; [reflexivity|]. cbn [filter]. specialize (Hnone x (or_introl eq_refl)) as H0. assert (E : (c_time x <=? now) = false) by lia. rewrite E. apply IH. intros; apply Hnone; now right. }
      assert (Ey : filter (fun c => now <? c_time c) (c :: cs) = c :: cs).
      { rewrite <- Ed in *. clear -Hnone. induction (s_delayed st) as [|x l IH]; [reflexivity|]. cbn [filter]. specialize (Hnone x (or_introl eq_refl)) as H0. assert (E : (now <? c_time x) = true) by lia. rewrite E. f_equal. apply IH. intros; apply Hnone; now right. }
      rewrite Ez in Hn. destruct ns; [|discriminate]. unfold NodeModel.run. cbn [map fold_left]. rewrite H1, H2, Ed, Ey. split; reflexivity.
Qed.
End Node.
