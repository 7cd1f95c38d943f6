(** * Client node: terminal callbacks. *)
From Verif Require Import Base NodeModel NodeSpec NodeProofs.
From Coq Require Import Lia.

Section Node.
Context {I D F : Type}.
Variable matches : I -> D -> res bool.
Variable wire : I -> res bytes.
Variable lifetime : I -> option Z.
Variable isLocalTimeout : I -> bool.
Variable fmatch : F -> I -> res bool.
Variable status : D -> res Z.
Notation entry := (entry I F). Notation state := (state I D F). Notation event := (event I D F). Notation op := (op I D F).
Notation frame := (frame I D F). Notation args := (args I F).
Notation run := (run matches wire lifetime isLocalTimeout fmatch status).
Notation step := (step matches wire lifetime isLocalTimeout fmatch status).
Notation trans := (trans matches wire lifetime fmatch).
Implicit Types (s : state) (e : entry) (l : list event).

(** *** At most one terminal callback *)
Lemma cnt_quiet n (l : list event) : Forall quiet l -> cnt (term_ser n) l = 0%nat.
Proof. intro H. apply cnt_zero_of. intros x Hx. rewrite Forall_forall in H. specialize (H x Hx). now destruct x. Qed.
Lemma source_frames s o a c fr : source s o a c fr -> flat_map fr_entries fr = in_dispatch s.
Proof. unfold in_dispatch. intros [|k f f' now Ho Hf Hn [->| ->]]; [reflexivity| |]; rewrite Hf; reflexivity. Qed.
Lemma occ_trans s o s' : trans s o s' ->
  s_nextSer s' = s_nextSer s /\ (forall n, occ n s' <= occ n s)%nat \/
  s_nextSer s' = S (s_nextSer s) /\ (forall n, occ n s' = occ n s + (if Nat.eqb n (s_nextSer s) then 1 else 0))%nat.
Proof.
  intros [l Hq H|a c fr l Hs Hm Hq H|a c fr now e dl sq fr' l Hs Hm He Hd Hf Hq H|a c Ha Has Hc H|Hc H|k fr Hf Hn H|id rq Ho Hr H|p stay out x fr l He Hc Hx Hq H
    |f [Hf Hft] Hk Hi H|f fr Hf [He Hfi] Hk H|e es d fr l Hf Hq H|e es fr Hf H|f fs i fr Hf H|delay cid now Ho H|t fr c cs cid Hf Hd Ht Hw H|t fr c cs e Hf Hd Ht Hw Hg H|t fr c cs e t' l Hf Hd Ht Hw Hm He Hl H];
    destruct H as [Kt Krq Krm Ksr Kdl Ksq Kcn Kqu Kfr Klg]; unfold occ, in_dispatch; rewrite Kt, Ksr, Kfr, Klg.
  - left; split; [reflexivity|intro n]. rewrite cnt_app, (cnt_quiet n l Hq). lia.
  - left; split; [reflexivity|intro n]. rewrite (source_frames _ _ _ _ _ Hs), cnt_app, (cnt_quiet n l Hq). unfold in_dispatch. lia.
  - right; split; [reflexivity|intro n]. rewrite flat_map_app, (source_frames _ _ _ _ _ Hs), !cnt_app, !cnt_cons, (cnt_quiet n l Hq), cnt_nil.
    assert (E : flat_map fr_entries fr' = []) by (destruct Hf as [->|(fs & -> & _)]; reflexivity). rewrite E.
    assert (E2 : has_ser n e = Nat.eqb n (s_nextSer s)) by (rewrite He; unfold has_ser; cbn [e_ser]; apply Nat.eqb_sym). rewrite E2.
    change (term_ser n (LAdd e now)) with false. unfold in_dispatch. rewrite cnt_nil. lia.
  - left; split; [reflexivity|lia].
  - left; split; [reflexivity|intro n; cbn [flat_map fr_entries app]; lia].
  - left; split; [reflexivity|intro n]. rewrite Hf; cbn [flat_map fr_entries app]; lia.
  - left; split; [reflexivity|intro n]. pose proof (cnt_filter_split (has_ser n) (fun e => e_id e =? id) (s_table s)). lia.
  - left; split; [reflexivity|intro n]. pose proof (extract_cnt p (has_ser n) _ _ _ _ He) as E. rewrite cnt_rev in E.
    rewrite flat_map_app, cnt_rev, !cnt_app, (cnt_quiet n l Hq).
    assert (Hle : (cnt (has_ser n) (flat_map fr_entries fr) <= cnt (has_ser n) out)%nat); [|lia].
    destruct x as [x|]; [rewrite Hx by discriminate; cbn; lia|].
    destruct Hc as [(d & _ & _ & Hc)|(i & b & _ & _ & _ & Hc)]; rewrite Hc by reflexivity; cbn [flat_map fr_entries]; rewrite app_nil_r; lia.
  - left; split; [reflexivity|intro n]. cbn [flat_map]. rewrite Hf. cbn [app]. lia.
  - left; split; [reflexivity|intro n]. rewrite Hf. cbn [flat_map]. rewrite He. cbn [app]. lia.
  - left; split; [reflexivity|intro n]. rewrite Hf. cbn [flat_map fr_entries app]. rewrite !cnt_app, !cnt_cons, cnt_app, (cnt_quiet n l Hq).
    change (term_ser n (LData e d)) with (has_ser n e). lia.
  - left; split; [reflexivity|intro n]. rewrite Hf. cbn [flat_map fr_entries app]. rewrite !cnt_app, !cnt_cons, cnt_app, cnt_nil.
    change (term_ser n (LNack e : event)) with (has_ser n e). lia.
  - left; split; [reflexivity|intro n]. rewrite Hf. cbn [flat_map fr_entries app]. rewrite cnt_app, cnt_cons, cnt_nil. cbn. lia.
  - left; split; [reflexivity|lia].
  - left; split; [reflexivity|intro n]. rewrite cnt_app, cnt_cons, cnt_nil. cbn. lia.
  - left; split; [reflexivity|lia].
  - left; split; [reflexivity|intro n]. destruct (del_entry_cnt _ (has_ser n) _ _ He) as (e0 & _ & Hs0 & E).
    assert (Hs1 : has_ser n e0 = has_ser n e) by (unfold has_ser; now rewrite Hs0).
    rewrite Hs1 in E.
    destruct Hl as [[_ ->]|[_ (l' & -> & Hq)]]; [rewrite app_nil_r; lia|]. rewrite cnt_app, cnt_cons, (cnt_quiet n l' Hq).
    change (term_ser n (LTimeout e t : event)) with (has_ser n e). lia.
Qed.
Lemma inv_once_step s o : inv_once s -> inv_once (step s o).
Proof.
  intros Hi n. destruct (Hi n) as [H1 H2].
  destruct (occ_trans _ _ _ (step_trans matches wire lifetime isLocalTimeout fmatch status s o)) as [[Hs Ho]|[Hs Ho]]; specialize (Ho n).
  - rewrite Hs. split; [lia|]. intro; specialize (H2 ltac:(lia)); lia.
  - rewrite Hs, Ho. destruct (Nat.eqb_spec n (s_nextSer s)) as [->|]; [rewrite H2 by lia; lia|].
    split; [lia|intro; rewrite H2 by lia; lia].
Qed.
Lemma inv_once_run async os : inv_once (run (init async) os).
Proof. apply (run_ind matches wire lifetime isLocalTimeout fmatch status inv_once); [intro n; cbn; lia|intros; now apply inv_once_step]. Qed.
Lemma terminals_cnt e (l : list event) : terminals e l = cnt (term_ser (e_ser e)) l.
Proof. reflexivity. Qed.
Theorem at_most_once async os e : (terminals e (s_log (run (init async) os)) <= 1)%nat.
Proof. rewrite terminals_cnt. destruct (inv_once_run async os (e_ser e)) as [H _]. unfold occ in H. lia. Qed.

(** *** The log only grows *)
Lemma log_trans s o s' : trans s o s' -> exists l, s_log s' = s_log s ++ l.
Proof.
  intros [l Hq H|a c fr l Hs Hm Hq H|a c fr now e dl sq fr' l Hs Hm He Hd Hf Hq H|a c Ha Has Hc H|Hc H|k fr Hf Hn H|id rq Ho Hr H|p stay out x fr l He Hc Hx Hq H
    |f [Hf Hft] Hk Hi H|f fr Hf [He Hfi] Hk H|e es d fr l Hf Hq H|e es fr Hf H|f fs i fr Hf H|delay cid now Ho H|t fr c cs cid Hf Hd Ht Hw H|t fr c cs e Hf Hd Ht Hw Hg H|t fr c cs e t' l Hf Hd Ht Hw Hm He Hl H];
    rewrite (sh_lg _ _ _ _ _ _ _ _ _ _ _ H); eauto; exists []; now rewrite app_nil_r.
Qed.
Lemma log_run s os : exists l, s_log (run s os) = s_log s ++ l.
Proof.
  revert s. induction os as [|o os IH]; intro s; [exists []; symmetry; apply app_nil_r|].
  rewrite run_cons. destruct (IH (step s o)) as [l1 H1].
  destruct (log_trans _ _ _ (step_trans matches wire lifetime isLocalTimeout fmatch status s o)) as [l2 H2].
  exists (l2 ++ l1). now rewrite H1, H2, app_assoc.
Qed.

(** *** Where every entry comes from *)
Definition delayed_ok (l : list event) (c : dcall I F) : Prop :=
  match c_what c with CTimeout e => exists now, In (LAdd e now) l /\ c_time c = now + timer lifetime e | CUser _ => True end.
Definition event_ok (l : list event) (x : event) : Prop :=
  match x with
  | LData e d => matches (e_int e) d = Ok true /\ exists now, In (LAdd e now) l
  | LNack e => e_nack e = true /\ exists now, In (LAdd e now) l
  | LTimeout e t => e_timeout e = true /\ exists now, In (LAdd e now) l /\ now + timer lifetime e <= t
  | _ => True
  end.
Definition frame_ok (l : list event) (f : frame) : Prop :=
  match f with
  | FrData es d => forall e, In e es -> event_ok l (LData e d)
  | FrNack es => forall e, In e es -> event_ok l (LNack e)
  | _ => True
  end.
Record inv_src s : Prop := {
  is_table : forall e, In e (s_table s) -> exists now, In (LAdd e now) (s_log s);
  is_del : forall c, In c (s_delayed s) -> delayed_ok (s_log s) c;
  is_fr : forall f, In f (s_frames s) -> frame_ok (s_log s) f;
  is_log : forall x, In x (s_log s) -> event_ok (s_log s) x }.
Lemma delayed_ok_app l l' c : delayed_ok l c -> delayed_ok (l ++ l') c.
Proof. unfold delayed_ok. destruct (c_what c) as [e|]; [|auto]. intros (n & H & E); exists n; split; [apply in_or_app; now left|exact E]. Qed.
Lemma event_ok_app l l' x : event_ok l x -> event_ok (l ++ l') x.
Proof.
  unfold event_ok. destruct x; auto.
  - intros [? (n & ?)]; split; [assumption|exists n; apply in_or_app; now left].
  - intros [? (n & ?)]; split; [assumption|exists n; apply in_or_app; now left].
  - intros [? (n & ? & ?)]; split; [assumption|exists n; split; [apply in_or_app; now left|assumption]].
Qed.
Lemma frame_ok_app l l' f : frame_ok l f -> frame_ok (l ++ l') f.
Proof. destruct f; cbn [frame_ok]; auto; intros H e He; apply event_ok_app, H, He. Qed.
Lemma insert_back_in (l : list (dcall I F)) c x : In x (insert_back l c) <-> x = c \/ In x l.
Proof. induction l as [|y l IH]; cbn [insert_back]; [cbn; intuition|]. destruct (_ <=? _); cbn [In]; rewrite ?IH; intuition. Qed.
Lemma insert_in (l : list (dcall I F)) c x : In x (rev (insert_back (rev l) c)) <-> x = c \/ In x l.
Proof. rewrite <- in_rev, insert_back_in, <- in_rev. tauto. Qed.
Lemma quiet_ok l' l : Forall quiet l -> forall x, In x l -> event_ok l' x.
Proof. intros H x Hx. rewrite Forall_forall in H. specialize (H x Hx). now destruct x. Qed.
Lemma source_in s o a c fr f : source s o a c fr -> In f fr -> In f (s_frames s) \/ exists k, f = FrConn k.
Proof. intros [|k f1 f' now Ho Hf Hn Hor] Hin; [auto|]. rewrite Hf. destruct Hor as [->| ->]; [destruct Hin as [<-|Hin]; [right; eauto|]|]; left; now right. Qed.

Lemma inv_src_trans s o s' : trans s o s' -> inv_src s -> inv_src s'.
Proof.
  intros Ht [J1 J2 J3 J4]. destruct (log_trans _ _ _ Ht) as [lx Hlx].
  assert (Hkeep : forall e, (exists now, In (LAdd e now) (s_log s)) -> exists now, In (LAdd e now) (s_log s ++ lx)) by (intros e (n & H); exists n; apply in_or_app; now left).
  assert (B1 : forall e, In e (s_table s) -> exists now, In (LAdd e now) (s_log s ++ lx)) by (intros; now apply Hkeep, J1).
  assert (B2 : forall c, In c (s_delayed s) -> delayed_ok (s_log s ++ lx) c) by (intros; now apply delayed_ok_app, J2).
  assert (B3 : forall f, In f (s_frames s) -> frame_ok (s_log s ++ lx) f) by (intros; now apply frame_ok_app, J3).
  assert (B4 : forall x, In x (s_log s) -> event_ok (s_log s ++ lx) x) by (intros; now apply event_ok_app, J4).
  destruct Ht as [l Hq H|a c fr l Hs Hm Hq H|a c fr now e dl sq fr' l Hs Hm He Hd Hf Hq H|a c Ha Has Hc H|Hc H|k fr Hf Hn H|id rq Ho Hr H|p stay out x fr l He Hc Hx Hq H
    |f [Hf Hft] Hk Hi H|f fr Hf [He Hfi] Hk H|e es d fr l Hf Hq H|e es fr Hf H|f fs i fr Hf H|delay cid now Ho H|t fr c cs cid Hf Hd Ht Hw H|t fr c cs e Hf Hd Ht Hw Hg H|t fr c cs e t' l Hf Hd Ht Hw Hm He Hl H];
    destruct H as [Kt Krq Krm Ksr Kdl Ksq Kcn Kqu Kfr Klg].
  all: try (assert (Hnil : lx = []) by (rewrite Klg in Hlx; symmetry in Hlx; rewrite <- app_nil_r in Hlx; now apply app_inv_head in Hlx)).
  all: constructor; rewrite ?Hlx, ?Kt, ?Kdl, ?Kfr; auto.
  all: try (rewrite Klg in Hlx; apply app_inv_head in Hlx; subst lx).
  all: try (subst lx; rewrite app_nil_r in *).
  all: try (intros x0 Hx0; apply in_app_or in Hx0; destruct Hx0 as [Hx0|Hx0]; [now apply B4|]).
  all: try solve [eapply quiet_ok; eassumption].
  all: try assumption.
  - intros f0 Hf0. destruct (source_in _ _ _ _ _ _ Hs Hf0) as [H|[k ->]]; [now apply B3|exact Logic.I].
  - intros e0 H. apply in_app_or in H. destruct H as [H|[<-|[]]]; [now apply B1|]. exists now. apply in_or_app; right; now left.
  - intros c0 Hc0. destruct Hd as [(-> & _ & _)|(_ & -> & _)]; [now apply B2|]. apply insert_in in Hc0. destruct Hc0 as [->|Hc0]; [|now apply B2].
    unfold delayed_ok; cbn [c_what c_time]. exists now; split; [apply in_or_app; right; now left|reflexivity].
  - intros f0 Hf0. apply in_app_or in Hf0. destruct Hf0 as [H|H].
    + destruct Hf as [->|(fs & -> & _)]; [destruct H|]. destruct H as [<-|[]]. exact Logic.I.
    + destruct (source_in _ _ _ _ _ _ Hs H) as [H0|[k ->]]; [now apply B3|exact Logic.I].
  - destruct Hx0 as [<-|Hx0]; [exact Logic.I|]. eapply quiet_ok; eassumption.
  - intros f0 [<-|H]; [exact Logic.I|now apply B3].
  - intros f0 H0. apply B3. rewrite Hf; now right.
  - intros e0 H0. apply filter_In in H0. now apply B1.
  - intros e0 H0. apply B1. apply in_rev in H0. apply in_rev. eapply extract_incl; [exact He|now left].
  - intros f0 H0. apply in_app_or in H0. destruct H0 as [H0|H0]; [|now apply B3].
    destruct x as [x|]; [rewrite Hx in H0 by discriminate; destruct H0|].
    assert (Hout : forall e, In e out -> p e = Ok true /\ exists now, In (LAdd e now) (s_log s ++ l)).
    { intros e0 H1. split; [eapply extract_out; eassumption|]. apply B1. apply in_rev. eapply extract_incl; [exact He|now right]. }
    destruct Hc as [(d & _ & -> & Hc)|(i & b & _ & _ & -> & Hc)]; rewrite Hc in H0 by reflexivity; destruct H0 as [<-|[]]; intros e0 H1; apply Hout in H1; destruct H1 as [H1 H2].
    + split; assumption.
    + split; [|assumption]. unfold nack_test in H1. destruct (e_nack e0); [reflexivity|discriminate].
  - intros f0 [<-|H0]; [|now apply B3]. destruct f; cbn [frame_ok]; auto; cbn [fr_entries] in Hf; subst; intros e [].
  - intros f0 H0. apply B3. rewrite Hf; now right.
  - intros f0 [<-|H0]; [|apply B3; rewrite Hf; now right].
    assert (Hb : frame_ok (s_log s ++ LData e d :: l) (FrData (e :: es) d)) by (apply B3; rewrite Hf; now left). intros e0 H0. apply Hb. now right.
  - destruct Hx0 as [<-|Hx0]; [|eapply quiet_ok; eassumption].
    assert (Hb : frame_ok (s_log s ++ LData e d :: l) (FrData (e :: es) d)) by (apply B3; rewrite Hf; now left). apply Hb. now left.
  - intros f0 [<-|H0]; [|apply B3; rewrite Hf; now right].
    assert (Hb : frame_ok (s_log s ++ [LNack e]) (FrNack (e :: es))) by (apply B3; rewrite Hf; now left). intros e0 H0. apply Hb. now right.
  - destruct Hx0 as [<-|[]].
    assert (Hb : frame_ok (s_log s ++ [LNack e]) (FrNack (e :: es))) by (apply B3; rewrite Hf; now left). apply Hb. now left.
  - intros f0 [<-|H0]; [exact Logic.I|apply B3; rewrite Hf; now right].
  - destruct Hx0 as [<-|[]]. exact Logic.I.
  - intros c0 Hc0. apply insert_in in Hc0. destruct Hc0 as [->|Hc0]; [exact Logic.I|now apply B2].
  - intros c0 Hc0. apply B2. rewrite Hd; now right.
  - destruct Hx0 as [<-|[]]. exact Logic.I.
  - intros c0 Hc0. apply B2. rewrite Hd; now right.
  - intros e0 H0. apply B1. eapply del_entry_incl; eassumption.
  - intros c0 Hc0. apply B2. rewrite Hd; now right.
  - assert (Hc : delayed_ok (s_log s ++ l) c) by (apply B2; rewrite Hd; now left). unfold delayed_ok in Hc. rewrite Hw in Hc.
    destruct Hl as [[_ ->]|[E (l' & -> & Hq)]]; [destruct Hx0|]. destruct Hx0 as [<-|Hx0]; [|eapply quiet_ok; eassumption].
    cbn [event_ok]. split; [exact E|]. destruct Hc as (n & Hn & Hc). exists n; split; [exact Hn|lia].
Qed.
Lemma inv_src_run async os : inv_src (run (init async) os).
Proof.
  apply (run_ind matches wire lifetime isLocalTimeout fmatch status inv_src).
  - constructor; cbn; intros ? [].
  - intros s o. apply (inv_src_trans s o). apply step_trans.
Qed.
End Node.
