(** * Client node: no callback is lost, and none comes after a removal. *)
From Verif Require Import Base NodeModel NodeSpec NodeProofs NodeProofs2.
From Coq Require Import Lia.

Section Node.
Context {I D F : Type}.
Variable matches : I -> D -> res bool.
Variable wire : I -> res bytes.
Variable lifetime : I -> option Z.
Variable isLocalTimeout : I -> bool.
Variable fmatch : F -> I -> res bool.
Variable status : D -> res Z.
Notation entry := (entry I F). Notation state := (state I D F). Notation event := (event I D F). Notation op := (op I D F).
Notation frame := (frame I D F). Notation args := (args I F).
Notation run := (run matches wire lifetime isLocalTimeout fmatch status).
Notation step := (step matches wire lifetime isLocalTimeout fmatch status).
Notation trans := (trans matches wire lifetime fmatch).
Notation step_trans := (step_trans matches wire lifetime isLocalTimeout fmatch status).
Notation inv_src := (inv_src matches lifetime).
Implicit Types (s : state) (e : entry) (l : list event).

(** *** The identity of an entry *)
Definition inv_uniq s : Prop :=
  (forall e t, In (LAdd e t) (s_log s) -> (e_ser e < s_nextSer s)%nat) /\
  (forall e t e' t', In (LAdd e t) (s_log s) -> In (LAdd e' t') (s_log s) -> e_ser e = e_ser e' -> e = e' /\ t = t').
Lemma no_add_quiet l e t : Forall quiet l -> ~ In (LAdd e t) l.
Proof. intros H Hi. rewrite Forall_forall in H. apply (H _ Hi). Qed.
Lemma add_trans s o s' : trans s o s' ->
  s_nextSer s' = s_nextSer s /\ (forall e t, In (LAdd e t) (s_log s') <-> In (LAdd e t) (s_log s)) \/
  exists e0 t0, s_nextSer s' = S (s_nextSer s) /\ e_ser e0 = s_nextSer s /\ forall e t, In (LAdd e t) (s_log s') <-> In (LAdd e t) (s_log s) \/ (e = e0 /\ t = t0).
Proof.
  intros [l Hq H|a c fr l Hs Hm Hq H|a c fr now e dl sq fr' l Hs Hm He Hd Hf Hq H|a c Ha Has Hc H|Hc H|k fr Hf Hn H|id rq Ho Hr H|p stay out x fr l He Hc Hx Hq H
    |f [Hf Hft] Hk Hi H|f fr Hf [He Hfi] Hk H|e es d fr l Hf Hq H|e es fr Hf H|f fs i fr Hf H|delay cid now Ho H|t fr c cs cid Hf Hd Ht Hw H|t fr c cs e Hf Hd Ht Hw Hg H|t fr c cs e t' l Hf Hd Ht Hw Hm He Hl H];
    destruct H as [Kt Krq Krm Ksr Kdl Ksq Kcn Kqu Kfr Klg]; rewrite Klg, Ksr.
  all: try (left; split; [reflexivity|]; intros e0 t0; reflexivity).
  all: try (left; split; [reflexivity|]; intros e0 t0; rewrite in_app_iff; cbn [In]; pose proof (no_add_quiet l e0 t0 Hq); intuition discriminate).
  - right. exists e, now. split; [reflexivity|split; [now rewrite He|]]. intros e0 t0. rewrite in_app_iff; cbn [In].
    pose proof (no_add_quiet l e0 t0 Hq). split; [|intros [?|[-> ->]]; auto]. intros [?|[Hx|?]]; [auto| |contradiction]. injection Hx as <- <-. auto.
  - left; split; [reflexivity|]. intros e0 t0; rewrite in_app_iff; cbn [In]; intuition discriminate.
  - left; split; [reflexivity|]. intros e0 t0; rewrite in_app_iff; cbn [In]; intuition discriminate.
  - left; split; [reflexivity|]. intros e0 t0; rewrite in_app_iff; cbn [In]; intuition discriminate.
  - left; split; [reflexivity|]. intros e0 t0; rewrite in_app_iff.
    destruct Hl as [[_ ->]|[_ (l' & -> & Hq)]]; cbn [In]; [tauto|]. pose proof (no_add_quiet l' e0 t0 Hq). intuition discriminate.
Qed.
Lemma inv_uniq_trans s o s' : trans s o s' -> inv_uniq s -> inv_uniq s'.
Proof.
  intros Ht [H1 H2]. destruct (add_trans _ _ _ Ht) as [[Hs Ha]|(e0 & t0 & Hs & H0 & Ha)]; split; rewrite ?Hs.
  - intros e t He. apply Ha in He. eauto.
  - intros e t e' t' He He'. apply Ha in He, He'. eauto.
  - intros e t He. apply Ha in He. destruct He as [He|[-> _]]; [apply H1 in He; lia|lia].
  - intros e t e' t' He He' E. apply Ha in He, He'. destruct He as [He|[-> ->]], He' as [He'|[-> ->]]; eauto.
    + apply H1 in He. lia.
    + apply H1 in He'. lia.
Qed.
Lemma inv_uniq_run async os : inv_uniq (run (init async) os).
Proof.
  apply (run_ind matches wire lifetime isLocalTimeout fmatch status inv_uniq).
  - split; cbn; intros; contradiction.
  - intros s o. apply (inv_uniq_trans s o), step_trans.
Qed.

(** *** Nothing is lost when matching and encoding do not raise *)
Definition alive s e (t : Z) : Prop :=
  (In e (s_table s) /\ ~ In (e_ser e) (s_removed s) /\
     (has_timer lifetime e = true -> exists c, In c (s_delayed s) /\ c_time c = t + timer lifetime e /\ c_what c = CTimeout e)) \/
  In e (in_dispatch s) \/ (1 <= terminals e (s_log s))%nat.
Lemma extract_total p (lt : list entry) : (forall e, exists b, p e = Ok b) -> exists stay out, extract p lt = (stay, out, None) /\ forall e, In e lt -> In e stay \/ In e out.
Proof.
  intro Hp. induction lt as [|e lt IH]; cbn [extract]; [exists [], []; split; [reflexivity|intros e []]|].
  destruct (Hp e) as [b ->]. destruct IH as (st & ou & -> & Hin).
  destruct b; eexists _, _; (split; [reflexivity|]); intros e0 [->|H]; cbn [In]; try tauto; destruct (Hin e0 H); tauto.
Qed.
Lemma del_entry_keep n t t' e : del_entry n t = Some t' -> e_ser e <> n -> In e t -> In e t'.
Proof.
  revert t'. induction t as [|e0 t IH]; intro t'; cbn [del_entry]; [discriminate|].
  destruct (Nat.eqb_spec (e_ser e0) n) as [E|E]; [intro H; injection H as <-; intros Hn [->|Hi]; [contradiction|exact Hi]|].
  destruct (del_entry n t) as [r|] eqn:Ed; [|discriminate]. intro H; injection H as <-. intros Hn [->|Hi]; [now left|right; now apply IH].
Qed.
Lemma del_entry_some n t e : In e t -> e_ser e = n -> del_entry n t <> None.
Proof.
  induction t as [|e0 t IH]; intros []; cbn [del_entry]; intro E.
  - subst. rewrite Nat.eqb_refl. discriminate.
  - destruct (Nat.eqb _ _); [discriminate|]. specialize (IH H E). destruct (del_entry n t); [discriminate|congruence].
Qed.
Lemma terminals_app e l1 l2 : terminals e (l1 ++ l2) = (terminals e l1 + terminals e l2)%nat.
Proof. apply cnt_app. Qed.
Lemma source_dispatch s o a c fr : source s o a c fr -> flat_map fr_entries fr = in_dispatch s.
Proof. apply source_frames. Qed.

Lemma alive_trans s o s' e t :
  (forall i d, exists b, matches i d = Ok b) -> (forall i, exists b, wire i = Ok b) ->
  inv_once s -> inv_src s -> inv_uniq s -> In (LAdd e t) (s_log s) -> e_timeout e = true -> o <> ORemovePending (e_id e) ->
  trans s o s' -> alive s e t -> alive s' e t.
Proof.
  intros Hm0 Hw0 Hin1 Hin2 [_ Hun] Hadd Het Hno Ht Hal.
  destruct (log_trans _ _ _ _ _ _ _ Ht) as [lx Hlx].
  assert (Hterm : (1 <= terminals e (s_log s))%nat -> alive s' e t) by (intro H; right; right; rewrite Hlx, terminals_app; lia).
  destruct Ht as [l Hq H|a c fr l Hs Hm Hq H|a c fr now e1 dl sq fr' l Hs Hm He Hd Hf Hq H|a c Ha Has Hc H|Hc H|k fr Hf Hn H|id rq Ho Hr H|p stay out x fr l He Hc Hx Hq H
    |f [Hf Hft] Hk Hi H|f fr Hf [He Hfi] Hk H|e1 es d fr l Hf Hq H|e1 es fr Hf H|f fs i fr Hf H|delay cid now Ho H|t1 fr c cs cid Hf Hd Ht Hw H|t1 fr c cs e1 Hf Hd Ht Hw Hg H|t1 fr c cs e1 t' l Hf Hd Ht Hw Hm He Hl H];
    destruct H as [Kt Krq Krm Ksr Kdl Ksq Kcn Kqu Kfr Klg]; destruct Hal as [(Htab & Hrem & Hdel)|[Hdis|Htr]]; try (now apply Hterm).
  all: unfold alive, in_dispatch in *; rewrite ?Kt, ?Krm, ?Kdl, ?Kfr.
  all: try (left; split; [exact Htab|split; [exact Hrem|exact Hdel]]).
  all: try (right; left; exact Hdis).
  - right; left. rewrite (source_dispatch _ _ _ _ _ Hs). exact Hdis.
  - left. split; [apply in_or_app; now left|split; [exact Hrem|]]. intro Ht. destruct (Hdel Ht) as (c0 & Hc0 & Hc1 & Hc2). exists c0; split; [|split; assumption].
    destruct Hd as [(-> & _ & _)|(_ & -> & _)]; [exact Hc0|]. apply insert_in. now right.
  - right; left. rewrite flat_map_app, (source_dispatch _ _ _ _ _ Hs). apply in_or_app; now right.
  - right; left. rewrite Hf in Hdis. exact Hdis.
  - assert (Hid : e_id e <> id) by (intro E; apply Hno; now rewrite E).
    left. split; [apply filter_In; split; [exact Htab|apply Z.eqb_neq in Hid; now rewrite Hid]|split; [|exact Hdel]].
    intro Hr0. apply in_app_or in Hr0. destruct Hr0 as [Hr0|Hr0]; [|contradiction].
    apply in_map_iff in Hr0. destruct Hr0 as (e2 & E2 & H2). apply filter_In in H2. destruct H2 as [H2 H2i].
    destruct (is_table _ _ _ Hin2 e2 H2) as [t2 H2a]. destruct (Hun _ _ _ _ H2a Hadd E2) as [-> _]. apply Z.eqb_eq in H2i. contradiction.
  - assert (Hp : forall e, exists b, p e = Ok b).
    { intro e0. destruct Hc as [(d & _ & -> & _)|(i & b & _ & _ & -> & _)]; [apply Hm0|]. unfold nack_test. destruct (e_nack e0); [|eauto].
      destruct (Hw0 (e_int e0)) as [bb ->]. cbn. eauto. }
    destruct (extract_total p (rev (s_table s)) Hp) as (st & ou & E & Hsplit). rewrite E in He. injection He as -> -> <-.
    destruct (Hsplit e) as [Hst|Hou]; [now apply in_rev; rewrite rev_involutive| |].
    + left. split; [now apply in_rev in Hst|split; [|exact Hdel]]. intro Hr0. apply in_app_or in Hr0. destruct Hr0 as [Hr0|Hr0]; [|contradiction].
      apply in_map_iff in Hr0. destruct Hr0 as (e2 & E2 & H2).
      pose proof (extract_cnt p (has_ser (e_ser e)) _ _ _ _ E) as Ec. rewrite cnt_rev in Ec.
      pose proof (cnt_pos (has_ser (e_ser e)) stay e Hst (Nat.eqb_refl _)).
      assert (has_ser (e_ser e) e2 = true) by (unfold has_ser; rewrite E2; apply Nat.eqb_refl).
      pose proof (cnt_pos (has_ser (e_ser e)) out e2 H2 H0). destruct (Hin1 (e_ser e)) as [Hocc _]. unfold occ in Hocc. lia.
    + right; left. rewrite flat_map_app. apply in_or_app; left.
      destruct Hc as [(d & _ & _ & Hc)|(i & b & _ & _ & _ & Hc)]; rewrite Hc by reflexivity; cbn [flat_map fr_entries]; rewrite app_nil_r; exact Hou.
  - right; left. rewrite flat_map_app. apply in_or_app; now right.
  - right; left. cbn [flat_map]. apply in_or_app; now right.
  - right; left. rewrite Hf in Hdis. cbn [flat_map] in Hdis. rewrite He in Hdis. exact Hdis.
  - rewrite Hf in Hdis. cbn [flat_map fr_entries app] in Hdis. destruct Hdis as [->|Hdis]; [|right; left; exact Hdis].
    right; right. rewrite Klg, terminals_app. change (terminals e (LData e d :: l)) with (cnt (term_ser (e_ser e)) (LData e d :: l)). rewrite cnt_cons.
    change (term_ser (e_ser e) (LData e d)) with (Nat.eqb (e_ser e) (e_ser e)). rewrite Nat.eqb_refl. lia.
  - rewrite Hf in Hdis. cbn [flat_map fr_entries app] in Hdis. destruct Hdis as [->|Hdis]; [|right; left; exact Hdis].
    right; right. rewrite Klg, terminals_app. change (terminals e [LNack e : event]) with (cnt (term_ser (e_ser e)) [LNack e : event]). rewrite cnt_cons.
    change (term_ser (e_ser e) (LNack e : event)) with (Nat.eqb (e_ser e) (e_ser e)). rewrite Nat.eqb_refl. lia.
  - right; left. rewrite Hf in Hdis. exact Hdis.
  - left. split; [exact Htab|split; [exact Hrem|]]. intro Ht. destruct (Hdel Ht) as (c0 & Hc0 & Hc1 & Hc2). exists c0; split; [apply insert_in; now right|split; assumption].
  - left. split; [exact Htab|split; [exact Hrem|]]. intro Ht0. destruct (Hdel Ht0) as (c0 & Hc0 & Hc1 & Hc2). exists c0; split; [|split; assumption].
    rewrite Hd in Hc0. destruct Hc0 as [->|Hc0]; [congruence|exact Hc0].
  - left. split; [exact Htab|split; [exact Hrem|]]. intro Ht0. destruct (Hdel Ht0) as (c0 & Hc0 & Hc1 & Hc2). exists c0; split; [|split; assumption].
    rewrite Hd in Hc0. destruct Hc0 as [->|Hc0]; [|exact Hc0]. rewrite Hw in Hc2. injection Hc2 as ->. exfalso.
    destruct Hg as [Hg|Hg]; [apply memn_in in Hg; contradiction|]. now apply (del_entry_some _ _ e Htab eq_refl) in Hg.
  - destruct (Nat.eq_dec (e_ser e1) (e_ser e)) as [Es|Es].
    + assert (Hc : delayed_ok lifetime (s_log s) c) by (apply (is_del _ _ _ Hin2); rewrite Hd; now left). unfold delayed_ok in Hc. rewrite Hw in Hc.
      destruct Hc as (n & Hn & _). destruct (Hun _ _ _ _ Hn Hadd Es) as [-> _].
      destruct Hl as [[E0 _]|[_ (l' & -> & _)]]; [congruence|].
      right; right. rewrite Klg, terminals_app. change (terminals e (LTimeout e t1 :: l')) with (cnt (term_ser (e_ser e)) (LTimeout e t1 :: l')). rewrite cnt_cons.
      change (term_ser (e_ser e) (LTimeout e t1 : event)) with (Nat.eqb (e_ser e) (e_ser e)). rewrite Nat.eqb_refl. lia.
    + left. split; [eapply del_entry_keep; [exact He|congruence|exact Htab]|split; [intros [?|?]; [congruence|contradiction]|]].
      intro Ht0. destruct (Hdel Ht0) as (c0 & Hc0 & Hc1 & Hc2). exists c0; split; [|split; assumption].
      rewrite Hd in Hc0. destruct Hc0 as [->|Hc0]; [|exact Hc0]. rewrite Hw in Hc2. injection Hc2 as ->. congruence.
Qed.

(** A new entry is alive. *)
Definition inv_removed s : Prop := forall n, In n (s_removed s) -> (n < s_nextSer s)%nat.
Lemma extract_incl_ser p lt stay out x n : extract p lt = (stay, out, x) -> In n (map e_ser out) -> exists e : entry, In e lt /\ e_ser e = n.
Proof. intros E H. apply in_map_iff in H. destruct H as (e & <- & He). exists e; split; [|reflexivity]. eapply extract_incl; [exact E|now right]. Qed.
Lemma inv_removed_trans s o s' : inv_src s -> inv_uniq s -> trans s o s' -> inv_removed s -> inv_removed s'.
Proof.
  intros Hin2 [Hu _] Ht Hr.
  assert (Htab : forall e, In e (s_table s) -> (e_ser e < s_nextSer s)%nat) by (intros e He; destruct (is_table _ _ _ Hin2 e He) as [t Ha]; eauto).
  destruct Ht as [l Hq H|a c fr l Hs Hm Hq H|a c fr now e1 dl sq fr' l Hs Hm He Hd Hf Hq H|a c Ha Has Hc H|Hc H|k fr Hf Hn H|id rq Ho Hrq H|p stay out x fr l He Hc Hx Hq H
    |f [Hf Hft] Hk Hi H|f fr Hf [He Hfi] Hk H|e1 es d fr l Hf Hq H|e1 es fr Hf H|f fs i fr Hf H|delay cid now Ho H|t1 fr c cs cid Hf Hd Ht Hw H|t1 fr c cs e1 Hf Hd Ht Hw Hg H|t1 fr c cs e1 t' l Hf Hd Ht Hw Hm He Hl H];
    destruct H as [Kt Krq Krm Ksr Kdl Ksq Kcn Kqu Kfr Klg]; unfold inv_removed; rewrite Krm, Ksr; auto.
  - intros n H0. apply Hr in H0. lia.
  - intros n H0. apply in_app_or in H0. destruct H0 as [H0|H0]; [|now apply Hr]. apply in_map_iff in H0. destruct H0 as (e & <- & H0). apply filter_In in H0. now apply Htab.
  - intros n H0. apply in_app_or in H0. destruct H0 as [H0|H0]; [|now apply Hr]. destruct (extract_incl_ser _ _ _ _ _ _ He H0) as (e & H1 & <-). apply Htab. now apply in_rev.
  - intros n [<-|H0]; [|now apply Hr]. destruct (del_entry_cnt _ (fun _ => true) _ _ He) as (e & H1 & <- & _). now apply Htab.
Qed.
Lemma inv_all_run async os : inv_once (run (init async) os) /\ inv_src (run (init async) os) /\ inv_uniq (run (init async) os) /\ inv_removed (run (init async) os).
Proof.
  split; [apply inv_once_run|split; [apply inv_src_run|split; [apply inv_uniq_run|]]].
  cut (forall os, inv_src (run (init async) os) /\ inv_uniq (run (init async) os)); [|intro; split; [apply inv_src_run|apply inv_uniq_run]].
  intro Hb. induction os as [|o os IH] using rev_ind; [intros n []|].
  rewrite run_app. cbn [NodeModel.run fold_left]. unfold NodeModel.run at 1. cbn [fold_left]. destruct (Hb os). apply (inv_removed_trans (run (init async) os) o); auto. apply step_trans.
Qed.
Lemma added_alive s o s' e t : inv_removed s -> trans s o s' -> ~ In (LAdd e t) (s_log s) -> In (LAdd e t) (s_log s') -> alive s' e t.
Proof.
  intros Hrm Ht Hn Hy. destruct Ht as [l Hq H|a c fr l Hs Hm Hq H|a c fr now e1 dl sq fr' l Hs Hm He Hd Hf Hq H|a c Ha Has Hc H|Hc H|k fr Hf Hn0 H|id rq Ho Hr H|p stay out x fr l He Hc Hx Hq H
    |f [Hf Hft] Hk Hi H|f fr Hf [He Hfi] Hk H|e1 es d fr l Hf Hq H|e1 es fr Hf H|f fs i fr Hf H|delay cid now Ho H|t1 fr c cs cid Hf Hd Ht Hw H|t1 fr c cs e1 Hf Hd Ht Hw Hg H|t1 fr c cs e1 t' l Hf Hd Ht Hw Hm He Hl H];
    destruct H as [Kt Krq Krm Ksr Kdl Ksq Kcn Kqu Kfr Klg]; rewrite Klg in Hy; try contradiction; apply in_app_or in Hy; destruct Hy as [Hy|Hy]; try contradiction;
    cbn [In] in Hy; try (exfalso; eapply no_add_quiet; eassumption).
  all: try (exfalso; destruct Hy as [Hy|Hy]; [discriminate|eapply no_add_quiet; eassumption]).
  all: try (exfalso; destruct Hy as [Hy|[]]; discriminate).
  - destruct Hy as [Hy|Hy]; [|exfalso; eapply no_add_quiet; eassumption]. injection Hy as -> ->. left. rewrite Kt, Krm, Kdl.
    split; [apply in_or_app; right; now left|split; [intro H0; apply Hrm in H0; subst e; cbn in H0; lia|]].
    intro Hti. destruct Hd as [(_ & _ & E)|(_ & -> & _)]; [congruence|]. eexists; split; [apply insert_in; left; reflexivity|]. split; reflexivity.
  - exfalso. destruct Hl as [[_ ->]|[_ (l' & -> & Hq)]]; [destruct Hy|]. destruct Hy as [Hy|Hy]; [discriminate|eapply no_add_quiet; eassumption].
Qed.

Theorem exactly_once async os e t now :
  (forall i d, exists b, matches i d = Ok b) -> (forall i, exists b, wire i = Ok b) ->
  In (LAdd e t) (s_log (run (init async) os)) -> e_timeout e = true ->
  (forall os1 os2, os = os1 ++ ORemovePending (e_id e) :: os2 -> ~ In (LAdd e t) (s_log (run (init async) os1))) ->
  settled (run (init async) os) now -> t + timer lifetime e <= now ->
  terminals e (s_log (run (init async) os)) = 1%nat.
Proof.
  intros Hm Hw Hadd Het Hno [Hfr Hdue] Hle.
  assert (Hal : alive (run (init async) os) e t).
  { clear Hfr Hdue. revert Hadd Hno. induction os as [|o os IH] using rev_ind; [intros []|]. intros Hadd Hno.
    destruct (inv_all_run async os) as (V1 & V2 & V3 & V4).
    rewrite run_app in *. change (run (run (init async) os) [o]) with (step (run (init async) os) o) in *.
    pose proof (step_trans (run (init async) os) o) as Ht.
    assert (Hdec : In (LAdd e t) (s_log (run (init async) os)) \/ ~ In (LAdd e t) (s_log (run (init async) os))).
    { destruct V3 as [Hu _]. destruct (add_trans _ _ _ Ht) as [[_ Ha]|(e0 & t0 & _ & H0 & Ha)]; apply Ha in Hadd; [now left|].
      destruct Hadd as [Hadd|[-> ->]]; [now left|]. right. intro Hx. apply Hu in Hx. lia. }
    destruct Hdec as [Hold|Hnew].
    - eapply alive_trans; try eassumption.
      + intros ->. apply (Hno os []); [reflexivity|exact Hold].
      + apply IH; [exact Hold|]. intros os1 os2 ->. apply (Hno os1 (os2 ++ [o])). now rewrite <- app_assoc.
    - eapply added_alive; eassumption. }
  assert (H1 : (1 <= terminals e (s_log (run (init async) os)))%nat).
  { destruct Hal as [(Htab & _ & Hdel)|[Hdis|Htr]]; [|unfold in_dispatch in Hdis; rewrite Hfr in Hdis; destruct Hdis|exact Htr].
    exfalso. assert (Hti : has_timer lifetime e = true) by (unfold has_timer; now rewrite Het). destruct (Hdel Hti) as (c & Hc & Hct & _). apply Hdue in Hc. lia. }
  pose proof (at_most_once matches wire lifetime isLocalTimeout fmatch status async os e). lia.
Qed.
End Node.
