(** * Client node: interest filters, registered prefixes and ids. *)
From Verif Require Import Base BaseLemmas NodeModel NodeSpec NodeProofs NodeProofs2 NodeProofs3 NodeProofs4 NodeProofs5.
From Coq Require Import Lia.

Section Node.
Context {I D F : Type}.
Variable matches : I -> D -> res bool.
Variable wire : I -> res bytes.
Variable lifetime : I -> option Z.
Variable isLocalTimeout : I -> bool.
Variable fmatch : F -> I -> res bool.
Variable status : D -> res Z.
Notation entry := (entry I F). Notation state := (state I D F). Notation event := (event I D F). Notation op := (op I D F).
Notation frame := (frame I D F). Notation args := (args I F). Notation dcall := (dcall I F). Notation fentry := (fentry F).
Notation run := (run matches wire lifetime isLocalTimeout fmatch status).
Notation step := (step matches wire lifetime isLocalTimeout fmatch status).
Notation trans := (trans matches wire lifetime fmatch).
Notation step_trans := (step_trans matches wire lifetime isLocalTimeout fmatch status).
Notation log_run := (log_run matches wire lifetime isLocalTimeout fmatch status).
Implicit Types (s : state) (e : entry).

(** *** Changes to the filters, registrations and ids *)
Definition noreg (x : event) : Prop := match x with LRegOk _ | LId _ => False | _ => True end.
Inductive rtrans s (o : op) (s' : state) : Prop :=
| R_same l : s_filters s' = s_filters s -> s_regs s' = s_regs s -> s_regReq s' = s_regReq s -> s_lastId s <= s_lastId s' -> s_log s' = s_log s ++ l -> Forall noreg l -> rtrans s o s'
| R_id : o = ONextId -> s_filters s' = s_filters s -> s_regs s' = s_regs s -> s_regReq s' = s_regReq s -> s_lastId s' = s_lastId s + 1 -> s_log s' = s_log s ++ [LId (s_lastId s + 1)] -> rtrans s o s'
| R_set id f : o = OSetFilter id f -> s_filters s' = s_filters s ++ [FEntry id f UserCb] -> s_regs s' = s_regs s -> s_regReq s' = s_regReq s -> s_lastId s' = s_lastId s -> s_log s' = s_log s -> rtrans s o s'
| R_unset id : o = OUnsetFilter id -> s_filters s' = unset (s_filters s) id -> s_regs s' = s_regs s -> s_regReq s' = s_regReq s -> s_lastId s' = s_lastId s -> s_log s' = s_log s -> rtrans s o s'
| R_remove rid : o = ORemoveRegistered rid -> s' = reg_remove s rid -> rtrans s o s'
| R_zero now e es fr d p b : o = OContinue now -> s_frames s = FrData (e :: es) d :: fr -> e_owner e = Reg 0 p b ->
    s_filters s' = s_filters s -> s_regs s' = s_regs s -> s_regReq s' = s_regReq s -> s_lastId s' = s_lastId s -> s_log s' = s_log s ++ [LData e d; LRegOk 0] -> rtrans s o s'
| R_gone now e es fr d rid p (b : bool) : o = OContinue now -> s_frames s = FrData (e :: es) d :: fr -> e_owner e = Reg rid p b -> rid <> 0 -> mem rid (s_regReq s) = true ->
    s_filters s' = (if b then if 0 <? s_lastId s + 1 then unset (s_filters s ++ [FEntry (s_lastId s + 1) p (RegCb rid)]) (s_lastId s + 1) else s_filters s ++ [FEntry (s_lastId s + 1) p (RegCb rid)] else s_filters s) ->
    s_regs s' = s_regs s -> s_regReq s' = remove1 rid (s_regReq s) -> s_lastId s' = (if b then s_lastId s + 1 else s_lastId s) -> s_log s' = s_log s ++ [LData e d] -> rtrans s o s'
| R_ok now e es fr d rid p (b : bool) : o = OContinue now -> s_frames s = FrData (e :: es) d :: fr -> e_owner e = Reg rid p b -> rid <> 0 -> mem rid (s_regReq s) = false ->
    s_filters s' = (if b then s_filters s ++ [FEntry (s_lastId s + 1) p (RegCb rid)] else s_filters s) ->
    s_regs s' = s_regs s ++ [REntry rid (if b then s_lastId s + 1 else 0)] -> s_regReq s' = s_regReq s -> s_lastId s' = (if b then s_lastId s + 1 else s_lastId s) ->
    s_log s' = s_log s ++ [LData e d; LRegOk rid] -> rtrans s o s'.

Ltac rsame := apply (R_same _ _ _ []); [reflexivity|reflexivity|reflexivity|cbn; lia|symmetry; apply app_nil_r|constructor].
Lemma helper_rest s a now : exists l, s_filters (fst (expressHelper wire lifetime isLocalTimeout fmatch s a now)) = s_filters s /\ s_regs (fst (expressHelper wire lifetime isLocalTimeout fmatch s a now)) = s_regs s /\
  s_regReq (fst (expressHelper wire lifetime isLocalTimeout fmatch s a now)) = s_regReq s /\ s_lastId (fst (expressHelper wire lifetime isLocalTimeout fmatch s a now)) = s_lastId s /\
  s_log (fst (expressHelper wire lifetime isLocalTimeout fmatch s a now)) = s_log s ++ l /\ Forall noreg l.
Proof.
  destruct (expressHelper_spec wire lifetime isLocalTimeout fmatch s a now) as [Hm|e dl seq fr l Hm He Hd Hf Hl]; cbn.
  - exists []. rewrite app_nil_r. split; [reflexivity|split; [reflexivity|split; [reflexivity|split; [reflexivity|split; [reflexivity|constructor]]]]].
  - exists (LAdd e now :: l). split; [reflexivity|split; [reflexivity|split; [reflexivity|split; [reflexivity|split; [reflexivity|]]]]].
    constructor; [exact Logic.I|]. destruct Hl as [->|[b ->]]; [constructor|constructor; [exact Logic.I|constructor]].
Qed.
Lemma express_rest s a now : exists l, let s' := express wire lifetime isLocalTimeout fmatch s a now in
  s_filters s' = s_filters s /\ s_regs s' = s_regs s /\ s_regReq s' = s_regReq s /\ s_lastId s' = s_lastId s /\ s_log s' = s_log s ++ l /\ Forall noreg l.
Proof.
  destruct (helper_rest s a now) as (l & H1 & H2 & H3 & H4 & H5 & H6).
  assert (Hr : exists l, let s' := raised (expressHelper wire lifetime isLocalTimeout fmatch s a now) in
    s_filters s' = s_filters s /\ s_regs s' = s_regs s /\ s_regReq s' = s_regReq s /\ s_lastId s' = s_lastId s /\ s_log s' = s_log s ++ l /\ Forall noreg l).
  { unfold raised. destruct (snd _) as [x|]; [|now exists l]. exists (l ++ [LRaise x]). cbn [s_filters s_regs s_regReq s_lastId s_log logs]. rewrite H5, app_assoc.
    split; [assumption|split; [assumption|split; [assumption|split; [assumption|split; [reflexivity|]]]]]. apply Forall_app; split; [assumption|constructor; [exact Logic.I|constructor]]. }
  unfold express. destruct (s_conn s); [| |exact Hr]; (destruct (negb _); [destruct (snd _); [exact Hr|exists l; cbn [s_filters s_regs s_regReq s_lastId s_log set_conn]; auto 10]|]);
    exists []; cbn; rewrite app_nil_r; (split; [reflexivity|split; [reflexivity|split; [reflexivity|split; [reflexivity|split; [reflexivity|constructor]]]]]).
Qed.
Lemma step_rtrans s o : rtrans s o (step s o).
Proof.
  destruct o as [|id i t n now|id|d|i|i| |delay cid now|now|now| |id f|id|rid p b i now|rid|b]; cbn [NodeModel.step].
  - apply R_id; reflexivity.
  - destruct (express_rest s (Args id i t n User) now) as (l & H1 & H2 & H3 & H4 & H5 & H6). apply (R_same _ _ _ l); auto. lia.
  - rsame.
  - unfold receiveData, pit_extract. destruct (extract _ _) as [[? ?] [x|]]; [|rsame]. apply (R_same _ _ _ [LRaise x]); [reflexivity|reflexivity|reflexivity|cbn; lia|reflexivity|constructor; [exact Logic.I|constructor]].
  - unfold receiveNack, pit_extract. destruct (wire i) as [bb|x]; [|apply (R_same _ _ _ [LRaise x]); [reflexivity|reflexivity|reflexivity|cbn; lia|reflexivity|constructor; [exact Logic.I|constructor]]].
    destruct (extract _ _) as [[? ?] [x|]]; [|rsame]. apply (R_same _ _ _ [LRaise x]); [reflexivity|reflexivity|reflexivity|cbn; lia|reflexivity|constructor; [exact Logic.I|constructor]].
  - unfold raised, dispatch. destruct (matched _ _ _) as [fs|x]; cbn [fst snd]; [rsame|].
    apply (R_same _ _ _ [LRaise x]); [reflexivity|reflexivity|reflexivity|cbn; lia|reflexivity|constructor; [exact Logic.I|constructor]].
  - destruct (s_conn s) as [|[|]|]; rsame.
  - rsame.
  - rsame.
  - unfold continue. destruct (s_frames s) as [|[[|e es] d|[|e es]|[|f fs] i|t|k] fr] eqn:Ef; try rsame.
    + unfold callOnData. set (s1 := logs _ _). assert (Hold : s_log s1 = s_log s ++ [LData e d]) by reflexivity.
      destruct (e_owner e) as [|rid p b] eqn:Eo.
      { apply (R_same _ _ _ [LData e d]); [reflexivity|reflexivity|reflexivity|cbn; lia|reflexivity|constructor; [exact Logic.I|constructor]]. }
      unfold registerOnData.
      assert (Hfail : forall x, (x = [] \/ x = [LRegFail rid]) -> rtrans s (OContinue now) (logs s1 x)).
      { intros x Hx. apply (R_same _ _ _ ([LData e d] ++ x)); [reflexivity|reflexivity|reflexivity|cbn; lia|cbn; now rewrite <- app_assoc|].
        constructor; [exact Logic.I|]. destruct Hx as [->| ->]; [constructor|constructor; [exact Logic.I|constructor]]. }
      assert (Hnil : rtrans s (OContinue now) s1).
      { apply (R_same _ _ _ [LData e d]); [reflexivity|reflexivity|reflexivity|cbn; lia|reflexivity|constructor; [exact Logic.I|constructor]]. }
      destruct (status d) as [code|x]; [|destruct x; auto].
      destruct (negb (code =? 200)); [auto|].
      destruct (Z.eqb_spec rid 0) as [->|Hr].
      { eapply (R_zero _ _ _ now e es fr d p b); [reflexivity|exact Ef|exact Eo|reflexivity|reflexivity|reflexivity|reflexivity|]. cbn. now rewrite <- app_assoc. }
      unfold reg_add. destruct b; cbn [s_regReq set_filters nextId]; change (s_regReq s1) with (s_regReq s); destruct (mem rid (s_regReq s)) eqn:Em.
      * eapply (R_gone _ _ _ now e es fr d rid p true); [reflexivity|exact Ef|exact Eo|exact Hr|exact Em|..]; cbn; destruct (0 <? s_lastId s + 1); reflexivity.
      * eapply (R_ok _ _ _ now e es fr d rid p true); [reflexivity|exact Ef|exact Eo|exact Hr|exact Em|..]; try reflexivity. cbn. now rewrite <- app_assoc.
      * eapply (R_gone _ _ _ now e es fr d rid p false); [reflexivity|exact Ef|exact Eo|exact Hr|exact Em|..]; reflexivity.
      * eapply (R_ok _ _ _ now e es fr d rid p false); [reflexivity|exact Ef|exact Eo|exact Hr|exact Em|..]; try reflexivity. cbn. now rewrite <- app_assoc.
    + apply (R_same _ _ _ [LNack e]); [reflexivity|reflexivity|reflexivity|cbn; lia|reflexivity|constructor; [exact Logic.I|constructor]].
    + apply (R_same _ _ _ [LInterest f i]); [reflexivity|reflexivity|reflexivity|cbn; lia|reflexivity|constructor; [exact Logic.I|constructor]].
    + destruct (s_delayed s) as [|c cs]; [rsame|]. destruct (_ <=? _); [|rsame].
      destruct (c_what c) as [e|cid]; [|apply (R_same _ _ _ [LCall (c_seq c) cid t]); [reflexivity|reflexivity|reflexivity|cbn; lia|reflexivity|constructor; [exact Logic.I|constructor]]].
      unfold pit_removeEntry. cbn [s_removed s_table set_delayed]. destruct (memn _ _); [rsame|]. destruct (del_entry _ _); [|rsame].
      unfold callTimeout. destruct (e_timeout e); [|rsame]. destruct (e_owner e) as [|rid p b].
      * apply (R_same _ _ _ [LTimeout e t]); [reflexivity|reflexivity|reflexivity|cbn; lia|reflexivity|constructor; [exact Logic.I|constructor]].
      * apply (R_same _ _ _ [LTimeout e t; LRegFail rid]); [reflexivity|reflexivity|reflexivity|cbn; lia|cbn; now rewrite <- app_assoc|constructor; [exact Logic.I|constructor; [exact Logic.I|constructor]]].
    + destruct (nth_error _ _) as [a|]; [|rsame].
      destruct (helper_rest (set_frames s (FrConn (S k) :: fr)) a now) as (l & H1 & H2 & H3 & H4 & H5 & H6).
      destruct (snd _) as [x|].
      * apply (R_same _ _ _ (l ++ [LRaise x])); [exact H1|exact H2|exact H3|cbn [s_lastId logs set_frames] in *; lia|cbn [s_log logs set_frames] in *; now rewrite H5, app_assoc|].
        apply Forall_app; split; [exact H6|constructor; [exact Logic.I|constructor]].
      * apply (R_same _ _ _ l); [exact H1|exact H2|exact H3|cbn [s_lastId set_frames] in *; lia|exact H5|exact H6].
  - destruct (s_frames s) as [|[ | | | | ] fr]; rsame.
  - eapply R_set; reflexivity.
  - eapply R_unset; reflexivity.
  - destruct (express_rest (nextId s) (Args (s_lastId (nextId s)) i true false (Reg rid p b)) now) as (l & H1 & H2 & H3 & H4 & H5 & H6). apply (R_same _ _ _ l); auto. cbn [s_lastId nextId] in *. lia.
  - eapply R_remove; reflexivity.
  - rsame.
Qed.

(** *** Dispatch of an interest *)
Lemma matched_exact (fs : list fentry) i : (forall f, In f fs -> exists b, fmatch (f_filter f) i = Ok b) -> matched fmatch fs i = Ok (filter (fun f => okt (fmatch (f_filter f) i)) fs).
Proof.
  induction fs as [|f fs IH]; intro H; [reflexivity|]. cbn [matched filter]. destruct (H f (or_introl eq_refl)) as [b ->]. cbn [rbind].
  rewrite IH by (intros; apply H; now right). cbn [rbind okt]. destruct b; reflexivity.
Qed.
Lemma matched_sound (fs fs' : list fentry) i f : matched fmatch fs i = Ok fs' -> In f fs' -> In f fs /\ fmatch (f_filter f) i = Ok true.
Proof.
  revert fs'. induction fs as [|f0 fs IH]; intros fs' H Hi; cbn [matched] in H; [injection H as <-; destruct Hi|].
  destruct (fmatch (f_filter f0) i) as [b|] eqn:Eb; [|discriminate]. cbn [rbind] in H. destruct (matched fmatch fs i) as [l|] eqn:El; [|discriminate]. cbn [rbind] in H. injection H as <-.
  destruct b; [destruct Hi as [<-|Hi]|]; [split; [now left|exact Eb]| |]; destruct (IH _ eq_refl Hi); (split; [now right|assumption]).
Qed.
Lemma receive_interest s i : (forall f, In f (s_filters s) -> exists b, fmatch (f_filter f) i = Ok b) ->
  s_frames (step s (OReceiveInterest i)) = FrInterest (filter (fun f => okt (fmatch (f_filter f) i)) (s_filters s)) i :: s_frames s.
Proof. intro H. cbn [NodeModel.step]. unfold raised, dispatch. rewrite matched_exact by assumption. reflexivity. Qed.
Lemma interest_called s i os f : (forall f, In f (s_filters s) -> exists b, fmatch (f_filter f) i = Ok b) ->
  s_frames (run (step s (OReceiveInterest i)) os) = [] -> In f (s_filters s) -> fmatch (f_filter f) i = Ok true -> In (LInterest f i) (s_log (run (step s (OReceiveInterest i)) os)).
Proof.
  intros H Hfr Hi Hm. eapply (waits_run _ _ _ _ _ _ _ os _ (FrInterest _ i)); [rewrite receive_interest by assumption; now left| |exact Hfr].
  split; [|reflexivity]. apply filter_In. split; [exact Hi|now rewrite Hm].
Qed.

(** where the filters of a loop, and of the log, come from *)
Lemma frames_filters s o s' f : trans s o s' -> In f (filters_in_dispatch s') -> In f (filters_in_dispatch s) \/ In f (s_filters s).
Proof.
  intros Ht Hi. unfold filters_in_dispatch in *. apply in_flat_map in Hi. destruct Hi as (fr0 & Hin & Hff).
  assert (Hkeep : In fr0 (s_frames s) -> In f (flat_map fr_filters (s_frames s)) \/ In f (s_filters s)) by (intro; left; apply in_flat_map; eauto).
  assert (Hsrc : forall a c fr, source s o a c fr -> In fr0 fr -> In f (flat_map fr_filters (s_frames s)) \/ In f (s_filters s)).
  { intros a c fr Hs Hi. destruct (source_in _ _ _ _ _ _ Hs Hi) as [H|[k ->]]; [auto|destruct Hff]. }
  destruct Ht as [l Hq H|a c fr l Hs Hm Hq H|a c fr now e1 dl sq fr' l Hs Hm He Hd Hf Hq H|a c Ha Has' Hcc H|Hcc H|k fr Hf Hn H|id0 rq Ho Hrq H|p stay out x0 fr l He Hcc Hx Hq H
    |f0 [Hf Hft] Hk H0 H|f0 fr Hf He Hk H|e1 es d fr l Hf Hq H|e1 es fr Hf H|f0 fs i fr Hf H|delay cid now Ho H|t1 fr c cs cid Hf Hd Ht Hw H|t1 fr c cs e1 Hf Hd Ht Hw Hg H|t1 fr c cs e1 t' l Hf Hd Ht Hw Hm He Hl H];
    destruct H as [Kt Krq Krm Ksr Kdl Ksq Kcn Kqu Kfr Klg]; rewrite Kfr in Hin; auto.
  - eapply Hsrc; eassumption.
  - apply in_app_or in Hin. destruct Hin as [Hin|Hin]; [|eapply Hsrc; eassumption].
    destruct Hf as [->|(fs & -> & Hf)]; [destruct Hin|]. destruct Hin as [<-|[]]. right. eapply matched_sound; eassumption.
  - destruct Hin as [<-|Hin]; [destruct Hff|auto].
  - apply Hkeep. rewrite Hf. now right.
  - apply in_app_or in Hin. destruct Hin as [Hin|Hin]; [|auto]. destruct x0 as [x|]; [rewrite Hx in Hin by discriminate; destruct Hin|].
    destruct Hcc as [(d & _ & _ & Hcc)|(i & b & _ & _ & _ & Hcc)]; rewrite Hcc in Hin by reflexivity; destruct Hin as [<-|[]]; destruct Hff.
  - destruct Hin as [<-|Hin]; [|auto]. destruct f0; try destruct Hff. specialize (H0 _ _ eq_refl). right. eapply matched_sound; [exact H0|assumption].
  - apply Hkeep. rewrite Hf. now right.
  - destruct Hin as [<-|Hin]; [destruct Hff|]. apply Hkeep. rewrite Hf. now right.
  - destruct Hin as [<-|Hin]; [destruct Hff|]. apply Hkeep. rewrite Hf. now right.
  - destruct Hin as [<-|Hin]; [|apply Hkeep; rewrite Hf; now right]. left. rewrite Hf. cbn [flat_map fr_filters]. apply in_or_app. left. right. exact Hff.
Qed.
Lemma log_interest s o s' f i : trans s o s' -> In (LInterest f i) (s_log s') -> In (LInterest f i) (s_log s) \/ In f (filters_in_dispatch s).
Proof.
  intros Ht Hi.
  assert (Hno : forall l : list event, Forall quiet l -> ~ In (LInterest f i) l) by (intros l H Hx; rewrite Forall_forall in H; apply (H _ Hx)).
  destruct Ht as [l Hq H|a c fr l Hs Hm Hq H|a c fr now e1 dl sq fr' l Hs Hm He Hd Hf Hq H|a c Ha Has' Hcc H|Hcc H|k fr Hf Hn H|id0 rq Ho Hrq H|p stay out x0 fr l He Hcc Hx Hq H
    |f0 [Hf Hft] Hk H0 H|f0 fr Hf He Hk H|e1 es d fr l Hf Hq H|e1 es fr Hf H|f0 fs i0 fr Hf H|delay cid now Ho H|t1 fr c cs cid Hf Hd Ht Hw H|t1 fr c cs e1 Hf Hd Ht Hw Hg H|t1 fr c cs e1 t' l Hf Hd Ht Hw Hm He Hl H];
    destruct H as [Kt Krq Krm Ksr Kdl Ksq Kcn Kqu Kfr Klg]; rewrite Klg in Hi; auto; apply in_app_or in Hi; destruct Hi as [Hi|Hi]; auto.
  all: try (exfalso; eapply Hno; eassumption).
  all: try (exfalso; destruct Hi as [Hi|Hi]; [discriminate|eapply Hno; eassumption]).
  all: try (exfalso; destruct Hi as [Hi|[]]; discriminate).
  - right. unfold filters_in_dispatch. rewrite Hf. cbn [flat_map fr_filters]. destruct Hi as [Hi|[]]. injection Hi as <- <-. now left.
  - exfalso. destruct Hl as [[_ ->]|[_ (l' & -> & Hq)]]; [destruct Hi|]. destruct Hi as [Hi|Hi]; [discriminate|eapply Hno; eassumption].
Qed.
(** a callback is only for a matching interest *)
Definition iframe_ok (f : frame) : Prop := match f with FrInterest fs i => forall x, In x fs -> fmatch (f_filter x) i = Ok true | _ => True end.
Definition inv_int s : Prop := (forall f, In f (s_frames s) -> iframe_ok f) /\ forall f i, In (LInterest f i) (s_log s) -> fmatch (f_filter f) i = Ok true.
Lemma inv_int_trans s o s' : trans s o s' -> inv_int s -> inv_int s'.
Proof.
  intros Ht [J1 J2].
  assert (Hno : forall f i (l : list event), Forall quiet l -> ~ In (LInterest f i) l) by (intros f i l H Hx; rewrite Forall_forall in H; apply (H _ Hx)).
  assert (Hsrc : forall a c fr f, source s o a c fr -> In f fr -> iframe_ok f).
  { intros a c fr f Hs Hi. destruct (source_in _ _ _ _ _ _ Hs Hi) as [H|[k ->]]; [auto|exact Logic.I]. }
  destruct Ht as [l Hq H|a c fr l Hs Hm Hq H|a c fr now e1 dl sq fr' l Hs Hm He Hd Hf Hq H|a c Ha Has' Hcc H|Hcc H|k fr Hf Hn H|id0 rq Ho Hrq H|p stay out x0 fr l He Hcc Hx Hq H
    |f0 [Hf Hft] Hk H0 H|f0 fr Hf He Hk H|e1 es d fr l Hf Hq H|e1 es fr Hf H|f0 fs i0 fr Hf H|delay cid now Ho H|t1 fr c cs cid Hf Hd Ht Hw H|t1 fr c cs e1 Hf Hd Ht Hw Hg H|t1 fr c cs e1 t' l Hf Hd Ht Hw Hm He Hl H];
    destruct H as [Kt Krq Krm Ksr Kdl Ksq Kcn Kqu Kfr Klg]; split; rewrite ?Kfr, ?Klg; auto.
  all: try (intros f i Hi; apply in_app_or in Hi; destruct Hi as [Hi|Hi]; [now apply J2|]).
  all: try (exfalso; eapply Hno; eassumption).
  all: try (exfalso; destruct Hi as [Hi|Hi]; [discriminate|eapply Hno; eassumption]).
  all: try (exfalso; destruct Hi as [Hi|[]]; discriminate).
  - intros f Hi. eapply Hsrc; eassumption.
  - intros f Hi. apply in_app_or in Hi. destruct Hi as [Hi|Hi]; [|eapply Hsrc; eassumption].
    destruct Hf as [->|(fs & -> & Hf)]; [destruct Hi|]. destruct Hi as [<-|[]]. intros x Hx. eapply matched_sound; eassumption.
  - intros f [<-|Hi]; [exact Logic.I|auto].
  - intros f Hi. apply J1. rewrite Hf. now right.
  - intros f Hi. apply in_app_or in Hi. destruct Hi as [Hi|Hi]; [|auto]. destruct x0 as [x|]; [rewrite Hx in Hi by discriminate; destruct Hi|].
    destruct Hcc as [(d & _ & _ & Hcc)|(i & b & _ & _ & _ & Hcc)]; rewrite Hcc in Hi by reflexivity; destruct Hi as [<-|[]]; exact Logic.I.
  - intros f [<-|Hi]; [|auto]. destruct f0; try exact Logic.I. specialize (H0 _ _ eq_refl). intros x Hx. eapply matched_sound; eassumption.
  - intros f Hi. apply J1. rewrite Hf. now right.
  - intros f [<-|Hi]; [exact Logic.I|]. apply J1. rewrite Hf. now right.
  - intros f [<-|Hi]; [exact Logic.I|]. apply J1. rewrite Hf. now right.
  - intros f [<-|Hi]; [|apply J1; rewrite Hf; now right]. assert (Hok : iframe_ok (FrInterest (f0 :: fs) i0)) by (apply J1; rewrite Hf; now left). intros x Hx. apply Hok. now right.
  - destruct Hi as [Hi|[]]. injection Hi as <- <-. assert (Hok : iframe_ok (FrInterest (f0 :: fs) i0)) by (apply J1; rewrite Hf; now left). apply Hok. now left.
  - exfalso. destruct Hl as [[_ ->]|[_ (l' & -> & Hq)]]; [destruct Hi|]. destruct Hi as [Hi|Hi]; [discriminate|eapply Hno; eassumption].
Qed.
Lemma inv_int_run async os : inv_int (run (init async) os).
Proof.
  apply (run_ind matches wire lifetime isLocalTimeout fmatch status inv_int).
  - split; cbn; contradiction.
  - intros s o. apply (inv_int_trans s o), step_trans.
Qed.

(** *** Nothing is called for a set of filters which is gone *)
Lemma absent_step (P : fentry -> Prop) s o : (forall f, In f (s_filters s) -> ~ P f) -> (forall f, In f (filters_in_dispatch s) -> ~ P f) ->
  (forall f, In f (s_filters (step s o)) -> ~ P f) ->
  (forall f, In f (filters_in_dispatch (step s o)) -> ~ P f) /\
  exists l, s_log (step s o) = s_log s ++ l /\ forall f i, In (LInterest f i) l -> ~ P f.
Proof.
  intros H1 H2 H3. pose proof (step_trans s o) as Ht. split.
  - intros f Hf. destruct (frames_filters _ _ _ _ Ht Hf); auto.
  - assert (Hx : exists l, s_log (step s o) = s_log s ++ l /\ forall f i, In (LInterest f i) l -> In f (filters_in_dispatch s)).
    2: { destruct Hx as (l & Hl & Hi). exists l; split; [exact Hl|]. intros f i Hf. apply H2. eapply Hi, Hf. }
    assert (Hno : forall f i (l : list event), Forall quiet l -> ~ In (LInterest f i) l) by (intros f i l H Hx; rewrite Forall_forall in H; apply (H _ Hx)).
    clear H1 H2 H3.
    destruct Ht as [l Hq H|a c fr l Hs Hm Hq H|a c fr now e1 dl sq fr' l Hs Hm He Hd Hf Hq H|a c Ha Has' Hcc H|Hcc H|k fr Hf Hn H|id0 rq Ho Hrq H|p stay out x0 fr l He Hcc Hx Hq H
    |f0 [Hf Hft] Hk H0 H|f0 fr Hf He Hk H|e1 es d fr l Hf Hq H|e1 es fr Hf H|f0 fs i0 fr Hf H|delay cid now Ho H|t1 fr c cs cid Hf Hd Ht Hw H|t1 fr c cs e1 Hf Hd Ht Hw Hg H|t1 fr c cs e1 t' l Hf Hd Ht Hw Hm He Hl H];
    pose proof (sh_lg _ _ _ _ _ _ _ _ _ _ _ H) as Klg.
    all: try (exists []; split; [now rewrite app_nil_r|intros ? ? []]).
    all: try (eexists; split; [exact Klg|]; intros f i Hi).
    all: try (exfalso; eapply Hno; eassumption).
    all: try (exfalso; destruct Hi as [Hi|Hi]; [discriminate|eapply Hno; eassumption]).
    all: try (exfalso; destruct Hi as [Hi|[]]; discriminate).
    + destruct Hi as [Hi|[]]. injection Hi as <- <-. unfold filters_in_dispatch. rewrite Hf. cbn [flat_map fr_filters]. now left.
    + exfalso. destruct Hl as [[_ ->]|[_ (l' & -> & Hq)]]; [destruct Hi|]. destruct Hi as [Hi|Hi]; [discriminate|eapply Hno; eassumption].
Qed.

(** *** Unset *)
Definition sets (id : Z) (o : op) : bool := match o with OSetFilter id' _ => id' =? id | _ => false end.
Lemma lastId_mono s o : s_lastId s <= s_lastId (step s o).
Proof.
  destruct (step_rtrans s o) as [l H1 H2 H3 H4 H5 H6|Ho H1 H2 H3 H4 H5|id x Ho H1 H2 H3 H4 H5|id Ho H1 H2 H3 H4 H5|r0 Ho H1|now e es fr d p b Ho Hf He H1 H2 H3 H4 H5|now e es fr d r0 p b Ho Hf He Hr Hm H1 H2 H3 H4 H5|now e es fr d r0 p b Ho Hf He Hr Hm H1 H2 H3 H4 H5];
    try lia; [rewrite H1; cbn; lia|destruct b; lia|destruct b; lia].
Qed.
Lemma fold_unset_in (rs : list rentry) (fs : list fentry) f :
  In f (fold_left (fun fs r => if 0 <? r_filterId r then unset fs (r_filterId r) else fs) rs fs) -> In f fs /\ forall r, In r rs -> 0 < r_filterId r -> f_id f <> r_filterId r.
Proof.
  revert fs. induction rs as [|r rs IH]; intros fs; cbn [fold_left]; [intro H; split; [exact H|intros ? []]|].
  intro H. apply IH in H. destruct H as [H1 H2]. destruct (Z.ltb_spec 0 (r_filterId r)) as [Hp|Hp].
  - unfold unset in H1. apply filter_In in H1. destruct H1 as [H1 H3]. split; [exact H1|]. intros r0 [<-|Hr] Hp0; [|now apply H2]. apply Bool.negb_true_iff, Z.eqb_neq in H3. exact H3.
  - split; [exact H1|]. intros r0 [<-|Hr] Hp0; [lia|now apply H2].
Qed.
Lemma fold_unset_keep (rs : list rentry) (fs : list fentry) f :
  In f fs -> (forall r, In r rs -> f_id f <> r_filterId r) -> In f (fold_left (fun fs r => if 0 <? r_filterId r then unset fs (r_filterId r) else fs) rs fs).
Proof.
  revert fs. induction rs as [|r rs IH]; intros fs Hf H; cbn [fold_left]; [exact Hf|]. apply IH; [|intros; apply H; now right].
  destruct (_ <? _); [|exact Hf]. unfold unset. apply filter_In. split; [exact Hf|]. apply Bool.negb_true_iff, Z.eqb_neq. apply H. now left.
Qed.
Lemma filters_new s o f : In f (s_filters (step s o)) -> In f (s_filters s) \/
  (exists id x, o = OSetFilter id x /\ f = FEntry id x UserCb) \/
  (exists e es fr d rid p, s_frames s = FrData (e :: es) d :: fr /\ e_owner e = Reg rid p true /\ rid <> 0 /\ mem rid (s_regReq s) = false /\ f = FEntry (s_lastId s + 1) p (RegCb rid)) \/
  (s_lastId s + 1 <= 0 /\ exists p rid, f = FEntry (s_lastId s + 1) p (RegCb rid)).
Proof.
  destruct (step_rtrans s o) as [l H1 H2 H3 H4 H5 H6|Ho H1|id x Ho H1|id Ho H1|rid Ho H1|now e es fr d p b Ho Hf He H1|now e es fr d rid p b Ho Hf He Hr Hm H1|now e es fr d rid p b Ho Hf He Hr Hm H1]; rewrite H1; auto.
  - intro Hx. apply in_app_or in Hx. destruct Hx as [Hx|[<-|[]]]; [now left|]. right; left. eauto.
  - unfold unset. intro Hx. apply filter_In in Hx. now left.
  - cbn. intro Hx. apply fold_unset_in in Hx. now left.
  - destruct b; [|auto]. destruct (Z.ltb_spec 0 (s_lastId s + 1)).
    + unfold unset. intro Hx. apply filter_In in Hx. destruct Hx as [Hx Hy]. apply in_app_or in Hx. destruct Hx as [Hx|[<-|[]]]; [now left|].
      cbn [f_id] in Hy. rewrite Z.eqb_refl in Hy. discriminate.
    + intro Hx. apply in_app_or in Hx. destruct Hx as [Hx|[<-|[]]]; [now left|]. right; right; right. split; [lia|eauto].
  - destruct b; [|auto]. intro Hx. apply in_app_or in Hx. destruct Hx as [Hx|[<-|[]]]; [now left|]. right; right; left. exists e, es, fr, d, rid, p. auto 10.
Qed.

Theorem unset_silent s id os :
  id <= s_lastId s -> (forall f, In f (filters_in_dispatch s) -> f_id f <> id) -> forallb (fun o => negb (sets id o)) os = true ->
  exists l, s_log (run (step s (OUnsetFilter id)) os) = s_log s ++ l /\ forall f i, In (LInterest f i) l -> f_id f <> id.
Proof.
  intros Hid Hd Hos. set (s1 := step s (OUnsetFilter id)).
  assert (H1 : forall f, In f (s_filters s1) -> ~ (f_id f = id)).
  { intros f Hf. unfold s1 in Hf. cbn in Hf. unfold unset in Hf. apply filter_In in Hf. destruct Hf as [_ Hf]. apply Bool.negb_true_iff, Z.eqb_neq in Hf. exact Hf. }
  assert (H2 : forall f, In f (filters_in_dispatch s1) -> ~ (f_id f = id)) by exact Hd.
  assert (H3 : id <= s_lastId s1) by exact Hid.
  assert (Hlog : s_log s1 = s_log s) by reflexivity. rewrite <- Hlog. clearbody s1. clear s Hid Hd Hlog.
  revert s1 H1 H2 H3. induction os as [|o os IH]; intros s H1 H2 H3; [exists []; split; [symmetry; apply app_nil_r|intros ? ? []]|].
  cbn [forallb] in Hos. apply andb_prop in Hos. destruct Hos as [Ho Hos].
  assert (H4 : forall f, In f (s_filters (step s o)) -> ~ (f_id f = id)).
  { intros f Hf. destruct (filters_new _ _ _ Hf) as [Hf0|[(id0 & x & -> & ->)|[(e & es & fr & d & rid & p & _ & _ & _ & _ & ->)|(_ & p & rid & ->)]]]; [auto| | |]; cbn [f_id].
    - cbn [sets] in Ho. apply Bool.negb_true_iff, Z.eqb_neq in Ho. exact Ho.
    - lia.
    - lia. }
  destruct (absent_step (fun f => f_id f = id) s o H1 H2 H4) as (H5 & l1 & Hl1 & Hi1).
  destruct (IH Hos (step s o) H4 H5) as (l2 & Hl2 & Hi2); [pose proof (lastId_mono s o); lia|].
  exists (l1 ++ l2). rewrite run_cons, Hl2, Hl1, app_assoc. split; [reflexivity|]. intros f i Hi. apply in_app_or in Hi. destruct Hi as [Hi|Hi]; [now apply Hi1 in Hi|now apply Hi2 in Hi].
Qed.
Lemma lastId_pos async os : 0 <= s_lastId (run (init async) os).
Proof. apply (run_ind matches wire lifetime isLocalTimeout fmatch status (fun s => 0 <= s_lastId s)); [cbn; lia|]. intros s o H. pose proof (lastId_mono s o). lia. Qed.

(** *** Ids *)
Lemma ids_log s o : exists l, s_log (step s o) = s_log s ++ l /\ forall n, In (LId n) l -> l = [LId n] /\ s_lastId s < n /\ n <= s_lastId (step s o).
Proof.
  destruct (step_rtrans s o) as [l H1 H2 H3 H4 H5 H6|Ho H1 H2 H3 H4 H5|id x Ho H1 H2 H3 H4 H5|id Ho H1 H2 H3 H4 H5|rid Ho H1|now e es fr d p b Ho Hf He H1 H2 H3 H4 H5|now e es fr d rid p b Ho Hf He Hr Hm H1 H2 H3 H4 H5|now e es fr d rid p b Ho Hf He Hr Hm H1 H2 H3 H4 H5];
    try (rewrite H5); try (rewrite H1); eexists.
  - split; [reflexivity|]. intros n Hn. rewrite Forall_forall in H6. apply H6 in Hn. destruct Hn.
  - split; [reflexivity|]. intros n [Hn|[]]. injection Hn as <-. split; [reflexivity|lia].
  - split; [symmetry; apply app_nil_r|intros ? []].
  - split; [symmetry; apply app_nil_r|intros ? []].
  - split; [symmetry; apply app_nil_r|intros ? []].
  - split; [reflexivity|]. intros n [Hn|[Hn|[]]]; discriminate.
  - split; [reflexivity|]. intros n [Hn|[]]; discriminate.
  - split; [reflexivity|]. intros n [Hn|[Hn|[]]]; discriminate.
Qed.
Theorem ids_increase s os l : s_log (run s os) = s_log s ++ l ->
  (forall n, In (LId n) l -> s_lastId s < n /\ n <= s_lastId (run s os)) /\
  forall l1 n l2 m l3, l = l1 ++ LId n :: l2 ++ LId m :: l3 -> n < m.
Proof.
  revert s l. induction os as [|o os IH]; intros s l Hl.
  - assert (l = []) by (cbn in Hl; rewrite <- app_nil_r in Hl at 1; now apply app_inv_head in Hl). subst. split; [intros ? []|]. intros [|? ?] ? ? ? ? H; discriminate.
  - rewrite run_cons in *. destruct (ids_log s o) as (l1 & Hl1 & Hid1). destruct (log_run (step s o) os) as [l2 Hl2].
    rewrite Hl2, Hl1, <- app_assoc in Hl. apply app_inv_head in Hl. subst l. destruct (IH (step s o) l2 Hl2) as [IH1 IH2].
    pose proof (lastId_mono s o) as Hm.
    assert (Hm2 : s_lastId (step s o) <= s_lastId (run (step s o) os)).
    { clear. generalize (step s o) as s0. induction os as [|o0 os IH]; intro s0; [reflexivity|]. rewrite run_cons. pose proof (lastId_mono s0 o0). specialize (IH (step s0 o0)). lia. }
    split.
    + intros n Hn. apply in_app_or in Hn. destruct Hn as [Hn|Hn]; [apply Hid1 in Hn; lia|apply IH1 in Hn; lia].
    + intros la n lb m lc E. destruct (in_dec (fun x y : bool => Bool.bool_dec x y) true [existsb (fun x => match x with LId _ => true | _ => false end) l1]) as [Hex|Hex].
      * destruct Hex as [Hex|[]]. apply existsb_exists in Hex. destruct Hex as (x & Hx & Hb). destruct x as [| | | | | | | | | |n0]; try discriminate.
        destruct (Hid1 n0 Hx) as (-> & Ha & Hb0). cbn [app] in E. destruct la as [|x la]; cbn [app] in E.
        -- injection E as -> E. assert (Hi : In (LId m) l2) by (rewrite E; apply in_or_app; right; now left). apply IH1 in Hi. lia.
        -- injection E as _ E. eapply IH2, E.
      * assert (Hno : forall n0, ~ In (LId n0) l1) by (intros n0 Hn0; apply Hex; left; apply existsb_exists; eexists; split; [exact Hn0|reflexivity]).
        assert (Ex : exists lr, la = l1 ++ lr).
        { clear -E Hno. revert la E. induction l1 as [|x l1 IH]; intros la E; [now exists la|]. destruct la as [|y la]; cbn [app] in E; injection E as -> E; [exfalso; apply (Hno n); now left|].
          destruct (IH (fun n0 H => Hno n0 (or_intror H)) la E) as [lr ->]. now exists lr. }
        destruct Ex as [lr ->]. rewrite <- app_assoc in E. apply app_inv_head in E. eapply IH2, E.
Qed.

(** *** Removing a registered prefix *)
Definition reg_of (rid : Z) (a : args) : bool := match a_owner a with Reg r _ _ => r =? rid | User => false end.
Definition is_reg (rid : Z) (r : rentry) : bool := r_id r =? rid.
Definition regcount (rid : Z) s : nat := (cnt (is_reg rid) (s_regs s) + pot (reg_of rid) s)%nat.
Lemma uses_reg rid s o : uses_of (reg_of rid) s o = (if registers rid o then 1 else 0)%nat.
Proof. destruct o; reflexivity. Qed.
Lemma cnt_is_reg_remove rid r0 s : (cnt (is_reg rid) (s_regs (reg_remove s r0)) <= cnt (is_reg rid) (s_regs s))%nat.
Proof. change (s_regs (reg_remove s r0)) with (filter (fun r => negb (r_id r =? r0)) (s_regs s)). pose proof (cnt_filter_split (is_reg rid) (fun r => r_id r =? r0) (s_regs s)) as H. cbv beta in H. lia. Qed.

(** the response to a registration consumes its entry *)
Lemma pot_data rid s now e es d fr p b : s_frames s = FrData (e :: es) d :: fr -> e_owner e = Reg rid p b ->
  (pot (reg_of rid) (step s (OContinue now)) + 1 = pot (reg_of rid) s)%nat.
Proof.
  intros Hf He. cbn [NodeModel.step]. unfold continue. rewrite Hf. unfold callOnData. rewrite He.
  destruct (registerOnData_same status (logs (set_frames s (FrData es d :: fr)) [LData e d]) rid p b d) as [Ht Hrq Hrm Hsr Hdl Hsq Hcn Has Hqu Hfr _].
  unfold pot, qrem, in_dispatch. rewrite Ht, Hcn, Hqu, Hfr. cbn [s_table s_conn s_queue s_frames logs set_frames]. rewrite Hf. cbn [flat_map fr_entries qr]. unfold qr. cbn [qfr].
  rewrite !cnt_app, cnt_cons. assert (E : ent (reg_of rid) e = true) by (unfold ent, reg_of; cbn; rewrite He; apply Z.eqb_refl). rewrite E. lia.
Qed.
Lemma regcount_step rid s o : inv_conn s -> (regcount rid (step s o) <= regcount rid s + (if registers rid o then 1 else 0))%nat.
Proof.
  intro Hic. pose proof (pot_trans _ _ _ _ (reg_of rid) _ _ _ Hic (step_trans s o)) as Hp. rewrite uses_reg in Hp. unfold regcount.
  destruct (step_rtrans s o) as [l H1 H2 H3 H4 H5 H6|Ho H1 H2|id x Ho H1 H2|id Ho H1 H2|r0 Ho H1|now e es fr d p b Ho Hf He H1 H2|now e es fr d r0 p b Ho Hf He Hr Hm H1 H2|now e es fr d r0 p b Ho Hf He Hr Hm H1 H2]; try (rewrite H2; lia).
  - rewrite H1 in *. pose proof (cnt_is_reg_remove rid r0 s). lia.
  - rewrite H2, cnt_app, cnt_cons, cnt_nil. unfold is_reg at 2. cbn [r_id]. destruct (Z.eqb_spec r0 rid) as [->|]; [|lia].
    rewrite Ho in *. pose proof (pot_data rid s now e es d fr p b Hf He). lia.
Qed.
Lemma regcount_run rid async os : (regcount rid (run (init async) os) <= cnt (registers rid) os)%nat.
Proof.
  induction os as [|o os IH] using rev_ind; [cbn; lia|]. rewrite run_app. change (run (run (init async) os) [o]) with (step (run (init async) os) o).
  pose proof (regcount_step rid _ o (inv_conn_run matches wire lifetime isLocalTimeout fmatch status async os)). rewrite cnt_app, cnt_cons, cnt_nil. lia.
Qed.
Definition inv_reg s : Prop := forall f r, In f (s_filters s) -> f_cb f = RegCb r -> In (REntry r (f_id f)) (s_regs s) /\ 0 < f_id f.
Lemma inv_reg_step s o : 0 <= s_lastId s -> inv_reg s -> inv_reg (step s o).
Proof.
  intros Hpos Hi f r Hf Hcb.
  assert (Hkeep : (forall x, In x (s_regs s) -> In x (s_regs (step s o))) -> In f (s_filters s) -> In (REntry r (f_id f)) (s_regs (step s o)) /\ 0 < f_id f).
  { intros Hk Hf0. destruct (Hi f r Hf0 Hcb). auto. }
  destruct (step_rtrans s o) as [l H1 H2 H3 H4 H5 H6|Ho H1 H2|id x Ho H1 H2|id Ho H1 H2|r0 Ho H1|now e es fr d p b Ho Hf0 He H1 H2|now e es fr d r0 p b Ho Hf0 He Hr Hm H1 H2|now e es fr d r0 p b Ho Hf0 He Hr Hm H1 H2].
  - rewrite H1 in Hf. rewrite H2 in *. auto.
  - rewrite H1 in Hf. rewrite H2 in *. auto.
  - rewrite H1 in Hf. rewrite H2 in *. apply in_app_or in Hf. destruct Hf as [Hf|[<-|[]]]; [auto|discriminate].
  - rewrite H1 in Hf. rewrite H2 in *. unfold unset in Hf. apply filter_In in Hf. destruct Hf. auto.
  - rewrite H1 in *. cbn in Hf. apply fold_unset_in in Hf. destruct Hf as [Hf Hno]. destruct (Hi f r Hf Hcb) as [Hin Hp]. split; [|exact Hp].
    cbn. apply filter_In. split; [exact Hin|]. cbn [r_id]. apply Bool.negb_true_iff, Z.eqb_neq. intros ->.
    apply (Hno (REntry r0 (f_id f))); [|exact Hp|reflexivity]. apply in_rev. rewrite rev_involutive. apply filter_In. split; [exact Hin|apply Z.eqb_refl].
  - rewrite H1 in Hf. rewrite H2 in *. auto.
  - rewrite H1 in Hf. rewrite H2 in *. destruct b; [|auto]. destruct (Z.ltb_spec 0 (s_lastId s + 1)); [|lia].
    unfold unset in Hf. apply filter_In in Hf. destruct Hf as [Hf Hn]. apply in_app_or in Hf. destruct Hf as [Hf|[<-|[]]]; [auto|]. cbn [f_id] in Hn. rewrite Z.eqb_refl in Hn. discriminate.
  - rewrite H1 in Hf. rewrite H2 in *. assert (Hk : forall x, In x (s_regs s) -> In x (s_regs s ++ [REntry r0 (if b then s_lastId s + 1 else 0)])) by (intros; apply in_or_app; now left).
    destruct b; [|auto]. apply in_app_or in Hf. destruct Hf as [Hf|[<-|[]]]; [auto|]. cbn [f_cb f_id] in *. injection Hcb as <-. split; [apply in_or_app; right; now left|lia].
Qed.
Lemma inv_reg_run async os : inv_reg (run (init async) os).
Proof.
  induction os as [|o os IH] using rev_ind; [intros f r []|]. rewrite run_app. change (run (run (init async) os) [o]) with (step (run (init async) os) o).
  apply inv_reg_step; [apply lastId_pos|exact IH].
Qed.

Record rgone (rid : Z) s (u : nat) : Prop := {
  rg_filters : forall f, In f (s_filters s) -> ~ (f_cb f = RegCb rid);
  rg_dis : forall f, In f (filters_in_dispatch s) -> ~ (f_cb f = RegCb rid);
  rg_pot : (pot (reg_of rid) s + u = 0 \/ (pot (reg_of rid) s + u <= 1 /\ In rid (s_regReq s)))%nat }.
Lemma rgone_step rid s o u : rid <> 0 -> 0 <= s_lastId s -> inv_conn s -> rgone rid s ((if registers rid o then 1 else 0) + u) ->
  rgone rid (step s o) u /\ exists l, s_log (step s o) = s_log s ++ l /\ forall x, In x l -> x <> LRegOk rid /\ forall f i, x = LInterest f i -> f_cb f <> RegCb rid.
Proof.
  intros Hrid Hpos Hic [G1 G2 G3].
  pose proof (pot_trans _ _ _ _ (reg_of rid) _ _ _ Hic (step_trans s o)) as Hp. rewrite uses_reg in Hp.
  assert (Hin : forall now e es fr d p b, o = OContinue now -> s_frames s = FrData (e :: es) d :: fr -> e_owner e = Reg rid p b -> (pot (reg_of rid) (step s o) + 1 = pot (reg_of rid) s)%nat /\ In rid (s_regReq s)).
  { intros now e es fr d p b -> Hf He. pose proof (pot_data rid s now e es d fr p b Hf He) as Hd. split; [exact Hd|]. destruct G3 as [G3|[_ G3]]; [lia|exact G3]. }
  assert (Hq : (pot (reg_of rid) (step s o) + u = 0 \/ (pot (reg_of rid) (step s o) + u <= 1 /\ In rid (s_regReq (step s o))))%nat /\
               (forall f, In f (s_filters (step s o)) -> ~ (f_cb f = RegCb rid)) /\
               exists l, s_log (step s o) = s_log s ++ l /\ ~ In (LRegOk rid) l).
  { destruct (step_rtrans s o) as [l H1 H2 H3 H4 H5 H6|Ho H1 H2 H3 H4 H5|id x Ho H1 H2 H3 H4 H5|id Ho H1 H2 H3 H4 H5|r0 Ho H1|now e es fr d p b Ho Hf He H1 H2 H3 H4 H5|now e es fr d r0 p b Ho Hf He Hr Hm H1 H2 H3 H4 H5|now e es fr d r0 p b Ho Hf He Hr Hm H1 H2 H3 H4 H5].
    - rewrite H3, H1, H5. split; [destruct G3 as [G3|[G3 G4]]; [left; lia|right; split; [lia|exact G4]]|split; [exact G1|]]. exists l; split; [reflexivity|]. intro Hx. rewrite Forall_forall in H6. apply (H6 _ Hx).
    - rewrite H3, H1, H5. split; [destruct G3 as [G3|[G3 G4]]; [left; lia|right; split; [lia|exact G4]]|split; [exact G1|]]. eexists; split; [reflexivity|]. intros [Hx|[]]; discriminate.
    - rewrite H3, H1, H5. split; [destruct G3 as [G3|[G3 G4]]; [left; lia|right; split; [lia|exact G4]]|split; [|exists []; split; [symmetry; apply app_nil_r|auto]]].
      intros f Hi. apply in_app_or in Hi. destruct Hi as [Hi|[<-|[]]]; [auto|discriminate].
    - rewrite H3, H1, H5. split; [destruct G3 as [G3|[G3 G4]]; [left; lia|right; split; [lia|exact G4]]|split; [|exists []; split; [symmetry; apply app_nil_r|auto]]].
      intros f Hi. unfold unset in Hi. apply filter_In in Hi. destruct Hi. auto.
    - rewrite H1 in *. split; [|split; [|exists []; split; [symmetry; apply app_nil_r|auto]]].
      + destruct G3 as [G3|[G3 G4]]; [left; lia|right; split; [lia|]]. cbn. destruct (filter _ (s_regs s)); [|exact G4]. destruct (mem r0 (s_regReq s)); [exact G4|apply in_or_app; now left].
      + intros f Hi. cbn in Hi. apply fold_unset_in in Hi. destruct Hi. auto.
    - rewrite H3, H1, H5. split; [destruct G3 as [G3|[G3 G4]]; [left; lia|right; split; [lia|exact G4]]|split; [exact G1|]]. eexists; split; [reflexivity|]. intros [Hx|[Hx|[]]]; [discriminate|]. injection Hx as <-. now apply Hrid.
    - rewrite H3, H1, H5. split; [|split; [|eexists; split; [reflexivity|intros [Hx|[]]; discriminate]]].
      + destruct (Z.eq_dec r0 rid) as [->|Hn]; [destruct (Hin _ _ _ _ _ _ _ Ho Hf He) as [Hd _]; left; rewrite Ho in *; cbn [registers] in *; lia|].
        destruct G3 as [G3|[G3 G4]]; [left; lia|right; split; [lia|]]. apply remove1_in; auto.
      + intros f Hi. destruct b; [|auto]. destruct (Z.ltb_spec 0 (s_lastId s + 1)); [|lia]. unfold unset in Hi. apply filter_In in Hi. destruct Hi as [Hi Hn].
        apply in_app_or in Hi. destruct Hi as [Hi|[<-|[]]]; [auto|]. cbn [f_id] in Hn. rewrite Z.eqb_refl in Hn. discriminate.
    - assert (Hne : r0 <> rid). { intros ->. destruct (Hin _ _ _ _ _ _ _ Ho Hf He) as [_ Hi]. apply mem_in in Hi. congruence. }
      rewrite H3, H1, H5. split; [destruct G3 as [G3|[G3 G4]]; [left; lia|right; split; [lia|exact G4]]|split; [|eexists; split; [reflexivity|intros [Hx|[Hx|[]]]; congruence]]].
      intros f Hi. destruct b; [|auto]. apply in_app_or in Hi. destruct Hi as [Hi|[<-|[]]]; [auto|]. cbn. congruence. }
  destruct Hq as (Hq1 & Hq2 & l & Hl & Hno).
  destruct (absent_step (fun f => f_cb f = RegCb rid) s o G1 G2 Hq2) as (Hd & l' & Hl' & Hi').
  rewrite Hl in Hl'. apply app_inv_head in Hl'. subst l'. split; [constructor; assumption|]. exists l; split; [exact Hl|]. intros x Hx. split; [intros ->; contradiction|]. intros f i ->. eapply Hi', Hx.
Qed.
Theorem reg_removed async os1 os2 rid : rid <> 0 -> (length (filter (registers rid) (os1 ++ os2)) <= 1)%nat ->
  (forall f, In f (filters_in_dispatch (run (init async) os1)) -> f_cb f <> RegCb rid) ->
  exists l, s_log (run (init async) (os1 ++ ORemoveRegistered rid :: os2)) = s_log (run (init async) os1) ++ l /\
    forall x, In x l -> x <> LRegOk rid /\ forall f i, x = LInterest f i -> f_cb f <> RegCb rid.
Proof.
  intros Hrid Hu Hd. change (cnt (registers rid) (os1 ++ os2) <= 1)%nat in Hu. rewrite cnt_app in Hu.
  pose proof (regcount_run rid async os1) as Hrc. unfold regcount in Hrc. pose proof (inv_reg_run async os1) as Hir.
  set (s := run (init async) os1) in *.
  assert (Hst : step s (ORemoveRegistered rid) = run (init async) (os1 ++ [ORemoveRegistered rid])) by (unfold s; now rewrite run_app).
  assert (Hg : rgone rid (step s (ORemoveRegistered rid)) (cnt (registers rid) os2)).
  { constructor.
    - intros f Hf Hcb. cbn in Hf. apply fold_unset_in in Hf. destruct Hf as [Hf Hno]. destruct (Hir f rid Hf Hcb) as [Hin Hp].
      apply (Hno (REntry rid (f_id f))); [|exact Hp|reflexivity]. apply in_rev. rewrite rev_involutive. apply filter_In. split; [exact Hin|apply Z.eqb_refl].
    - exact Hd.
    - change (pot (reg_of rid) (step s (ORemoveRegistered rid))) with (pot (reg_of rid) s).
      change (s_regReq (step s (ORemoveRegistered rid))) with (match filter (fun r => r_id r =? rid) (s_regs s) with [] => if mem rid (s_regReq s) then s_regReq s else s_regReq s ++ [rid] | _ => s_regReq s end).
      change (cnt (is_reg rid) (s_regs s)) with (length (filter (fun r => r_id r =? rid) (s_regs s))) in Hrc.
      destruct (filter (fun r => r_id r =? rid) (s_regs s)) as [|r0 rr] eqn:Ef; cbn [length] in Hrc; [right|left; lia].
      split; [lia|]. destruct (mem rid (s_regReq s)) eqn:Em; [now apply mem_in|apply in_or_app; right; now left]. }
  rewrite run_app, run_cons. fold s. change (s_log s) with (s_log (step s (ORemoveRegistered rid))). rewrite Hst in *. clear Hst Hd Hrc Hir s Hu.
  revert Hg. generalize (os1 ++ [ORemoveRegistered rid]) as os'. clear os1. induction os2 as [|o os2 IH]; intros os' Hg.
  { exists []. split; [symmetry; apply app_nil_r|intros ? []]. }
  rewrite cnt_cons in Hg.
  destruct (rgone_step rid _ o _ Hrid (lastId_pos async os') (inv_conn_run _ _ _ _ _ _ async os') Hg) as (Hg' & l1 & Hl1 & Hc1).
  rewrite run_cons. specialize (IH (os' ++ [o])). rewrite run_app in IH. change (run (run (init async) os') [o]) with (step (run (init async) os') o) in IH.
  destruct (IH Hg') as (l2 & Hl2 & Hc2). exists (l1 ++ l2). split; [now rewrite Hl2, Hl1, app_assoc|]. intros x Hx. apply in_app_or in Hx. destruct Hx as [Hx|Hx]; auto.
Qed.
End Node.
