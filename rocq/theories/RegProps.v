(** * C88: the prefix registration command and its response. *)
From Verif Require Import Base BaseLemmas TlvModel TlvSpec NameModel NameSpec NameProofs CalModel WireModel WireSpec BlobModel CtlModel CtlSpec CtlProps SigProps CmdModel CmdSpec CmdProps PrepProps MatchModel WireProps BagModel.
From Verif Require Import NodeModel NodeProofs NodeProofs2 NodeProps RecvModel RecvSpec RecvProps RegModel.
From Coq Require Import Lia ZifyBool Sorting.Sorted.

(** ** Specification *)
(** The parameters that the forwarder must read: name, flags, origin if there is one, nothing else. *)
Definition asked (prefix : name) (o : options) : controlParameters :=
  CP (Some prefix) None [] None (op_origin o) None (op_flags o) [] None.
Definition origin_ok (o : options) : Prop := match op_origin o with Some v => u64 v | None => True end.

(** ** The command *)
Lemma parameters_asked prefix o : origin_ok o -> registerParameters prefix o = asked prefix o.
Proof. unfold registerParameters, asked, origin_ok. destruct (op_origin o) as [v|]; [|reflexivity]. unfold u64. intro. replace (0 <=? v) with true by lia. reflexivity. Qed.
(** The name is /localhost/nfd/rib/register (or /localhop) and the parameters, the timestamp, the
    random bytes, the SignatureInfo and the signature; it is a command signed with the key, later
    than the ones before; the lifetime is 2 s (4 s if the host is not local). *)
Theorem C88_command : forall isLocal certificateName prefix o last now random sign k s,
  certificateName <> [] -> name_ok prefix -> origin_ok o -> zlen (tlv 104 (elems (cp_els (asked prefix o) no_extra))) < 2 ^ 64 -> 0 <= last ->
  (forall p, sign p = Ok s) -> sig_fits s -> locates s k ->
  let r := registerCommand isLocal true certificateName prefix o last now random sign in
  fst r < 2 ^ 64 ->
  exists i w, snd r = Ok i /\ decodeControlParameters w = Ok (asked prefix o) /\
    i_name i = [c_generic (if isLocal then text_localhost else text_localhop); c_generic text_nfd; c_generic text_rib; c_generic text_register] ++
               [c_generic w; c_generic (nonneg (fst r)); c_generic random; c_generic (siginfo s); c_generic (encodeSignatureValue s)] /\
    command (i_name i) k (fst r) /\ last < fst r /\
    i_lifetime i = Some (if isLocal then 2000 else 4000) /\ i_canBePrefix i = true /\ i_mustBeFresh i = true /\ i_params i = None.
Proof.
  intros isLocal cert prefix o last now random sign k s Hc Hp Ho Hz Hl Hs Hf Hk r Hr. unfold registerCommand in r. cbn [negb] in r.
  assert (zlen cert =? 0 = false). { destruct cert; [congruence|]. rewrite zlen_cons. pose proof (zlen_nonneg _ cert). lia. }
  assert (Hok : cp_ok (asked prefix o)).
  { unfold cp_ok, asked, cp_name, cp_faceId, cp_uri, cp_localControlFeature, cp_origin, cp_cost, cp_strategy, cp_expiration.
    split; [exact Hp|]. split; [exact Logic.I|]. split; [apply Forall_nil|]. split; [exact Logic.I|]. split; [exact Ho|]. split; [exact Logic.I|]. split; [apply Forall_nil|exact Logic.I]. }
  destruct (C20_parameters_round_trip (asked prefix o) Hok Hz) as [Ew Dw].
  subst r. rewrite H, (parameters_asked prefix o Ho), Ew in *. clear H. set (w := tlv 104 _) in *. clearbody w. cbv zeta in *. cbn [fst snd] in *.
  set (n := [c_generic _; _; _; _] ++ [c_generic w]) in *. set (r := prepareCommandInterestName last now random n) in *.
  destruct (C52_command last now random n s k Hl Hr Hf Hk) as (m & Em & Hm). fold r in Em, Hm.
  pose proof (C52_layout last now random n Hl) as El. cbv zeta in El. fold r in El. rewrite El in *. cbn [rbind] in *. rewrite Hs. cbn [rbind]. rewrite Em. cbn [rbind].
  eexists. exists w. split; [reflexivity|]. split; [exact Dw|]. cbn [i_name i_lifetime i_mustBeFresh i_params]. split.
  - unfold signName in Em. destruct Hf as (Ok' & L1 & L2). destruct (C47_round_trip s Ok' L1 L2) as [Ee _]. rewrite Ee in Em. cbn [rbind] in Em. injection Em as <-. reflexivity.
  - split; [exact Hm|]. split; [unfold r; rewrite stamp; lia|]. split; [destruct isLocal; reflexivity|]. repeat split; reflexivity.
Qed.
(** Without a key chain or a certificate name it raises RuntimeError, and nothing is sent. *)
Theorem C88_no_signing_info : forall sha F fm pf rnd isLocal hasKeyChain cert sign st rid prefix o hi now clock random nonce, hasKeyChain = false \/ cert = [] ->
  registerPrefix sha F fm pf rnd isLocal hasKeyChain cert sign st rid prefix o hi now clock random nonce = (logs (fst st) [LRaise RuntimeError], snd st).
Proof.
  intros. unfold registerPrefix, registerCommand. destruct H as [-> | ->]; [reflexivity|]. destruct hasKeyChain; reflexivity.
Qed.
(** The timestamps of the commands of one face increase. *)
Theorem C88_increasing : forall isLocal hasKeyChain cert prefix o last now random sign, let r := registerCommand isLocal hasKeyChain cert prefix o last now random sign in
  last <= fst r /\ ((exists i, snd r = Ok i) -> last < fst r).
Proof.
  intros. unfold registerCommand in r. destruct (negb hasKeyChain); [subst r; cbn; split; [lia|intros [i K]; discriminate K]|].
  destruct (zlen cert =? 0); [subst r; cbn; split; [lia|intros [i K]; discriminate K]|].
  destruct (encodeControlParameters _) as [w|x]; [|subst r; cbn; split; [lia|intros [i K]; discriminate K]].
  subst r. cbv zeta. cbn [fst]. rewrite stamp. split; [lia|intros _; lia].
Qed.

(** ** The response *)
Section Response.
Variable sha256 : bytes -> bytes.
Variable F : Type.
Variable fmatch : F -> name -> res bool.
Variable rnd : bytes.
Notation state := (state interest data F). Notation op := (op interest data F). Notation entry := (entry interest F). Notation event := (event interest data F).
Notation run := (RecvModel.run sha256 F fmatch rnd). Notation step := (RecvModel.step sha256 F fmatch rnd).

Definition no_data (x : event) : Prop := match x with LData _ _ | LTimeout _ _ => False | _ => True end.
Definition adds (s s' : state) : Prop := (exists l, s_log s' = s_log s ++ l /\ Forall no_data l) /\ s_regReq s' = s_regReq s.
Lemma adds_same (s s' : state) : s_log s' = s_log s -> s_regReq s' = s_regReq s -> adds s s'.
Proof. intros H R. split; [|exact R]. exists []. rewrite app_nil_r. split; [exact H|apply Forall_nil]. Qed.
Lemma adds_trans (s1 s2 s3 : state) : adds s1 s2 -> adds s2 s3 -> adds s1 s3.
Proof. intros [(a & Ha & Fa) Ra] [(b & Hb & Fb) Rb]. split; [|congruence]. exists (a ++ b). rewrite Hb, Ha, app_assoc. split; [reflexivity|apply Forall_app; auto]. Qed.
Lemma adds_logs (s s' : state) l : adds s s' -> Forall no_data l -> adds s (logs s' l).
Proof. intros [(a & Ha & Fa) Ra] Fl. split; [|exact Ra]. exists (a ++ l). cbn [logs s_log]. rewrite Ha, app_assoc. split; [reflexivity|apply Forall_app; auto]. Qed.
Lemma one_no_data x : no_data x -> Forall no_data [x].
Proof. intro. apply Forall_cons; [assumption|apply Forall_nil]. Qed.
Notation wire := (wire rnd). Notation fm := (fun (f : F) (i : interest) => fmatch f (i_name i)).
Lemma adds_helper (s : state) a now : adds s (fst (expressHelper wire i_lifetime isLocalTimeout fm s a now)).
Proof.
  unfold expressHelper. unfold pit_add. destruct (mem (a_id a) (s_removeReq s)); [apply adds_same; reflexivity|]. set (s1 := set_pit s _ _ _ _).
  set (s2 := if _ || _ then _ else s1). assert (A2 : adds s s2) by (unfold s2; destruct (_ || _); apply adds_same; reflexivity). clearbody s2.
  assert (A3 : adds s (logs s2 [LAdd (Entry (s_nextSer s) (a_id a) (a_int a) (a_timeout a) (a_nack a) (a_owner a)) now])) by (apply adds_logs; [exact A2|apply one_no_data; exact Logic.I]).
  set (s3 := logs s2 _) in *. clearbody s3. destruct (isLocalTimeout (a_int a)); [exact A3|]. destruct (wire (a_int a)) as [b|x]; [|exact A3]. destruct (maxPacketSize <? zlen b); [exact A3|].
  assert (A4 : adds s (logs s3 [LSend b])) by (apply adds_logs; [exact A3|apply one_no_data; exact Logic.I]). set (s4 := logs s3 _) in *. clearbody s4.
  destruct (s_loopback s4); [|exact A4]. unfold dispatch. destruct (matched _ (s_filters s4) (a_int a)); [|exact A4]. apply (adds_trans _ _ _ A4). apply adds_same; reflexivity.
Qed.
Lemma adds_raised (s : state) r : adds s (fst r) -> adds s (raised r).
Proof. destruct r as [s' [x|]]; intro H; unfold raised; cbn [snd fst]; [apply adds_logs; [exact H|apply one_no_data; exact Logic.I]|exact H]. Qed.
Lemma adds_express (s : state) a now : adds s (express wire i_lifetime isLocalTimeout fm s a now).
Proof.
  unfold express. pose proof (adds_helper s a now) as H. destruct (s_conn s); destruct (negb (s_async s)); try (apply adds_same; reflexivity);
    try (apply adds_raised; exact H); (destruct (snd (expressHelper _ _ _ _ s a now)); [apply adds_raised; exact H|]); (apply (adds_trans _ _ _ H), adds_same; reflexivity).
Qed.
Lemma adds_op (s : state) (o : op) : (forall t, o <> OContinue t) -> (forall rid, o <> ORemoveRegistered rid) -> adds s (step s o).
Proof.
  intros No Nr. unfold RecvModel.step. destruct o as [|id i t n now|id|d|i|i| |delay cid now|now|now| |id f|id|rid p b i now|rid|b]; cbn [NodeModel.step]; try (apply adds_same; reflexivity).
  - apply adds_logs; [apply adds_same; reflexivity|apply one_no_data; exact Logic.I].
  - apply adds_express.
  - unfold receiveData. destruct (pit_extract s _) as [[s1 es] x] eqn:E.
    assert (A : adds s s1) by (unfold pit_extract in E; destruct (extract _ _) as [[st out] x']; injection E as <- _ _; apply adds_same; reflexivity).
    destruct x; [apply adds_logs; [exact A|apply one_no_data; exact Logic.I]|]. apply (adds_trans _ _ _ A), adds_same; reflexivity.
  - unfold receiveNack. destruct (wire i) as [w|x]; [|apply adds_logs; [apply adds_same; reflexivity|apply one_no_data; exact Logic.I]]. destruct (pit_extract s _) as [[s1 es] x] eqn:E.
    assert (A : adds s s1) by (unfold pit_extract in E; destruct (extract _ _) as [[st out] x']; injection E as <- _ _; apply adds_same; reflexivity).
    destruct x; [apply adds_logs; [exact A|apply one_no_data; exact Logic.I]|]. apply (adds_trans _ _ _ A), adds_same; reflexivity.
  - apply adds_raised. unfold dispatch. destruct (matched _ (s_filters s) i); apply adds_same; reflexivity.
  - destruct (s_conn s) as [|[]|]; apply adds_same; reflexivity.
  - exfalso. exact (No now eq_refl).
  - destruct (s_frames s) as [|[] fr]; apply adds_same; reflexivity.
  - apply (adds_trans _ (nextId s)); [apply adds_same; reflexivity|apply adds_express].
  - exfalso. exact (Nr rid eq_refl).
Qed.
(** The calls of onData and onTimeout of a registration. *)
Lemma mem_in n l : mem n l = true <-> In n l.
Proof. unfold mem. rewrite existsb_exists. split; [intros (x & Hx & E); apply Z.eqb_eq in E; now subst|intro H; exists n; split; [exact H|apply Z.eqb_refl]]. Qed.
Lemma remove1_incl n : forall l x, In x (remove1 n l) -> In x l.
Proof. induction l as [|y l IH]; cbn [remove1]; intros x H; [exact H|]. destruct (y =? n); [now right|]. destruct H as [->|H]; [now left|right; auto]. Qed.
(** The response: the status code of the ControlResponse in the content of the Data. *)
Theorem C88_status : forall d r x, cr_ok r -> d_content d = Some (cr_bytes r x) -> x = no_extra -> zlen (cr_bytes r x) < 2 ^ 64 -> exists c, cr_code r = Some c /\ status d = Ok c.
Proof.
  intros d r x H E -> L. destruct (C20_response_round_trip r H L) as [_ D]. destruct H as ((c & Ec & _) & _). exists c. split; [exact Ec|]. unfold status. rewrite E, D. cbn [rbind]. rewrite Ec. reflexivity.
Qed.
(** When it comes: with the code 200 onRegisterSuccess is called and the filter is set (unless
    the registration was removed before), with another code or bytes that are no ControlResponse
    (ValueError) onRegisterFailed is called and nothing is set. *)
Theorem C88_response : forall (s : state) now e es d fr rid p hasOnInterest, s_frames s = FrData (e :: es) d :: fr -> e_owner e = Reg rid p hasOnInterest ->
  let s' := step s (OContinue now) in
  (status d = Ok 200 -> rid <> 0 -> ~ In rid (s_regReq s) -> s_log s' = s_log s ++ [LData e d; LRegOk rid] /\
     s_filters s' = s_filters s ++ (if hasOnInterest then [FEntry (s_lastId s + 1) p (RegCb rid)] else [])) /\
  (status d = Ok 200 -> rid <> 0 -> In rid (s_regReq s) -> 0 <= s_lastId s -> (forall f, In f (s_filters s) -> f_id f <= s_lastId s) -> s_log s' = s_log s ++ [LData e d] /\ s_filters s' = s_filters s) /\
  ((exists c, status d = Ok c /\ c <> 200) \/ status d = Err ValueError -> s_log s' = s_log s ++ [LData e d; LRegFail rid] /\ s_filters s' = s_filters s).
Proof.
  intros s now e es d fr rid p hi Hf Ho s'. subst s'. unfold RecvModel.step. cbn [NodeModel.step]. unfold continue. rewrite Hf. unfold callOnData. rewrite Ho.
  set (s1 := logs _ [LData e d]). assert (L1 : s_log s1 = s_log s ++ [LData e d]) by reflexivity. assert (F1 : s_filters s1 = s_filters s) by reflexivity.
  assert (R1 : s_regReq s1 = s_regReq s) by reflexivity. assert (I1 : s_lastId s1 = s_lastId s) by reflexivity. clearbody s1. unfold registerOnData.
  split; [|split].
  - intros -> Hr Hn. cbn [Z.eqb Pos.eqb negb]. replace (rid =? 0) with false by lia. unfold reg_add.
    assert (Hm : mem rid (s_regReq s) = false) by (destruct (mem rid (s_regReq s)) eqn:E; [exfalso; now apply Hn, mem_in|reflexivity]).
    destruct hi; cbn [nextId set_filters s_regReq s_filters s_lastId s_regs]; rewrite R1, Hm; cbn [logs set_regs set_filters nextId s_log s_filters s_lastId]; rewrite L1, F1, ?I1, <- ?app_assoc, ?app_nil_r; split; reflexivity.
  - intros -> Hr Hn H0 Hid. cbn [Z.eqb Pos.eqb negb]. replace (rid =? 0) with false by lia. unfold reg_add. apply mem_in in Hn.
    destruct hi; cbn [nextId set_filters s_regReq s_filters s_lastId s_regs]; rewrite R1, Hn.
    + rewrite I1. replace (0 <? s_lastId s + 1) with true by lia. cbn [set_regs set_filters s_log s_filters s_lastId nextId]. split; [exact L1|]. rewrite F1. unfold unset. rewrite filter_app. cbn [filter f_id]. rewrite Z.eqb_refl. cbn [negb].
      rewrite app_nil_r. assert (K : forall l, (forall f : fentry F, In f l -> f_id f <= s_lastId s) -> filter (fun f => negb (f_id f =? s_lastId s + 1)) l = l).
      { induction l as [|f l IH]; intro Hl; [reflexivity|]. cbn [filter]. replace (f_id f =? s_lastId s + 1) with false by (specialize (Hl f (or_introl eq_refl)); lia). cbn [negb]. f_equal. apply IH. intros; apply Hl; now right. }
      now apply K.
    + cbn [set_regs s_log s_filters Z.ltb Z.compare]. split; [exact L1|exact F1].
  - intros [(c & -> & Hc)| ->].
    + replace (c =? 200) with false by lia. cbn [negb logs s_log s_filters]. rewrite L1, F1, <- app_assoc. split; reflexivity.
    + cbn [logs s_log s_filters]. rewrite L1, F1, <- app_assoc. split; reflexivity.
Qed.

(** ** Over every history *)
Definition reported (os : list op) (s : state) : Prop :=
  (forall rid, In rid (s_regReq s) -> In (ORemoveRegistered rid) os) /\
  forall e rid p b, e_owner e = Reg rid p b ->
    (forall d, In (LData e d) (s_log s) ->
       ((exists c, status d = Ok c /\ c <> 200) \/ status d = Err ValueError -> In (LRegFail rid) (s_log s)) /\
       (status d = Ok 200 -> In (LRegOk rid) (s_log s) \/ In (ORemoveRegistered rid) os)) /\
    (forall t, In (LTimeout e t) (s_log s) -> In (LRegFail rid) (s_log s)).
Lemma reported_keep os o (s s' : state) l : reported os s -> s_log s' = s_log s ++ l ->
  (forall rid, In rid (s_regReq s') -> In rid (s_regReq s) \/ o = ORemoveRegistered rid) ->
  (forall e rid p b, e_owner e = Reg rid p b ->
    (forall d, In (LData e d) l -> ((exists c, status d = Ok c /\ c <> 200) \/ status d = Err ValueError -> In (LRegFail rid) l) /\
       (status d = Ok 200 -> In (LRegOk rid) l \/ In rid (s_regReq s))) /\
    (forall t, In (LTimeout e t) l -> In (LRegFail rid) l)) ->
  reported (os ++ [o]) s'.
Proof.
  intros [Hr Hl] E Hq Hn. split.
  - intros rid Hi. apply in_or_app. destruct (Hq rid Hi) as [H| ->]; [left; auto|right; now left].
  - intros e rid p b Ho. destruct (Hl e rid p b Ho) as [Hd Ht]. destruct (Hn e rid p b Ho) as [Hd' Ht']. rewrite E. split.
    + intros d Hi. apply in_app_or in Hi. destruct Hi as [Hi|Hi]; [destruct (Hd d Hi) as [A B]|destruct (Hd' d Hi) as [A B]]; split.
      * intro K. apply in_or_app. left. auto.
      * intro K. destruct (B K) as [B'|B']; [left; apply in_or_app; now left|right; apply in_or_app; now left].
      * intro K. apply in_or_app. right. auto.
      * intro K. destruct (B K) as [B'|B']; [left; apply in_or_app; now right|right; apply in_or_app; left; auto].
    + intros t Hi. apply in_or_app. apply in_app_or in Hi. destruct Hi as [Hi|Hi]; [left; eauto|right; eauto].
Qed.
Lemma reported_adds os o (s s' : state) : reported os s -> adds s s' -> reported (os ++ [o]) s'.
Proof.
  intros H [(l & E & Fl) R]. rewrite Forall_forall in Fl. eapply reported_keep; [exact H|exact E| |].
  - intros rid Hi. rewrite R in Hi. now left.
  - intros e rid p b _. split; [intros d Hi; destruct (Fl _ Hi)|intros t Hi; destruct (Fl _ Hi)].
Qed.
Lemma reported_step os o (s : state) : reported os s -> reported (os ++ [o]) (step s o).
Proof.
  intro H. assert (C : (exists t, o = OContinue t) \/ (exists rid, o = ORemoveRegistered rid) \/ (forall t, o <> OContinue t) /\ forall rid, o <> ORemoveRegistered rid).
  { destruct o; try (right; right; split; intros; discriminate); [left; eauto|right; left; eauto]. }
  destruct C as [[now ->]|[[rid ->]|[N1 N2]]]; [| |apply (reported_adds _ _ s); [exact H|apply (adds_op s o N1 N2)]].
  - unfold RecvModel.step. cbn [NodeModel.step]. unfold continue. destruct (s_frames s) as [|[[|e es] d|[|e es]|[|f fs] i|t|k] fr] eqn:Hf; cbv iota beta; try (apply (reported_adds _ _ s); [exact H|apply adds_same; reflexivity]).
    + unfold callOnData. set (s1 := logs _ [LData e d]). assert (L1 : s_log s1 = s_log s ++ [LData e d]) by reflexivity. assert (R1 : s_regReq s1 = s_regReq s) by reflexivity. clearbody s1.
      destruct (e_owner e) as [|rid p b] eqn:Ho.
      { eapply reported_keep; [exact H|exact L1|intros rid Hi; rewrite R1 in Hi; now left|]. intros e' rid' p' b' Ho'. split; [|intros t [K|[]]; discriminate K].
        intros d' [K|[]]. injection K as <- <-. congruence. }
      assert (G : exists l, s_log (registerOnData status s1 rid p b d) = s_log s1 ++ l /\ (forall x, In x (s_regReq (registerOnData status s1 rid p b d)) -> In x (s_regReq s1)) /\
        Forall no_data l /\ ((exists c, status d = Ok c /\ c <> 200) \/ status d = Err ValueError -> In (LRegFail rid) l) /\ (status d = Ok 200 -> In (LRegOk rid) l \/ In rid (s_regReq s1))).
      { unfold registerOnData. destruct (status d) as [c|x].
        - destruct (c =? 200) eqn:Ec; cbn [negb].
          + destruct (rid =? 0).
            { exists [LRegOk rid]. split; [reflexivity|]. split; [auto|]. split; [apply one_no_data; exact Logic.I|]. split; [intros [(c' & K & Nc)|K]; [injection K as <-; lia|discriminate K]|intros _; left; now left]. }
            unfold reg_add. set (s2 := if b then set_filters (if b then nextId s1 else s1) _ else _). assert (E2 : s_log s2 = s_log s1 /\ s_regReq s2 = s_regReq s1) by (unfold s2; destruct b; split; reflexivity).
            destruct E2 as [L2 R2]. clearbody s2. destruct (mem rid (s_regReq s2)) eqn:Em.
            * exists []. rewrite app_nil_r. split; [destruct (0 <? _); exact L2|]. split; [intros x Hx; rewrite <- R2; destruct (0 <? _); cbn [set_filters set_regs s_regReq] in Hx; now apply remove1_incl in Hx|].
              split; [apply Forall_nil|]. split; [intros [(c' & K & Nc)|K]; [injection K as <-; lia|discriminate K]|]. intros _. right. rewrite <- R2. now apply mem_in.
            * exists [LRegOk rid]. cbn [logs set_regs s_log s_regReq]. rewrite L2, R2. split; [reflexivity|]. split; [auto|]. split; [apply one_no_data; exact Logic.I|].
              split; [intros [(c' & K & Nc)|K]; [injection K as <-; lia|discriminate K]|intros _; left; now left].
          + exists [LRegFail rid]. split; [reflexivity|]. split; [auto|]. split; [apply one_no_data; exact Logic.I|]. split; [intros _; now left|intro K; injection K as ->; lia].
        - assert (Hx : exists l, s_log (match x with ValueError => logs s1 [LRegFail rid] | _ => s1 end) = s_log s1 ++ l /\ s_regReq (match x with ValueError => logs s1 [LRegFail rid] | _ => s1 end) = s_regReq s1 /\ Forall no_data l /\ (x = ValueError -> In (LRegFail rid) l)).
          { destruct x; try (exists []; rewrite app_nil_r; split; [reflexivity|split; [reflexivity|split; [apply Forall_nil|intro K; discriminate K]]]).
            exists [LRegFail rid]. split; [reflexivity|]. split; [reflexivity|]. split; [apply one_no_data; exact Logic.I|intros _; now left]. }
          destruct Hx as (l & El & Er & Fl & Hx). exists l. split; [exact El|]. split; [intros y Hy; now rewrite Er in Hy|]. split; [exact Fl|].
          split; [intros [(c' & K & Nc)|K]; [discriminate K|]|intro K; discriminate K]. injection K as ->. now apply Hx. }
      destruct G as (l & El & Er & Fl & Hfail & Hok). rewrite Forall_forall in Fl. rewrite L1 in El. rewrite <- app_assoc in El. rewrite R1 in *.
      eapply reported_keep; [exact H|exact El|intros x Hx; left; auto|]. intros e' rid' p' b' Ho'. cbn [app]. split.
      * intros d' [K|K]; [|destruct (Fl _ K)]. injection K as <- <-. rewrite Ho in Ho'. injection Ho' as <- <- <-. split; [intro K; right; auto|]. intro K. destruct (Hok K); [left; now right|now right].
      * intros t [K|K]; [discriminate K|destruct (Fl _ K)].
    + apply (reported_adds _ _ s); [exact H|]. apply adds_logs; [apply adds_same; reflexivity|apply one_no_data; exact Logic.I].
    + apply (reported_adds _ _ s); [exact H|]. apply adds_logs; [apply adds_same; reflexivity|apply one_no_data; exact Logic.I].
    + destruct (s_delayed s) as [|c cs]; [apply (reported_adds _ _ s); [exact H|apply adds_same; reflexivity]|]. destruct (c_time c <=? t); [|apply (reported_adds _ _ s); [exact H|apply adds_same; reflexivity]].
      destruct (c_what c) as [e|cid].
      2:{ apply (reported_adds _ _ s); [exact H|]. apply adds_logs; [apply adds_same; reflexivity|apply one_no_data; exact Logic.I]. }
      destruct (pit_removeEntry (set_delayed s cs (s_nextSeq s)) e) as [s2 b] eqn:Ep.
      assert (E2 : s_log s2 = s_log s /\ s_regReq s2 = s_regReq s). { unfold pit_removeEntry in Ep. destruct (memn _ _); [injection Ep as <- _; split; reflexivity|]. destruct (del_entry _ _); injection Ep as <- _; split; reflexivity. }
      destruct E2 as [L2 R2]. clear Ep. destruct b; [|apply (reported_adds _ _ s); [exact H|apply adds_same; assumption]]. unfold callTimeout. destruct (e_timeout e); [|apply (reported_adds _ _ s); [exact H|apply adds_same; assumption]].
      destruct (e_owner e) as [|rid p b] eqn:Ho.
      * eapply (reported_keep _ _ _ _ [LTimeout e t]); [exact H|cbn [logs s_log]; now rewrite L2|intros x Hx; cbn [logs s_regReq] in Hx; rewrite R2 in Hx; now left|].
        intros e' rid' p' b' Ho'. split; [intros d [K|[]]; discriminate K|]. intros t' [K|[]]. injection K as <- <-. congruence.
      * eapply (reported_keep _ _ _ _ [LTimeout e t; LRegFail rid]); [exact H|cbn [logs s_log]; rewrite L2, <- app_assoc; reflexivity|intros x Hx; cbn [logs s_regReq] in Hx; rewrite R2 in Hx; now left|].
        intros e' rid' p' b' Ho'. split; [intros d [K|[K|[]]]; discriminate K|]. intros t' [K|[K|[]]]; [|discriminate K]. injection K as <- <-. rewrite Ho in Ho'. injection Ho' as <- <- <-. right. now left.
    + destruct (nth_error (s_queue s) k) as [a|]; [|apply (reported_adds _ _ s); [exact H|apply adds_same; reflexivity]].
      pose proof (adds_helper (set_frames s (FrConn (S k) :: fr)) a now) as A. apply (adds_trans s) in A; [|apply adds_same; reflexivity]. apply (reported_adds _ _ s); [exact H|].
      destruct (snd (expressHelper _ _ _ _ _ a now)); [|exact A]. apply adds_logs; [|apply one_no_data; exact Logic.I]. apply (adds_trans _ _ _ A), adds_same; reflexivity.
  - unfold RecvModel.step. cbn [NodeModel.step]. eapply (reported_keep _ _ _ _ []); [exact H|rewrite app_nil_r; reflexivity| |intros e rid' p b _; split; [intros d []|intros t []]].
    intros x Hx. unfold reg_remove in Hx. cbn [set_regs s_regReq set_filters s_regs] in Hx. destruct (filter _ (s_regs s)); [|now left]. destruct (mem rid (s_regReq s)); [now left|].
    apply in_app_or in Hx. destruct Hx as [Hx|[->|[]]]; [now left|now right].
Qed.
Lemma reported_run async os : reported os (run (init async) os).
Proof.
  induction os as [|o os IH] using rev_ind; [split; [intros rid []|intros e rid p b _; split; [intros d []|intros t []]]|].
  unfold RecvModel.run in *. rewrite fold_left_app. cbn [fold_left]. apply reported_step. exact IH.
Qed.
(** A response or the timeout of a registration is always reported to the application:
    success, or failure, or it was removed. *)
Theorem C88_reported : forall async os e rid p hasOnInterest, e_owner e = Reg rid p hasOnInterest -> let s := run (init async) os in
  (forall d c, In (LData e d) (s_log s) -> status d = Ok c -> c <> 200 -> In (LRegFail rid) (s_log s)) /\
  (forall d, In (LData e d) (s_log s) -> status d = Err ValueError -> In (LRegFail rid) (s_log s)) /\
  (forall d, In (LData e d) (s_log s) -> status d = Ok 200 -> ~ In (ORemoveRegistered rid) os -> In (LRegOk rid) (s_log s)) /\
  (forall t, In (LTimeout e t) (s_log s) -> In (LRegFail rid) (s_log s)).
Proof.
  intros async os e rid p hi Ho s. destruct (proj2 (reported_run async os) e rid p hi Ho) as [Hd Ht]. fold s in Hd, Ht. split; [|split; [|split]].
  - intros d c Hi E Hc. apply (proj1 (Hd d Hi)). left. eauto.
  - intros d Hi E. apply (proj1 (Hd d Hi)). now right.
  - intros d Hi E Hn. destruct (proj2 (Hd d Hi) E) as [K|K]; [exact K|contradiction].
  - exact Ht.
Qed.
End Response.

(** A response whose body has a name component of type 1 that is no digest (32 bytes): the
    decoder raises RuntimeError, not ValueError, and the application gets no callback. *)
Definition bad_body : bytes := tlv 101 (elems [(102, [200]); (103, [79; 75]); (104, elems [(7, elems [(1, [65])])])]).
Definition with_content (c : bytes) : data := Data (d_name ex_data) (d_meta ex_data) (Some c) (d_sig ex_data).
Theorem C88_silent_refuted : exists d, status d = Err RuntimeError /\
  forall sha256 F fmatch rnd (s : state interest data F) now e es fr rid p b, s_frames s = FrData (e :: es) d :: fr -> e_owner e = Reg rid p b ->
  let s' := RecvModel.step sha256 F fmatch rnd s (OContinue now) in s_log s' = s_log s ++ [LData e d] /\ s_filters s' = s_filters s /\ s_regs s' = s_regs s.
Proof.
  exists (with_content bad_body). assert (E : status (with_content bad_body) = Err RuntimeError) by (vm_compute; reflexivity). split; [exact E|].
  generalize dependent (with_content bad_body). intros d E sha256 F fm rnd s now e es fr rid p b Hf Ho s'. subst s'. unfold RecvModel.step. cbn [NodeModel.step]. unfold continue. rewrite Hf. unfold callOnData. rewrite Ho.
  unfold registerOnData. rewrite E. split; [|split]; reflexivity.
Qed.

(** ** Concrete cases *)
Definition ex_opt : options := Options (RegOpt true true) (Some 255).
Definition ex_prefix : name := [c_generic [65]; c_generic [66]].
Definition ex_reg : Z * res interest := registerCommand true true (ex_key 65) ex_prefix ex_opt 99000 100000400 [1; 2; 3; 4; 5; 6; 7; 8] (fun _ => Ok (ex_sig 65)).
Example C88_command_ex : name_ok ex_prefix /\ origin_ok ex_opt /\ zlen (tlv 104 (elems (cp_els (asked ex_prefix ex_opt) no_extra))) < 2 ^ 64 /\ sig_fits (ex_sig 65) /\ locates (ex_sig 65) (ex_key 65) /\ fst ex_reg = 100000 /\
  exists i, snd ex_reg = Ok i /\ firstn 5 (i_name i) = map c_generic [text_localhost; text_nfd; text_rib; text_register; [104; 14; 7; 6; 8; 1; 65; 8; 1; 66; 111; 1; 255; 108; 1; 3]].
Proof.
  split; [unfold name_ok, ex_prefix; repeat (apply Forall_cons; [apply gen_ok; repeat constructor; lia|]); apply Forall_nil|]. split; [unfold origin_ok, u64; cbn; lia|].
  split; [vm_compute; reflexivity|]. pose proof (proj2 C52_ex) as H. inversion H as [|c l [A B] _]. split; [exact A|]. split; [exact B|]. split; [vm_compute; reflexivity|]. eexists. split; [vm_compute; reflexivity|vm_compute; reflexivity].
Qed.
(** Registered, answered with the code 200: success, and the filter is set. *)
Definition ex_run (body : bytes) : state interest data name :=
  let p := registerPrefix (fun _ => repeat 0 32) name ex_fmatch (fun n => n) [] true true (ex_key 65) (fun _ => Ok (ex_sig 65)) (init false, 99000) 1 ex_prefix ex_opt true 0 100000400 [1; 2; 3; 4; 5; 6; 7; 8] [9; 9; 9; 9] in
  let i := match snd ex_reg with Ok i => i | Err _ => ex_params None end in
  fold_left (RecvModel.step (fun _ => repeat 0 32) name ex_fmatch []) [OReceiveData (Data (i_name i) (d_meta ex_data) (Some body) (d_sig ex_data)); OContinue 1] (fst p).
Example C88_run_ex :
  (forall c, In c [200; 403] -> let r := CR (Some c) [79; 75] (Some (asked ex_prefix ex_opt)) in
     exists w, encodeControlResponse r = Ok w /\ In (if c =? 200 then LRegOk 1 else LRegFail 1) (s_log (ex_run w)) /\
       map (fun f => (f_filter f, f_cb f)) (s_filters (ex_run w)) = (if c =? 200 then [(ex_prefix, RegCb 1)] else [])) /\
  (exists e d, In (LData e d) (s_log (ex_run bad_body)) /\ (exists p b, e_owner e = Reg 1 p b)) /\
  ~ In (LRegOk 1) (s_log (ex_run bad_body)) /\ ~ In (LRegFail 1) (s_log (ex_run bad_body)).
Proof.
  split.
  - intros c [<-|[<-|[]]]; cbv zeta; (eexists; split; [vm_compute; reflexivity|]); (split; [|vm_compute; reflexivity]); vm_compute; auto 10.
  - split; [eexists; eexists; split; [vm_compute; right; right; left; reflexivity|eexists; eexists; reflexivity]|].
    split; intro H; vm_compute in H; repeat (destruct H as [H|H]; [discriminate H|]); exact H.
Qed.
Print Assumptions C88_command.
Print Assumptions C88_no_signing_info.
Print Assumptions C88_increasing.
Print Assumptions C88_status.
Print Assumptions C88_response.
Print Assumptions C88_reported.
Print Assumptions C88_silent_refuted.
