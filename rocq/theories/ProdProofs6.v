(** * Proofs about the producer: the filters of the Interests *)
From Verif Require Import Base BaseLemmas NameModel NameSpec NameProofs DictModel DictProofs WireModel WireSpec WireProps BlobModel CalModel CalProps CtlModel CtlSpec MatchSpec MatchProps EncrModel GmModel GmSpec GmProofs3 ExclModel ExclSpec ExclProofs ExclProps ProdModel ProdSpec ProdProofs ProdProofs2 ProdProofs3 ProdProofs4 ProdProofs5.
From Coq Require Import Sorted.
Local Open Scope res_scope.

Lemma getitem_two (m : name) a b : py_getitem (m ++ [a; b]) (-2) = Ok a.
Proof.
  unfold py_getitem. change (-2 <? 0) with true. cbv iota. rewrite zlen_app. change (zlen [a; b]) with 2. pose proof (zlen_nonneg _ m). match goal with |- (if ?x then _ else _) = _ => replace x with true by lia end.
  replace (Z.to_nat (-2 + (zlen m + 2))) with (length m) by (unfold zlen; lia). rewrite nth_error_app2 by lia. rewrite Nat.sub_diag. reflexivity.
Qed.
Lemma ordered_nil : ordered [].
Proof. split; [constructor|]. split; [constructor|exact I]. Qed.
Lemma excluded_nil c : ~ excluded [] c.
Proof. intros [(e & [] & _)|(pre & k & post & E & _)]. destruct pre; discriminate E. Qed.
Lemma iso_regular t c : iso_of t c -> regular c.
Proof. intros (s & E & ->). destruct (iso_ascii t s E) as [B _]. apply gen_regular. apply bytes_okb_ok. exact B. Qed.

Section Producer.
Variable rsa_enc : bytes -> bytes -> Z -> Z -> rsa_out.
Variable aes_enc : bytes -> bytes -> Z -> bytes -> res bytes.
Variables prefix dataType : name.
Variable maxRepeat : Z.
Variable db : dict Z bytes.
Hypothesis Hp : name_ok prefix.
Hypothesis Hd : name_ok dataType.
Notation encryptContentKey := (encryptContentKey rsa_enc aes_enc prefix dataType).
Notation key_loop := (key_loop rsa_enc aes_enc prefix dataType).
Notation handleCoveringKey := (handleCoveringKey rsa_enc aes_enc prefix dataType).
Notation createContentKey := (createContentKey rsa_enc aes_enc prefix dataType).
Notation after := (pafter rsa_enc aes_enc prefix dataType maxRepeat db).
Notation step := (pstep rsa_enc aes_enc prefix dataType maxRepeat).
Notation history := (history rsa_enc aes_enc prefix dataType maxRepeat db).
Notation Inv := (Inv rsa_enc aes_enc prefix dataType maxRepeat db).

(** ** What is expressed *)
Notation sends p p' P := (exists a, pr_outs p' = pr_outs p ++ a /\ Forall P (flat_map expressed a)).
Lemma no_send (P : kint -> Prop) p : sends p p P.
Proof. exists []. rewrite app_nil_r. split; [reflexivity|constructor]. Qed.
Lemma send_trans P p1 p2 p3 : sends p1 p2 P -> sends p2 p3 P -> sends p1 p3 P.
Proof. intros (a & A1 & A2) (b & B1 & B2). exists (a ++ b). rewrite B1, A1, app_assoc, flat_map_app. split; [reflexivity|]. apply Forall_app. auto. Qed.
Lemma update_sends (P : kint -> Prop) ts c w p : sends p (fst (updateKeyRequest ts c w p)) P.
Proof.
  unfold updateKeyRequest, req, set_req, pbind, pget, plift, put_reqs, pemit, pret. destruct (dindex Z.eqb (pr_reqs p) ts) as [q|e]; [|apply no_send]. destruct ((q_count q - 1 =? 0) && w); cbn [fst pr_outs pr_reqs]; [|apply no_send].
  exists [PEncrypted c (q_keys q)]. split; [destruct (din _ _ _); reflexivity|constructor].
Qed.
Lemma encrypt_sends (P : kint -> Prop) key n ts c w r p : sends p (fst (encryptContentKey key n ts c w r p)) P.
Proof.
  unfold ProdModel.encryptContentKey, req at 1. unfold pbind at 1 2, pget at 1, plift at 1. destruct (dindex Z.eqb (pr_reqs p) ts) as [q|e]; [|apply no_send]. unfold pbind at 1, plift at 1. destruct (contentKeyName prefix dataType ts) as [kn|e]; [|apply no_send]. unfold pbind at 1, getContentKey, pbind at 1, pget at 1. destruct (dget Z.eqb (pr_db p) (hour ts)) as [ck|]; [|apply no_send]. unfold pret at 1.
  match goal with |- context[match ?x with Ok _ => _ | Err _ => _ end] => destruct x as [v|e] end.
  - unfold pbind at 1, req, pbind at 1, pget at 1, plift. destruct (dindex Z.eqb (pr_reqs p) ts) as [q1|e]; [|apply no_send]. unfold pbind at 1, set_req, pbind at 1, pget at 1, put_reqs. unfold pbind at 1. match goal with |- context[updateKeyRequest ts c w ?p1] => pose proof (update_sends P ts c w p1) as X; destruct (updateKeyRequest ts c w p1) as [p2 [u|e]]; exact X end.
  - exists [PError c 103]. split; [reflexivity|constructor].
Qed.
Lemma loop_sends ex ts c w rs : forall L p, sends p (fst (key_loop L ex ts c w rs p)) (fun i => i_excl i = ex).
Proof.
  induction L as [|[n k] L IH]; intro p; [apply no_send|]. cbn [ProdModel.key_loop]. unfold pbind at 1.
  match goal with |- context[(if ?b then ?x else ?y) p] => assert (X : sends p (fst ((if b then x else y) p)) (fun i => i_excl i = ex)); [|destruct ((if b then x else y) p) as [p1 [u|e]]; [|exact X]] end.
  - destruct ((ts <? k_begin k) || (k_end k <=? ts)).
    + unfold req, set_req, sendKeyInterest, pbind, pget, plift, put_reqs, pemit. destruct (dindex Z.eqb (pr_reqs p) ts) as [q|e]; [|apply no_send]. eexists. split; [reflexivity|]. constructor; [reflexivity|constructor].
    + unfold pbind at 1, plift at 1. destruct (iso_comp_of (k_begin k)) as [cb|e]; [|apply no_send]. unfold pbind at 1, plift at 1. destruct (iso_comp_of (k_end k)) as [ce|e]; [|apply no_send]. unfold pbind. pose proof (encrypt_sends (fun i => i_excl i = ex) (k_bits k) (n ++ [cb] ++ [ce]) ts c w (rs n) p) as X. destruct (encryptContentKey _ _ _ _ _ _ p) as [p1 [b|e]]; exact X.
  - eapply send_trans; [exact X|apply IH].
Qed.
Lemma got_sends i n c r p : sends p (fst (handleCoveringKey i n c r p)) (fun j => exists cb ex, py_getitem n (-2) = Ok cb /\ excludeBefore (i_excl i) cb = Ok ex /\ j = KInt (i_name i) ex (i_ts i) (i_call i) (i_wants i)).
Proof.
  unfold ProdModel.handleCoveringKey. cbv zeta. unfold pbind at 1, req at 1, pbind at 1, pget at 1, plift at 1. destruct (dindex Z.eqb (pr_reqs p) (i_ts i)) as [q|e]; [|apply no_send]. unfold pbind at 1, plift at 1. destruct (time_at n (-2)) as [b|e]; [|apply no_send]. unfold pbind at 1, plift at 1. destruct (time_at n (-1)) as [e|e]; [|apply no_send].
  destruct (e <=? i_ts i).
  - unfold pbind at 1, plift at 1. destruct (py_getitem n (-2)) as [cb|x] eqn:E1; [|apply no_send]. unfold pbind at 1, plift at 1. destruct (excludeBefore (i_excl i) cb) as [ex|x] eqn:E2; [|apply no_send].
    unfold set_req, sendKeyInterest, pbind, pget, put_reqs, pemit. eexists. split; [reflexivity|]. constructor; [eauto 10|constructor].
  - unfold pbind at 1. match goal with |- context[encryptContentKey ?a ?b ?c ?d ?e ?f p] => match goal with |- sends p _ ?P => pose proof (encrypt_sends P a b c d e f p) as X end end. destruct (encryptContentKey _ _ _ _ _ _ p) as [p1 [ok|x]]; [|exact X]. destruct ok; [|exact X]. unfold pbind, pget, plift, put_infos. destruct (dindex n_equals (pr_infos p1) (i_name i)); exact X.
Qed.
Lemma nack_sends P i p : sends p (fst (handleNetworkNack i p)) P.
Proof. unfold handleNetworkNack. unfold pbind, req, pbind, pget, plift. destruct (dindex Z.eqb (pr_reqs p) (i_ts i)); [apply update_sends|apply no_send]. Qed.
Lemma timeout_sends i p : sends p (fst (handleTimeout maxRepeat i p)) (fun j => j = i).
Proof.
  unfold handleTimeout. unfold pbind at 1, req, pbind at 1, pget, plift. destruct (dindex Z.eqb (pr_reqs p) (i_ts i)) as [q|e]; [|apply no_send]. unfold pbind at 1. destruct (dindex n_equals (q_attempts q) (i_name i)) as [a|e]; [|apply no_send]. destruct (a <? maxRepeat); [|apply nack_sends].
  unfold set_req, sendKeyInterest, pbind, pget, put_reqs, pemit. eexists. split; [reflexivity|]. constructor; [reflexivity|constructor].
Qed.
Lemma sends_begin p p' P : sends (pbegin p) p' P -> forall i, In i (flat_map expressed (pr_outs p')) -> P i.
Proof. intros (a & A & F) i I. cbn [pbegin pr_outs app] in A. rewrite A in I. rewrite Forall_forall in F. apply F, I. Qed.

(** ** The invariant *)
Record Filt (l : list pevent) (o : list kint) : Prop := {
  f_past : forall i n c, In (i, n, c) (received l) -> exists s, In s (starts db l) /\ i_call i = s_call s;
  f_ok : forall i, In i o -> ordered (i_excl i) /\ exists ch, iso_of (i_ts i) ch /\ forall c, regular c -> (excluded (i_excl i) c <-> le_k ch c \/ seen_from l i c)
}.
Lemma starts_more l e s : In s (starts db l) -> In s (starts db (l ++ [e])).
Proof. intro I. destruct (asks_cases e) as [E|(s0 & E)]; [rewrite starts_same by exact E; exact I|]. rewrite (starts_snoc db l e s0 E). apply in_or_app. now left. Qed.
Lemma filt_call l o t e s : Filt l o -> Inv l o t -> asks e = [s] -> Inv (l ++ [e]) (o ++ flat_map expressed (pr_outs (fst (step (after l) e)))) (t ++ pr_outs (fst (step (after l) e))) -> slot_ok (s_ts s) -> distinct_calls (l ++ [e]) ->
  (exists rs, fst (step (after l) e) = fst (createContentKey (s_ts s) (s_call s) (s_wants s) (s_key s) rs (pbegin (after l)))) -> Filt (l ++ [e]) (o ++ flat_map expressed (pr_outs (fst (step (after l) e)))).
Proof.
  intros [FP FO] V As V' So Dc (rs & E1). assert (Er : received (l ++ [e]) = received l). { rewrite received_app. destruct e; try discriminate As; apply app_nil_r. }
  constructor; rewrite ?Er.
  - intros i n c I. destruct (FP i n c I) as (s0 & A & B). exists s0. split; [now apply starts_more|exact B].
  - unfold seen_from. rewrite Er. intros i Ii. apply in_app_or in Ii. destruct Ii as [Ii|Ii]; [apply FO, Ii|].
    destruct (create_eq rsa_enc aes_enc prefix dataType (s_ts s) (s_call s) (s_wants s) (s_key s) rs (pbegin (after l)) So) as (n & ch & _ & Ei & Ec).
    destruct (v_own _ _ _ _ _ _ _ _ _ V' i ltac:(apply in_or_app; now right)) as (s1 & S1 & S2 & S3 & _).
    rewrite E1, Ec in Ii. destruct (in_dec _ _ _) as [Ih|Ih]; [destruct Ii|]. cbv zeta in Ii. cbn [fst] in Ii. set (p1 := Prod _ _ _ _) in Ii.
    match type of Ii with context[key_loop ?a ?b ?c ?d ?e ?f ?g] => pose proof (loop_sends b c d e f a g) as X end. destruct X as (a & A1 & A2). change (pr_outs p1) with (@nil pact) in A1. cbn [app] in A1. rewrite A1 in Ii. rewrite Forall_forall in A2. pose proof (A2 i Ii) as Ex. cbv beta in Ex.
    assert (Ss : i_ts i = s_ts s /\ i_call i = s_call s).
    { destruct (in_dec Z.eq_dec (hour_of (s_ts s)) (map fst db ++ map (fun s => hour_of (s_ts s)) (starts db l))) as [Jh|Jh]; [exfalso; apply Ih; cbn [pbegin pr_db]; rewrite (v_db _ _ _ _ _ _ _ _ _ V), map_app, map_map; exact Jh|].
      rewrite (starts_snoc db l e s As) in S1. destruct (in_dec _ _ _) as [Kh|_]; [contradiction|].
      assert (Lp : forall L p, sends p (fst (key_loop L (excludeAfter [] ch) (s_ts s) (s_call s) (s_wants s) rs p)) (fun j => i_ts j = s_ts s /\ i_call j = s_call s)).
      { clear. induction L as [|[n0 k0] L IH]; intro p; [apply no_send|]. cbn [ProdModel.key_loop]. unfold pbind at 1.
        match goal with |- context[(if ?b then ?x else ?y) p] => assert (X : sends p (fst ((if b then x else y) p)) (fun j => i_ts j = s_ts s /\ i_call j = s_call s)); [|destruct ((if b then x else y) p) as [p1 [u|e]]; [|exact X]] end.
        - destruct ((s_ts s <? k_begin k0) || (k_end k0 <=? s_ts s)).
          + unfold req, set_req, sendKeyInterest, pbind, pget, plift, put_reqs, pemit. destruct (dindex Z.eqb (pr_reqs p) (s_ts s)) as [q|e]; [|apply no_send]. eexists. split; [reflexivity|]. constructor; [split; reflexivity|constructor].
          + unfold pbind at 1, plift at 1. destruct (iso_comp_of (k_begin k0)) as [cb|e]; [|apply no_send]. unfold pbind at 1, plift at 1. destruct (iso_comp_of (k_end k0)) as [ce|e]; [|apply no_send]. unfold pbind. match goal with |- sends p _ ?P => pose proof (encrypt_sends P (k_bits k0) (n0 ++ [cb] ++ [ce]) (s_ts s) (s_call s) (s_wants s) (rs n0) p) as X end. destruct (encryptContentKey _ _ _ _ _ _ p) as [p1 [b|e]]; exact X.
        - eapply send_trans; [exact X|apply IH]. }
      match type of A1 with context[key_loop ?a ?b ?c ?d ?e ?f ?g] => pose proof (Lp a g) as X end. destruct X as (a' & A1' & A2'). change (pr_outs p1) with (@nil pact) in A1'. cbn [app] in A1'. rewrite A1' in A1. subst a'. rewrite Forall_forall in A2'. apply (A2' i Ii). }
    destruct Ss as [Ts Cs]. destruct (iso_comp_ok _ _ Ei) as [Io _]. destruct (C81_after [] ch ordered_nil (iso_regular _ _ Io)) as [O H]. rewrite Ex, Ts. split; [exact O|]. exists ch. split; [exact Io|]. intros c Rc. destruct (H c Rc) as (b & Eb & Hb).
    rewrite <- (C14_matches _ c b (proj1 Rc) (ordered_valid _ O) Eb), Hb. split; [intros [X|X]; [destruct (excluded_nil c X)|now left]|]. intros [X|(i' & m & cb & ce & k & I' & C' & _)]; [now right|]. exfalso.
    destruct (FP _ _ _ I') as (s0 & T1 & T2). apply creating_in in T1. unfold distinct_calls in Dc. rewrite flat_map_app, map_app in Dc. cbn [flat_map] in Dc. rewrite As in Dc. cbn [app map] in Dc. apply NoDup_remove_2 in Dc. apply Dc. rewrite app_nil_r. replace (s_call s) with (s_call s0) by congruence. now apply in_map.
Qed.
Lemma filt_back l o1 i o2 t e : Filt l (o1 ++ i :: o2) -> Inv l (o1 ++ i :: o2) t -> (exists n c r, e = GotKey i n c r) \/ e = TimedOut i \/ e = Nacked i -> matching (l ++ [e]) ->
  Filt (l ++ [e]) (o1 ++ o2 ++ flat_map expressed (pr_outs (fst (step (after l) e)))).
Proof.
  intros [FP FO] V He M. assert (As : asks e = []) by (destruct He as [(n & c & r & ->)|[-> | ->]]; reflexivity). assert (Ii : In i (o1 ++ i :: o2)) by (apply in_or_app; right; now left). destruct (v_own _ _ _ _ _ _ _ _ _ V i Ii) as (s & Is & O1 & O2 & _). pose proof (v_J _ _ _ _ _ _ _ _ _ V false ltac:(discriminate)) as HJ.
  assert (Er : forall i' n c, In (i', n, c) (received (l ++ [e])) <-> In (i', n, c) (received l) \/ exists r, e = GotKey i n c r /\ i' = i).
  { intros i' n c. rewrite received_app, in_app_iff. destruct He as [(n0 & c0 & r0 & ->)|[-> | ->]]; cbn [received flat_map app In].
    - split; (intros [X|X]; [now left|right]); [destruct X as [X|[]]; injection X as <- <- <-; eauto|]. destruct X as (r & X1 & X2). left. congruence.
    - split; (intros [X|X]; [now left|]); [destruct X|]. destruct X as (r & X & _). discriminate X.
    - split; (intros [X|X]; [now left|]); [destruct X|]. destruct X as (r & X & _). discriminate X. }
  constructor.
  - intros i' n c I. rewrite (starts_same db l e As). apply Er in I. destruct I as [I|(r & _ & ->)]; [eapply FP, I|]. exists s. auto.
  - intros j Ij. rewrite app_assoc in Ij. apply in_app_or in Ij. destruct Ij as [Ij|Ij].
    + assert (Ij' : In j (o1 ++ i :: o2)) by now apply in_cut. destruct (FO j Ij') as (O & ch & Io & H). split; [exact O|]. exists ch. split; [exact Io|]. intros c Rc. rewrite (H c Rc). split; (intros [X|X]; [now left|right]).
      * destruct X as (i' & m & cb & ce & k & I' & R). exists i', m, cb, ce, k. split; [apply Er; now left|exact R].
      * destruct X as (i' & m & cb & ce & k & I' & C' & N' & R). apply Er in I'. destruct I' as [I'|(r & _ & ->)]; [exists i', m, cb, ce, k; auto|]. exfalso.
        destruct (v_own _ _ _ _ _ _ _ _ _ V j Ij') as (s' & S1 & S2 & S3 & _). assert (s' = s) by (eapply (J_callq _ _ _ _ false); [exact HJ| | |]; [assumption|assumption|congruence]). subst s'.
        pose proof (j_tok _ _ _ _ _ _ _ _ _ _ HJ) as Nt. rewrite map_app in Nt. cbn [map] in Nt. apply NoDup_remove_2 in Nt. apply Nt. rewrite <- map_app. apply in_map_iff. exists j. split; [congruence|exact Ij].
    + destruct (FO i Ii) as (O & ch & Io & H). unfold pstep, pact_of in Ij. destruct He as [(n & c & r & ->)|[-> | ->]].
      * match type of Ij with context[panswer ?f ?m ?p] => destruct (panswer_fst _ f m p) as [Ep _]; rewrite Ep in Ij end. pose proof (sends_begin _ _ _ (got_sends i n c r (pbegin (after l))) j Ij) as (cb & ex & G1 & G2 & ->). cbn [i_excl i_ts i_call i_name].
        destruct (M i n c r ltac:(apply in_or_app; right; now left)) as (m & cb' & ce & -> & Rc & Ne & Nx). rewrite getitem_two in G1. injection G1 as <-. destruct (C81_before (i_excl i) cb' O Rc Ne Nx) as (ex' & E' & O' & H'). rewrite E' in G2. injection G2 as <-. split; [exact O'|]. exists ch. split; [exact Io|].
        intros x Rx. destruct (H' x Rx) as (b & Eb & Hb). rewrite <- (C14_matches _ x b (proj1 Rx) (ordered_valid _ O') Eb), Hb, (H x Rx). split.
        -- intros [[X|X]|X]; [now left| |].
           ++ right. destruct X as (i' & m' & cb & ce' & k & I' & R). exists i', m', cb, ce', k. split; [apply Er; now left|exact R].
           ++ right. exists i, m, cb', ce, c. split; [apply Er; right; eauto|]. auto.
        -- intros [X|(i' & m' & cb & ce' & k & I' & C' & N' & R)]; [left; now left|]. apply Er in I'. destruct I' as [I'|(r' & X & ->)]; [left; right; exists i', m', cb, ce', k; auto|]. right. injection X as E _ _. replace [cb'; ce] with ([cb'] ++ [ce]) in E by reflexivity. replace [cb; ce'] with ([cb] ++ [ce']) in E by reflexivity. rewrite !app_assoc in E. apply app_inj_tail in E. destruct E as [E _]. apply app_inj_tail in E. destruct E as [_ ->]. exact R.
      * match type of Ij with context[panswer ?f ?m ?p] => destruct (panswer_fst _ f m p) as [Ep _]; rewrite Ep in Ij end. pose proof (sends_begin _ _ _ (timeout_sends i (pbegin (after l))) j Ij) as ->. split; [exact O|]. exists ch. split; [exact Io|]. intros c Rc. rewrite (H c Rc). unfold seen_from. rewrite received_app. cbn [received flat_map]. rewrite app_nil_r. reflexivity.
      * match type of Ij with context[panswer ?f ?m ?p] => destruct (panswer_fst _ f m p) as [Ep _]; rewrite Ep in Ij end. destruct (sends_begin _ _ _ (nack_sends (fun _ => False) i (pbegin (after l))) j Ij).
Qed.
Lemma history_filt : forall l o t, history l o t -> Forall pevent_ok l -> distinct_calls l -> matching l -> Filt l o.
Proof.
  intros l o t H. induction H as [|l o t e H IH As a|l o1 i o2 t e H IH He a]; intros Oks Dc M.
  - constructor; [intros i n c []|intros i []].
  - pose proof (history_inv rsa_enc aes_enc prefix dataType maxRepeat db Hp Hd _ _ _ (H_call _ _ _ _ _ _ _ _ _ e H As) Oks Dc) as V'. apply Forall_app in Oks. destruct Oks as [Oks Oe]. inversion Oe as [|? ? Oe1 _]; subst. specialize (IH Oks (distinct_cut _ _ Dc) ltac:(intros i n c r X; apply (M i n c r), in_or_app; now left)).
    pose proof (history_inv rsa_enc aes_enc prefix dataType maxRepeat db Hp Hd _ _ _ H Oks (distinct_cut _ _ Dc)) as V.
    destruct e; try (destruct As; reflexivity).
    + eapply filt_call; [exact IH|exact V|reflexivity|exact V'|exact Oe1|exact Dc|]. exists rs. unfold pstep, pact_of. apply panswer_fst.
    + eapply filt_call; [exact IH|exact V|reflexivity|exact V'|exact Oe1|exact Dc|]. exists rs. unfold pstep, pact_of. match goal with |- context[panswer ?f ?m ?p] => destruct (panswer_fst _ f m p) as [X1 _] end. rewrite X1. apply produce_eq.
  - apply Forall_app in Oks. destruct Oks as [Oks _]. specialize (IH Oks (distinct_cut _ _ Dc) ltac:(intros j n c r X; apply (M j n c r), in_or_app; now left)). eapply filt_back; [exact IH|eapply history_inv; eauto using distinct_cut|exact He|exact M].
Qed.
End Producer.
