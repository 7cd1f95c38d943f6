(** * Proofs about the producer: every history keeps the invariant *)
From Coq Require Import Permutation.
From Verif Require Import Base BaseLemmas NameModel NameSpec NameProofs DictModel DictProofs WireModel WireSpec WireProps BlobModel CalModel CalProps CtlModel CtlSpec EncrModel GmModel GmSpec GmProofs3 ExclModel ExclSpec ProdModel ProdSpec ProdProofs ProdProofs2 ProdProofs3.
Local Open Scope res_scope.

Lemma filter_perm A (f : A -> bool) l l' : Permutation l l' -> zlen (filter f l) = zlen (filter f l').
Proof. intro H. induction H; cbn [filter]; try reflexivity; repeat match goal with |- context[f ?x] => destruct (f x) end; rewrite ?zlen_cons; lia. Qed.

Section Producer.
Variable rsa_enc : bytes -> bytes -> Z -> Z -> rsa_out.
Variable aes_enc : bytes -> bytes -> Z -> bytes -> res bytes.
Variables prefix dataType : name.
Variable maxRepeat : Z.
Hypothesis Hp : name_ok prefix.
Hypothesis Hd : name_ok dataType.
Notation is_node := (is_node prefix dataType).
Notation sealed_packet := (sealed_packet rsa_enc aes_enc prefix dataType).
Notation all_nodes := (all_nodes prefix dataType).
Notation J := (J rsa_enc aes_enc prefix dataType).
Notation encryptContentKey := (encryptContentKey rsa_enc aes_enc prefix dataType).
Notation key_loop := (key_loop rsa_enc aes_enc prefix dataType).
Notation createContentKey := (createContentKey rsa_enc aes_enc prefix dataType).
Notation produce := (produce rsa_enc aes_enc prefix dataType).
Notation handleCoveringKey := (handleCoveringKey rsa_enc aes_enc prefix dataType).
Notation contentKeyName := (contentKeyName prefix dataType).

Lemma J_perm cl l st tok tok' t p : Permutation tok tok' -> J cl l st tok t p -> J cl l st tok' t p.
Proof.
  intros P [A B C D E F G H I K L]. assert (Hin : forall x, In x tok' -> In x tok) by (intros x X; eapply Permutation_in; [apply Permutation_sym, P|exact X]). constructor; try assumption.
  - eapply Permutation_NoDup; eassumption.
  - intros ts n X. apply B, Hin, X.
  - intros ts q Q. destruct (D ts q Q) as (s & S1 & S2 & S3 & S4 & S5 & (ns & N1 & N2 & N3 & N4 & N5)). exists s. rewrite <- (filter_perm _ (at_slot ts) _ _ P). repeat (split; [assumption|]). exists ns. repeat (split; [assumption|]). split; [intros n X Y; apply (N4 n X), Hin, Y|]. intros X n N. destruct (N5 X n N) as [Y|[Y|Y]]; [now left|right; left; eapply Permutation_in; eassumption|right; now right].
Qed.

(** ** What a callback does *)
Definition backs (i : kint) (l : list pevent) (st : list start) (T1 T2 : list (Z * name)) (t : list pact) (p0 p' : prod) (v' : Z) (ok : Prop) : Prop :=
  let a := pr_outs p' in
  pr_db p' = pr_db p0 /\ tracked p' /\ (forall ts m v, name_ok m -> (ts, m) <> token i -> counted p0 ts m v -> counted p' ts m v) /\
  (flat_map expressed a = [] \/ exists i', flat_map expressed a = [i'] /\ i_name i' = i_name i /\ i_ts i' = i_ts i /\ i_call i' = i_call i /\ i_wants i' = i_wants i /\ counted p' (i_ts i) (i_name i) v') /\
  forall cl, (cl = true -> ok /\ quiet a) -> J cl l st (T1 ++ token i :: T2) t p0 -> J cl l st (T1 ++ T2 ++ map (fun i => token i) (flat_map expressed a)) (t ++ a) p'.

Section Back.
Variables (i : kint) (l : list pevent) (st : list start) (T1 T2 : list (Z * name)) (t : list pact) (p0 : prod) (s : start).
Hypothesis Houts : pr_outs p0 = [].
Hypothesis Hs : In s st.
Hypothesis Hts : i_ts i = s_ts s.
Hypothesis Hcall : i_call i = s_call s.
Hypothesis Hwants : i_wants i = s_wants s.
Hypothesis HJ0 : J false l st (T1 ++ token i :: T2) t p0.
Hypothesis Htr : tracked p0.
Variable v0 : Z.
Hypothesis Hct : counted p0 (i_ts i) (i_name i) v0.

Lemma back_live : is_node (i_name i) /\ exists q, dget Z.eqb (pr_reqs p0) (i_ts i) = Some q.
Proof. apply (j_live _ _ _ _ _ _ _ _ _ _ HJ0). apply in_or_app. right. now left. Qed.
Lemma back_closes p' q xs a : dget Z.eqb (pr_reqs p0) (i_ts i) = Some q -> xs = [] /\ failed l s (i_name i) \/ (exists x, xs = [x] /\ sealed_packet l s (i_name i) x) ->
  closes (i_call i) (i_wants i) (i_ts i) q xs p0 p' a -> pr_db p' = pr_db p0 -> pr_infos p' = pr_infos p0 -> pr_outs p' = a -> forall v' ok, backs i l st T1 T2 t p0 p' v' ok.
Proof.
  intros Q Hx Cl Db In_ O v' ok. unfold backs. cbv zeta. rewrite O. destruct (closes_quiet _ _ _ _ _ _ _ _ Cl) as [_ Fx]. rewrite Fx. cbn [map]. rewrite app_nil_r. split; [exact Db|]. split; [eapply closes_tracked; eassumption|]. split; [intros ts m v _ _ C; eapply closes_counted; eassumption|]. split; [now left|].
  intros cl _ HJ. eapply closes_J; [exact HJ|exact Hs|symmetry; exact Hts|exact Q|exact Hx| |exact Db|exact In_]. rewrite <- Hcall, <- Hwants. exact Cl.
Qed.
Lemma back_lost v' (ok : Prop) : ~ ok -> backs i l st T1 T2 t p0 p0 v' ok.
Proof.
  intros Nok. unfold backs. cbv zeta. rewrite Houts. cbn [flat_map map]. split; [reflexivity|]. split; [exact Htr|]. split; [auto|]. split; [now left|]. intros cl Hok HJ. destruct cl; [destruct (Nok (proj1 (Hok eq_refl)))|]. rewrite !app_nil_r. rewrite <- (app_nil_r t). eapply J_lost; [exact HJ|reflexivity|reflexivity|reflexivity|reflexivity].
Qed.
Lemma back_again q v i' ok : dget Z.eqb (pr_reqs p0) (i_ts i) = Some q -> i_name i' = i_name i -> i_ts i' = i_ts i -> i_call i' = i_call i -> i_wants i' = i_wants i ->
  backs i l st T1 T2 t p0 (Prod (pr_db p0) (pr_infos p0) (dset Z.eqb (pr_reqs p0) (i_ts i) (KReq (q_count q) (dset n_equals (q_attempts q) (i_name i) v) (q_keys q))) (pr_outs p0 ++ [PExpress i'])) v ok.
Proof.
  intros Q N1 N2 N3 N4. destruct back_live as [Nn _]. pose proof (node_ok prefix dataType Hp Hd _ Nn) as On. unfold backs. cbv zeta. rewrite Houts. cbn [pr_outs pr_db app flat_map expressed map]. set (p' := Prod _ _ _ _).
  assert (Ch : changed (pr_reqs p0) (i_ts i) (Some (KReq (q_count q) (dset n_equals (q_attempts q) (i_name i) v) (q_keys q))) (pr_reqs p')) by (apply changed_set, (j_uniq _ _ _ _ _ _ _ _ _ _ HJ0)).
  split; [reflexivity|]. split; [eapply again_tracked; eassumption|]. split; [intros ts m v1 Om Nt C; eapply again_counted; [exact Ch| | | | |]; auto; right; split; [|exact C]; destruct (Z.eq_dec ts (i_ts i)) as [-> |X]; [right; intros ->; apply Nt; reflexivity|now left]|]. split; [right; exists i'; repeat (split; [assumption || reflexivity|]); eapply again_counted; [exact Ch| | | | |]; auto|].
  intros cl _ HJ. rewrite N1, N2. eapply J_perm; [|eapply J_again; [exact HJ|exact Q| | |exact Ch| |]; reflexivity].
  apply Permutation_app_head. apply Permutation_cons_append.
Qed.
Lemma nack_ok p' r v' : failed l s (i_name i) -> handleNetworkNack i p0 = (p', r) -> backs i l st T1 T2 t p0 p' v' (r = Ok tt) /\ flat_map expressed (pr_outs p') = [] /\ r = Ok tt.
Proof.
  intro Hf. destruct back_live as [Nn (q & Q)]. unfold handleNetworkNack. unfold pbind, req, pbind, pget, plift, dindex. rewrite Q.
  destruct (update_eq (i_ts i) (i_call i) (i_wants i) p0 q Q (j_uniq _ _ _ _ _ _ _ _ _ _ HJ0)) as (p1 & a & E & D & I & O & Cl). rewrite E. intros [= <- <-]. rewrite Houts in O. split; [eapply back_closes; [exact Q|left; auto|exact Cl|exact D|exact I|exact O]|]. split; [|reflexivity]. rewrite O. apply (closes_quiet _ _ _ _ _ _ _ _ Cl).
Qed.
Lemma timeout_ok p' r : failed l s (i_name i) -> handleTimeout maxRepeat i p0 = (p', r) -> backs i l st T1 T2 t p0 p' (v0 + 1) (r = Ok tt) /\ (if v0 <? maxRepeat then pr_outs p' = [PExpress i] else flat_map expressed (pr_outs p') = []) /\ r = Ok tt.
Proof.
  intro Hf. destruct back_live as [Nn (q & Q)]. pose proof (Hct q Q) as Ev. unfold handleTimeout. unfold pbind at 1, req, pbind at 1, pget, plift, dindex. rewrite Q. unfold pbind at 1. rewrite Ev. destruct (v0 <? maxRepeat).
  - unfold set_req, sendKeyInterest, pemit, put_reqs, pbind, pget. cbn [pr_db pr_infos pr_reqs pr_outs]. intros [= <- <-]. split; [apply back_again; auto|]. cbn [pr_outs]. rewrite Houts. auto.
  - apply nack_ok, Hf.
Qed.
Lemma got_ok n c r p' x : In (i, n, c) (received l) -> slot_ok (s_ts s) -> name_ok n -> handleCoveringKey i n c r p0 = (p', x) -> backs i l st T1 T2 t p0 p' 0 (x = Ok tt).
Proof.
  intros Hr So On. destruct back_live as [Nn (q & Q)]. unfold ProdModel.handleCoveringKey. cbv zeta. unfold pbind at 1, req at 1, pbind at 1, pget at 1, plift at 1, dindex at 1. rewrite Q.
  unfold pbind at 1, plift at 1. destruct (time_at n (-2)) as [b|e] eqn:E1; [|intros [= <- <-]; apply back_lost; discriminate]. unfold pbind at 1, plift at 1. destruct (time_at n (-1)) as [e|e] eqn:E2; [|intros [= <- <-]; apply back_lost; discriminate].
  destruct (time_at_two n b e E1 E2) as (m & cb & ce & En & Tb & Te & Eg). destruct (e <=? i_ts i) eqn:Et.
  - unfold pbind at 1, plift at 1. rewrite Eg. unfold pbind at 1, plift at 1. destruct (excludeBefore (i_excl i) cb) as [ex|y]; [|intros [= <- <-]; apply back_lost; discriminate].
    unfold  set_req, sendKeyInterest, pemit, put_reqs, pbind, pget. cbn [pr_db pr_infos pr_reqs pr_outs]. intros [= <- <-]. apply back_again; auto.
  - pose proof (j_db _ _ _ _ _ _ _ _ _ _ HJ0 s Hs) as Dk. rewrite <- Hts in Dk, So.
    destruct (encrypt_eq rsa_enc aes_enc prefix dataType (Some c) n (i_ts i) (i_call i) (i_wants i) r p0 q (s_key s) So On Q (j_uniq _ _ _ _ _ _ _ _ _ _ HJ0) Dk) as (p1 & a & ok & E & P1 & P2 & P3 & P4).
    unfold pbind at 1. rewrite E. rewrite Houts in P3. destruct P4 as [(-> & X2 & X3)|(-> & kb & y & ch & X2 & X3 & X4 & X5 & X6)].
    + unfold pret. intros [= <- <-]. unfold backs. cbv zeta. rewrite P3, X3. cbn [app flat_map expressed map]. split; [exact P1|]. split; [unfold tracked; rewrite X2; exact Htr|]. split; [intros ts m0 v1 _ _ C; unfold counted; rewrite X2; exact C|]. split; [now left|].
      intros cl Hok HJ. destruct cl; [exfalso; destruct (Hok eq_refl) as [_ Y]; apply (Y (i_call i) 103); now left|]. rewrite app_nil_r. eapply J_lost; [exact HJ|reflexivity|exact X2|exact P1|exact P2].
    + injection X2 as <-. assert (In_ : exists k, dget n_equals (pr_infos p0) (i_name i) = Some k).
      { destruct (start_ok prefix dataType Hp Hd) as (_ & _ & _ & _ & Hn & _). pose proof (node_ok prefix dataType Hp Hd _ Nn) as Oi.
        assert (Dm : dom name_ok (pr_infos p0)). { apply Forall_forall. intros [m0 v] X. apply (in_map fst) in X. cbn [fst] in *. fold (dkeys (pr_infos p0)) in X. rewrite (j_nodes _ _ _ _ _ _ _ _ _ _ HJ0) in X. apply (node_ok prefix dataType Hp Hd), Hn, X. }
        destruct (dget n_equals (pr_infos p0) (i_name i)) as [k|] eqn:X; [eauto|]. exfalso. apply (dget_none _ _ nameq) in X; [|exact Dm|exact Oi]. apply X. rewrite (j_nodes _ _ _ _ _ _ _ _ _ _ HJ0). apply Hn, Nn. }
      destruct In_ as (k0 & Ek). unfold pbind, pget, plift, dindex. rewrite P2, Ek. unfold put_infos. intros [= <- <-].
      assert (Bk : backs i l st T1 T2 t p0 p1 0 True). { eapply back_closes; [exact Q|right|exact X6|exact P1|exact P2|exact P3]. exists y. split; [reflexivity|]. subst n. exists i, m, cb, ce, c, b, e, (m ++ [cb; ce]), ch, r. rewrite <- Hts.
        split; [exact Hr|]. split; [reflexivity|]. split; [exact Tb|]. split; [exact Te|]. split; [lia|]. split; [left; auto|]. split; [exact X3|]. split; [exact X4|exact X5]. }
      destruct Bk as (B1 & B2 & B3 & B4 & B5). unfold backs. cbv zeta. cbn [pr_outs pr_db]. rewrite <- P2. split; [exact B1|]. split; [exact B2|]. split; [exact B3|]. split; [exact B4|]. intros cl Hok HJ. apply (J_keep rsa_enc aes_enc prefix dataType Hp Hd); [apply B5; [intro X; split; [exact I|apply (Hok X)]|exact HJ]|exact Nn|].
      right. exists i, m, cb, ce, c. cbn [k_begin k_end k_bits]. rewrite <- En. auto.
Qed.
End Back.

(** ** What a call does *)
Lemma create_eq ts c w key rs p0 : slot_ok ts -> exists n ch, contentKeyName ts = Ok n /\ iso_comp_of ts = Ok ch /\
  createContentKey ts c w key rs p0 = if in_dec Z.eq_dec (hour_of ts) (map fst (pr_db p0)) then (p0, Ok n) else
    let r := key_loop (pr_infos p0) (excludeAfter [] ch) ts c w rs (Prod (pr_db p0 ++ [(hour_of ts, key)]) (pr_infos p0) (dset Z.eqb (pr_reqs p0) ts (KReq (zlen (pr_infos p0)) [] [])) (pr_outs p0)) in
    (fst r, match snd r with Ok _ => Ok n | Err e => Err e end).
Proof.
  intro So. destruct (iso_slot _ (slot_rounded _ So)) as (c0 & Ec). destruct (iso_slot _ So) as (ch & Eh). exists ((p_namespace prefix dataType) ++ [N_C_KEY] ++ [c0]), ch. assert (E : contentKeyName ts = Ok (p_namespace prefix dataType ++ [N_C_KEY] ++ [c0])) by (unfold ProdModel.contentKeyName; rewrite Ec; reflexivity). split; [exact E|]. split; [exact Eh|].
  unfold ProdModel.createContentKey. unfold pbind at 1, plift at 1. rewrite E. unfold pbind at 1, hasContentKey, pbind at 1, pget at 1, pret at 1. change (hour ts) with (hour_of ts). unfold din.
  pose proof (zget_none _ (pr_db p0) (hour_of ts)) as Hn. destruct (in_dec Z.eq_dec (hour_of ts) (map fst (pr_db p0))) as [I|I].
  - destruct (dget Z.eqb (pr_db p0) (hour_of ts)) as [x|]; [reflexivity|]. destruct (proj1 Hn eq_refl I).
  - apply Hn in I. rewrite I. unfold pbind at 1, addContentKey, pbind at 1, pget at 1. change (hour ts) with (hour_of ts). unfold din. rewrite I. unfold put_db. unfold pbind at 1, pget at 1. unfold pbind at 1, set_req, pbind at 1, pget at 1, put_reqs. cbn [pr_db pr_infos pr_reqs pr_outs]. unfold pbind at 1, plift at 1. rewrite Eh. unfold pbind. cbv zeta. destruct (key_loop _ _ _ _ _ _ _) as [p' [u|e]]; reflexivity.
Qed.
Lemma produce_eq ts c content key iv rs p0 : fst (produce ts c content key iv rs p0) = fst (createContentKey ts c false key rs p0) /\ ((exists x, snd (produce ts c content key iv rs p0) = Ok x) -> exists n, snd (createContentKey ts c false key rs p0) = Ok n).
Proof.
  unfold ProdModel.produce. unfold pbind at 1. unfold pbind at 4. destruct (createContentKey ts c false key rs p0) as [p' [n|e]]; cbn [fst snd]; [|split; [reflexivity|intros [x X]; discriminate X]]. split; [|eauto].
  unfold getContentKey, pbind, pget. destruct (dget Z.eqb (pr_db p') (hour ts)) as [k|]; [|reflexivity]. unfold pret, plift. destruct (iso_comp_of ts); [|reflexivity]. destruct (encryptContent _ _ _ _ _ _ _ _); reflexivity.
Qed.
End Producer.
