(** * Proofs about the producer: every history keeps the invariant *)
From Verif Require Import Base BaseLemmas NameModel NameSpec NameProofs DictModel DictProofs WireModel WireSpec WireProps BlobModel CalModel CalProps CtlModel CtlSpec EncrModel GmModel GmSpec GmProofs3 ExclModel ExclSpec ProdModel ProdSpec ProdProofs ProdProofs2.
Local Open Scope res_scope.

Notation token i := (i_ts i, i_name i).
(** No onError *)
Definition quiet (a : list pact) : Prop := forall c n, ~ In (PError c n) a.
Lemma quiet_app a b : quiet (a ++ b) <-> quiet a /\ quiet b.
Proof. unfold quiet. split; [intro H; split; intros c n X; apply (H c n), in_or_app; auto|intros [A B] c n X; apply in_app_or in X; destruct X as [X|X]; [apply (A c n X)|apply (B c n X)]]. Qed.

Lemma creating_snoc : forall l hs s, creating hs (l ++ [s]) = creating hs l ++ (if in_dec Z.eq_dec (hour_of (s_ts s)) (hs ++ map (fun s => hour_of (s_ts s)) (creating hs l)) then [] else [s]).
Proof.
  induction l as [|x l IH]; intros hs s; cbn [app creating map].
  - rewrite app_nil_r. destruct (in_dec _ _ _); reflexivity.
  - destruct (in_dec Z.eq_dec (hour_of (s_ts x)) hs) as [I|I]; [apply IH|]. cbn [app map]. f_equal. rewrite IH. rewrite <- app_assoc. reflexivity.
Qed.
Lemma creating_in : forall l hs s, In s (creating hs l) -> In s l.
Proof. induction l as [|x l IH]; intros hs s; cbn [creating]; [auto|]. destruct (in_dec _ _ _); [intro H; right; eapply IH, H|]. intros [<-|H]; [now left|right; eapply IH, H]. Qed.
Lemma asks_cases e : asks e = [] \/ exists s, asks e = [s].
Proof. destruct e; cbn; eauto. Qed.

Section Producer.
Variable rsa_enc : bytes -> bytes -> Z -> Z -> rsa_out.
Variable aes_enc : bytes -> bytes -> Z -> bytes -> res bytes.
Variables prefix dataType : name.
Variable maxRepeat : Z.
Hypothesis Hp : name_ok prefix.
Hypothesis Hd : name_ok dataType.
Notation is_node := (is_node prefix dataType).
Notation sealed_packet := (sealed_packet rsa_enc aes_enc prefix dataType).
Notation all_nodes := (all_nodes prefix dataType).
Notation J := (J rsa_enc aes_enc prefix dataType).
Notation encryptContentKey := (encryptContentKey rsa_enc aes_enc prefix dataType).
Notation key_loop := (key_loop rsa_enc aes_enc prefix dataType).

(** ** Methods *)
Definition closes (c : Z) (w : bool) (ts : Z) (q : kreq) (xs : list cpkt) (p p' : prod) (a : list pact) : Prop :=
  if (q_count q - 1 =? 0) && w then changed (pr_reqs p) ts None (pr_reqs p') /\ a = [PEncrypted c (q_keys q ++ xs)]
  else (exists q', q_count q' = q_count q - 1 /\ q_keys q' = q_keys q ++ xs /\ q_attempts q' = q_attempts q /\ changed (pr_reqs p) ts (Some q') (pr_reqs p')) /\ a = [].
Lemma update_eq ts c w p q : dget Z.eqb (pr_reqs p) ts = Some q -> uniq (pr_reqs p) ->
  exists p' a, updateKeyRequest ts c w p = (p', Ok tt) /\ pr_db p' = pr_db p /\ pr_infos p' = pr_infos p /\ pr_outs p' = pr_outs p ++ a /\ closes c w ts q [] p p' a.
Proof.
  intros Q U. unfold updateKeyRequest, closes. unfold pbind at 1, req, pbind at 1, pget at 1, plift, dindex. rewrite Q. unfold pbind at 1, set_req, pbind at 1, pget at 1, put_reqs at 1.
  set (q' := KReq (q_count q - 1) (q_attempts q) (q_keys q)). destruct ((q_count q - 1 =? 0) && w) eqn:E.
  - unfold pbind at 1, pemit. unfold pbind at 1, pget at 1. cbn [pr_reqs]. unfold din. rewrite zset_get, Z.eqb_refl. unfold put_reqs. cbn [pr_db pr_infos pr_reqs pr_outs]. eexists. eexists. split; [reflexivity|]. cbn [pr_db pr_infos pr_reqs pr_outs]. split; [reflexivity|]. split; [reflexivity|]. split; [reflexivity|]. rewrite app_nil_r. split; [|reflexivity].
    eapply changed_again; [apply changed_set; exact U|]. apply changed_rem. now apply zset_uniq.
  - unfold pret. cbn [pr_db pr_infos pr_reqs pr_outs]. eexists. exists []. split; [reflexivity|]. cbn [pr_db pr_infos pr_reqs pr_outs]. rewrite !app_nil_r. split; [reflexivity|]. split; [reflexivity|]. split; [reflexivity|]. split; [|reflexivity]. exists q'. split; [reflexivity|]. split; [reflexivity|]. split; [reflexivity|]. now apply changed_set.
Qed.

Lemma encrypt_eq key ekn ts c w r p q k : slot_ok ts -> name_ok ekn -> dget Z.eqb (pr_reqs p) ts = Some q -> uniq (pr_reqs p) -> dget Z.eqb (pr_db p) (hour_of ts) = Some k ->
  exists p' a b, encryptContentKey key ekn ts c w r p = (p', Ok b) /\ pr_db p' = pr_db p /\ pr_infos p' = pr_infos p /\ pr_outs p' = pr_outs p ++ a /\
  (b = false /\ pr_reqs p' = pr_reqs p /\ a = [PError c 103] \/
   b = true /\ exists kb x ch, key = Some kb /\ iso_of (hour_of ts * 3600000) ch /\ ck_name x = (prefix ++ [c_generic [83; 65; 77; 80; 76; 69]] ++ dataType) ++ [c_generic [67; 45; 75; 69; 89]; ch; c_generic [70; 79; 82]] ++ ekn /\
     sealed_for rsa_enc aes_enc kb ekn 3 r k (ck_content x) /\ closes c w ts q [x] p p' a).
Proof.
  intros So Ne Q U Dk. unfold ProdModel.encryptContentKey. unfold pbind at 1, req at 1, pbind at 1, pget at 1, plift at 1, dindex at 1. rewrite Q. destruct (iso_slot _ (slot_rounded _ So)) as (ch & Ec). unfold pbind at 1, plift at 1, contentKeyName. rewrite Ec. cbn [rbind].
  unfold pbind at 1, getContentKey, pbind at 1, pget at 1. change (hour ts) with (hour_of ts). rewrite Dk. unfold pret at 1. destruct key as [kb|].
  - pose proof (encrypt_ok rsa_enc aes_enc k ekn kb 3 r Ne (or_intror eq_refl)) as En. change ALG_RSA_OAEP with 3. destruct (encryptContent rsa_enc aes_enc k ekn kb 3 None r) as [v|e].
    + unfold pbind at 1, req at 1, pbind at 1, pget at 1, plift at 1, dindex at 1. rewrite Q. unfold pbind at 1, set_req, pbind at 1, pget at 1, put_reqs at 1. set (x := CPkt _ v). set (q1 := KReq (q_count q) (q_attempts q) (q_keys q ++ [x])). set (p1 := Prod _ _ _ _).
      assert (Q1 : dget Z.eqb (pr_reqs p1) ts = Some q1) by (cbn [p1 pr_reqs]; rewrite zset_get, Z.eqb_refl; reflexivity). assert (U1 : uniq (pr_reqs p1)) by (cbn [p1 pr_reqs]; now apply zset_uniq).
      destruct (update_eq ts c w p1 q1 Q1 U1) as (p' & a & E & D & I & O & Cl). unfold pbind. rewrite E. unfold pret. exists p', a, true. split; [reflexivity|]. split; [exact D|]. split; [exact I|]. split; [exact O|]. right. split; [reflexivity|]. exists kb, x, ch. split; [reflexivity|].
      split; [apply (proj1 (iso_comp_ok _ _ Ec))|]. split; [unfold x; cbn [ck_name]; unfold encryptedName, p_namespace; rewrite <- !app_assoc; reflexivity|]. split; [exact En|].
      unfold closes in *. cbn [q1 q_count q_keys q_attempts] in Cl. rewrite app_nil_r in Cl. assert (Cs : changed (pr_reqs p) ts (Some q1) (pr_reqs p1)) by (apply changed_set; exact U). destruct ((q_count q - 1 =? 0) && w).
      * destruct Cl as [C1 C2]. split; [eapply changed_again; eassumption|exact C2].
      * destruct Cl as [(q' & C1 & C2 & C3 & C4) C5]. split; [|exact C5]. exists q'. repeat (split; [assumption|]). eapply changed_again; eassumption.
    + unfold pbind, pemit, pret. eexists. exists [PError c 103], false. split; [reflexivity|]. cbn [pr_db pr_infos pr_reqs pr_outs]. split; [reflexivity|]. split; [reflexivity|]. split; [reflexivity|]. left. auto.
  - unfold pbind, pemit, pret. eexists. exists [PError c 103], false. split; [reflexivity|]. cbn [pr_db pr_infos pr_reqs pr_outs]. split; [reflexivity|]. split; [reflexivity|]. split; [reflexivity|]. left. auto.
Qed.

(** ** Attempts *)
Definition tracked (p : prod) : Prop := forall ts q, dget Z.eqb (pr_reqs p) ts = Some q -> dom name_ok (q_attempts q).
(** if the request is there, it has the attempt count [v] for the name *)
Definition counted (p : prod) (ts : Z) (n : name) (v : Z) : Prop := forall q, dget Z.eqb (pr_reqs p) ts = Some q -> dget n_equals (q_attempts q) n = Some v.
Lemma closes_tracked c w ts q xs p p' a : closes c w ts q xs p p' a -> dget Z.eqb (pr_reqs p) ts = Some q -> tracked p -> tracked p'.
Proof.
  intros Cl Q Tr ts' q' Q'. unfold closes in Cl. destruct ((q_count q - 1 =? 0) && w).
  - destruct Cl as [[_ H] _]. rewrite H in Q'. destruct (ts =? ts'); [discriminate|]. eapply Tr, Q'.
  - destruct Cl as [(q1 & _ & _ & C3 & [_ H]) _]. rewrite H in Q'. destruct (ts =? ts'); [|eapply Tr, Q']. injection Q' as <-. rewrite C3. eapply Tr, Q.
Qed.
Lemma closes_counted c w ts q xs p p' a ts' n v : closes c w ts q xs p p' a -> dget Z.eqb (pr_reqs p) ts = Some q -> counted p ts' n v -> counted p' ts' n v.
Proof.
  intros Cl Q Tr q' Q'. unfold closes in Cl. destruct ((q_count q - 1 =? 0) && w).
  - destruct Cl as [[_ H] _]. rewrite H in Q'. destruct (ts =? ts'); [discriminate|]. apply Tr, Q'.
  - destruct Cl as [(q1 & _ & _ & C3 & [_ H]) _]. rewrite H in Q'. destruct (ts =? ts') eqn:E; [|apply Tr, Q']. injection Q' as <-. rewrite C3. apply Z.eqb_eq in E. subst ts'. apply Tr, Q.
Qed.
Lemma again_tracked ts q n v p p' : changed (pr_reqs p) ts (Some (KReq (q_count q) (dset n_equals (q_attempts q) n v) (q_keys q))) (pr_reqs p') -> name_ok n -> dget Z.eqb (pr_reqs p) ts = Some q -> tracked p -> tracked p'.
Proof. intros [_ H] On Q Tr ts' q' Q'. rewrite H in Q'. destruct (ts =? ts'); [|eapply Tr, Q']. injection Q' as <-. cbn [q_attempts]. apply dset_dom; [eapply Tr, Q|exact On]. Qed.
Lemma again_counted ts q n v p p' ts' m v' : changed (pr_reqs p) ts (Some (KReq (q_count q) (dset n_equals (q_attempts q) n v) (q_keys q))) (pr_reqs p') -> name_ok n -> name_ok m -> dget Z.eqb (pr_reqs p) ts = Some q -> tracked p ->
  (ts' = ts /\ m = n /\ v' = v \/ (ts' <> ts \/ m <> n) /\ counted p ts' m v') -> counted p' ts' m v'.
Proof.
  intros [_ H] On Om Q Tr C q' Q'. rewrite H in Q'. destruct (ts =? ts') eqn:E.
  - apply Z.eqb_eq in E. subst ts'. injection Q' as <-. cbn [q_attempts]. rewrite (dset_get _ _ nameq) by (try assumption; eapply Tr, Q). destruct (eqb_case _ _ nameq n m On Om) as [[<- Eq]|[Ne Eq]]; rewrite Eq; [destruct C as [(_ & _ & ->)|[[X|X] _]]; [reflexivity|destruct (X eq_refl)|destruct (X eq_refl)]|]. destruct C as [(_ & C & _)|[_ C]]; [congruence|]. apply C, Q.
  - destruct C as [(C & _)|[_ C]]; [apply Z.eqb_neq in E; congruence|]. apply C, Q'.
Qed.
Definition elsewhere (ts : Z) (p p' : prod) : Prop := forall ts', ts' <> ts -> dget Z.eqb (pr_reqs p') ts' = dget Z.eqb (pr_reqs p) ts'.
Lemma changed_elsewhere ts o p p' : changed (pr_reqs p) ts o (pr_reqs p') -> elsewhere ts p p'.
Proof. intros [_ H] ts' N. rewrite H. destruct (ts =? ts') eqn:E; [apply Z.eqb_eq in E; congruence|reflexivity]. Qed.
Lemma closes_elsewhere c w ts q xs p p' a : closes c w ts q xs p p' a -> elsewhere ts p p'.
Proof. unfold closes. destruct ((q_count q - 1 =? 0) && w); [intros [H _]|intros [(q' & _ & _ & _ & H) _]]; eapply changed_elsewhere, H. Qed.
Lemma closes_quiet c w ts q xs p p' a : closes c w ts q xs p p' a -> quiet a /\ flat_map expressed a = [].
Proof. unfold closes, quiet. destruct ((q_count q - 1 =? 0) && w); [intros [_ ->]|intros [_ ->]]; (split; [intros c0 n X; cbn in X; try destruct X as [X|X]; try discriminate X; try destruct X|reflexivity]). Qed.
Lemma closes_J cl l st tok1 ts n tok2 t p p' q xs s a : J cl l st (tok1 ++ (ts, n) :: tok2) t p -> In s st -> s_ts s = ts -> dget Z.eqb (pr_reqs p) ts = Some q ->
  xs = [] /\ failed l s n \/ (exists x, xs = [x] /\ sealed_packet l s n x) -> closes (s_call s) (s_wants s) ts q xs p p' a -> pr_db p' = pr_db p -> pr_infos p' = pr_infos p -> J cl l st (tok1 ++ tok2) (t ++ a) p'.
Proof.
  intros HJ Is Es Q Hx Cl. eapply J_close; try eassumption. unfold closes in Cl. destruct ((q_count q - 1 =? 0) && s_wants s); [exact Cl|]. destruct Cl as [(q' & A & B & _ & C) D]. split; [eauto|exact D].
Qed.

(** ** The loop of createContentKey *)
Lemma loop_ok l st s ts t0 ex rs : In s st -> s_ts s = ts -> slot_ok ts -> forall L p T cl (Hcl : cl = true -> (exists x, snd (key_loop L ex ts (s_call s) (s_wants s) rs p) = Ok x)),
  J cl l st (T ++ map (pair ts) (dkeys L)) (t0 ++ pr_outs p) p -> (forall x, In x L -> In x (pr_infos p)) -> NoDup (dkeys L) -> tracked p ->
  let p' := fst (key_loop L ex ts (s_call s) (s_wants s) rs p) in
  exists a, pr_outs p' = pr_outs p ++ a /\ pr_db p' = pr_db p /\ pr_infos p' = pr_infos p /\ tracked p' /\ elsewhere ts p p' /\
    (forall n v, name_ok n -> ~ In n (dkeys L) -> counted p ts n v -> counted p' ts n v) /\
    (forall i, In i (flat_map expressed a) -> i = KInt (i_name i) ex ts (s_call s) (s_wants s) /\ counted p' ts (i_name i) 0) /\
    ((cl = true -> quiet a) -> J cl l st (T ++ map (fun i => token i) (flat_map expressed a)) (t0 ++ pr_outs p') p').
Proof.
  intros Is Es So. induction L as [|[n k] L IH]; intros p T cl Hcl HJ Hin Nd Tr.
  - exists []. cbn in *. rewrite !app_nil_r in *. repeat (split; [first [reflexivity|assumption|intros ? ?; reflexivity]|]). split; [auto|]. split; [intros i []|]. intros _. exact HJ.
  - cbn [dkeys map fst] in HJ, Nd. fold (dkeys L) in HJ, Nd. apply NoDup_cons_iff in Nd. destruct Nd as [Nd1 Nd2].
    assert (It : In (ts, n) (T ++ (ts, n) :: map (pair ts) (dkeys L))) by (apply in_or_app; right; now left).
    destruct (j_live _ _ _ _ _ _ _ _ _ _ HJ ts n It) as [Nn (q & Q)]. pose proof (j_uniq _ _ _ _ _ _ _ _ _ _ HJ) as U. pose proof (node_ok prefix dataType Hp Hd n Nn) as On.
    pose proof (j_infos _ _ _ _ _ _ _ _ _ _ HJ n k (Hin _ (or_introl eq_refl))) as Ik. pose proof (j_db _ _ _ _ _ _ _ _ _ _ HJ s Is) as Dk. rewrite Es in Dk.
    cbv zeta. cbn [ProdModel.key_loop] in *. destruct ((ts <? k_begin k) || (k_end k <=? ts)) eqn:Eb.
    + set (q1 := KReq (q_count q) (dset n_equals (q_attempts q) n 0) (q_keys q)) in *. set (i := KInt n ex ts (s_call s) (s_wants s)).
      set (p1 := Prod (pr_db p) (pr_infos p) (dset Z.eqb (pr_reqs p) ts q1) (pr_outs p ++ [PExpress i])).
      assert (E : forall m : pm unit, ((q <~ req ts ;; set_req ts (KReq (q_count q) (dset n_equals (q_attempts q) n 0) (q_keys q)) ;;; sendKeyInterest (KInt n ex ts (s_call s) (s_wants s))) ;;; m) p = m p1).
      { intro m. unfold pbind at 1, pbind at 1, req, pbind at 1, pget at 1, plift, dindex. rewrite Q. reflexivity. }
      rewrite E in *. assert (Ch : changed (pr_reqs p) ts (Some q1) (pr_reqs p1)) by (apply changed_set; exact U).
      assert (HJ1 : J cl l st ((T ++ [(ts, n)]) ++ map (pair ts) (dkeys L)) (t0 ++ pr_outs p1) p1).
      { rewrite <- app_assoc. cbn [app p1 pr_outs]. rewrite app_assoc. eapply J_again; [exact HJ|exact Q| | |exact Ch| |]; reflexivity. }
      assert (Tr1 : tracked p1) by (eapply again_tracked; eassumption).
      destruct (IH p1 (T ++ [(ts, n)]) cl Hcl HJ1 (fun x X => Hin x (or_intror X)) Nd2 Tr1) as (a & A1 & A2 & A3 & A4 & A5 & A6 & A7 & A8). exists (PExpress i :: a).
      split; [rewrite A1; cbn [p1 pr_outs]; now rewrite <- app_assoc|]. split; [exact A2|]. split; [exact A3|]. split; [exact A4|]. split; [intros ts' N; rewrite (A5 ts' N); apply (changed_elsewhere _ _ _ _ Ch ts' N)|].
      split; [intros m v Om Nm Cm; cbn [dkeys map fst In] in Nm; apply A6; [exact Om|tauto|]; eapply again_counted; [exact Ch| | | | |]; auto; right; split; [right; intros ->; tauto|exact Cm]|].
      split.
      * cbn [flat_map expressed app]. intros j [<-|Ij]; [split; [reflexivity|]; cbn [i_name i]; apply A6; [exact On|exact Nd1|]; eapply again_counted; [exact Ch| | | | |]; auto|]. apply A7, Ij.
      * intro Hq. cbn [flat_map expressed app map]. change (token i) with (ts, n). replace (T ++ (ts, n) :: map (fun i0 => token i0) (flat_map expressed a)) with ((T ++ [(ts, n)]) ++ map (fun i0 => token i0) (flat_map expressed a)) by (rewrite <- app_assoc; reflexivity). apply A8. intro X. specialize (Hq X). intros c m Y. apply (Hq c m). now right.
    + assert (Kb : exists i m cb ce b, In (i, m ++ [cb; ce], b) (received l) /\ i_name i = n /\ names_time cb (k_begin k) /\ names_time ce (k_end k) /\ k_bits k = Some b) by (destruct Ik as [->|Ik]; [cbn in Eb; lia|exact Ik]).
      destruct Kb as (i & m & cb & ce & b & Kr & Kn & Kb & Ke & Kk).
      destruct (iso_comp_of (k_begin k)) as [cb'|e0] eqn:E1.
      2:{ assert (E0 : forall m : pm unit, ((cb <~ plift (Err e0) ;; ce <~ plift (iso_comp_of (k_end k)) ;; encryptContentKey (k_bits k) (n ++ [cb] ++ [ce]) ts (s_call s) (s_wants s) (rs n) ;;; pret tt) ;;; m) p = (p, Err e0)) by (intro; reflexivity). rewrite E0 in *. cbn [fst]. exists []. rewrite !app_nil_r. repeat (split; [first [reflexivity|assumption|intros ? ?; reflexivity]|]). split; [auto|]. split; [intros j []|]. intros _. cbn [flat_map map]. destruct cl; [destruct (Hcl eq_refl) as [x X]; discriminate X|]. rewrite ?app_nil_r.
          pose proof (J_lost_many rsa_enc aes_enc prefix dataType l st T ((ts, n) :: map (pair ts) (dkeys L)) [] (t0 ++ pr_outs p) p) as X. cbn [app] in X; rewrite ?app_nil_r in X. unfold dkeys in X. apply X, HJ. }
      destruct (iso_comp_of (k_end k)) as [ce'|e0] eqn:E2.
      2:{ assert (E0 : forall m : pm unit, ((cb <~ plift (Ok cb') ;; ce <~ plift (Err e0) ;; encryptContentKey (k_bits k) (n ++ [cb] ++ [ce]) ts (s_call s) (s_wants s) (rs n) ;;; pret tt) ;;; m) p = (p, Err e0)) by (intro; reflexivity). rewrite E0 in *. cbn [fst]. exists []. rewrite !app_nil_r. repeat (split; [first [reflexivity|assumption|intros ? ?; reflexivity]|]). split; [auto|]. split; [intros j []|]. intros _. cbn [flat_map map]. destruct cl; [destruct (Hcl eq_refl) as [x X]; discriminate X|]. rewrite ?app_nil_r.
          pose proof (J_lost_many rsa_enc aes_enc prefix dataType l st T ((ts, n) :: map (pair ts) (dkeys L)) [] (t0 ++ pr_outs p) p) as X. cbn [app] in X; rewrite ?app_nil_r in X. unfold dkeys in X. apply X, HJ. }
      destruct (iso_comp_ok _ _ E1) as [Ib Ob]. destruct (iso_comp_ok _ _ E2) as [Ie Oe].
      assert (Ne : name_ok (n ++ [cb'] ++ [ce'])). { unfold name_ok. apply Forall_app. split; [exact On|]. constructor; [exact Ob|]. constructor; [exact Oe|constructor]. }
      destruct (encrypt_eq (k_bits k) (n ++ [cb'] ++ [ce']) ts (s_call s) (s_wants s) (rs n) p q (s_key s) So Ne Q U Dk) as (p1 & a1 & ok & E & P1 & P2 & P3 & P4).
      assert (E0 : forall m : pm unit, ((cb <~ plift (Ok cb') ;; ce <~ plift (Ok ce') ;; encryptContentKey (k_bits k) (n ++ [cb] ++ [ce]) ts (s_call s) (s_wants s) (rs n) ;;; pret tt) ;;; m) p = m p1) by (intro; unfold pbind, plift; rewrite E; reflexivity). rewrite E0 in *.
      assert (Step : quiet a1 /\ ok = true \/ ok = false /\ a1 = [PError (s_call s) 103]) by (destruct P4 as [(X1 & _ & X2)|(X1 & kb & x & ch & _ & _ & _ & _ & X2)]; [right; auto|left; split; [apply (closes_quiet _ _ _ _ _ _ _ _ X2)|exact X1]]).
      assert (El : elsewhere ts p p1) by (destruct P4 as [(_ & X & _)|(_ & kb & x & ch & _ & _ & _ & _ & X)]; [intros ts' _; now rewrite X|eapply closes_elsewhere, X]).
      assert (Tr1 : tracked p1) by (destruct P4 as [(_ & X & _)|(_ & kb & x & ch & _ & _ & _ & _ & X)]; [unfold tracked; rewrite X; exact Tr|eapply closes_tracked; eassumption]).
      assert (Ct1 : forall m0 v, counted p ts m0 v -> counted p1 ts m0 v) by (intros m0 v C0; destruct P4 as [(_ & X & _)|(_ & kb & x & ch & _ & _ & _ & _ & X)]; [unfold counted; rewrite X; exact C0|eapply closes_counted; eassumption]).
      assert (Fx : flat_map expressed a1 = []) by (destruct P4 as [(_ & _ & ->)|(_ & kb & x & ch & _ & _ & _ & _ & X)]; [reflexivity|apply (closes_quiet _ _ _ _ _ _ _ _ X)]).
      assert (HJ1 : forall cl', (cl' = true -> cl = true /\ quiet a1) -> J cl' l st (T ++ map (pair ts) (dkeys L)) (t0 ++ pr_outs p1) p1).
      { intros cl' Hq. rewrite P3, app_assoc. destruct P4 as [(X1 & X2 & X3)|(X1 & kb & x & ch & X2 & X3 & X4 & X5 & X6)].
        - destruct cl'; [destruct (Hq eq_refl) as [_ Y]; subst a1; exfalso; apply (Y (s_call s) 103); now left|]. eapply J_lost; [eapply J_weak, HJ| | | |]; [subst a1; reflexivity|exact X2|exact P1|exact P2].
        - assert (HJc : J cl' l st (T ++ (ts, n) :: map (pair ts) (dkeys L)) (t0 ++ pr_outs p) p) by (destruct cl'; [destruct (Hq eq_refl) as [-> _]; exact HJ|eapply J_weak, HJ]).
          eapply closes_J; [exact HJc|exact Is|exact Es|exact Q| |exact X6|exact P1|exact P2]. right. exists x. split; [reflexivity|]. assert (kb = b) by congruence. subst kb. exists i, m, cb, ce, b, (k_begin k), (k_end k), (n ++ [cb'] ++ [ce']), ch, (rs n).
          split; [exact Kr|]. split; [exact Kn|]. split; [exact Kb|]. split; [exact Ke|]. rewrite Es. split; [lia|]. split; [right; split; [lia|]; exists cb', ce'; auto|]. split; [exact X3|]. split; [exact X4|exact X5]. }
      set (cl' := cl && ok). assert (Hq' : cl' = true -> cl = true /\ quiet a1) by (unfold cl'; intro X; apply andb_true_iff in X; destruct X as [X1 X2]; split; [exact X1|]; destruct Step as [[S1 _]|[S1 _]]; [exact S1|congruence]).
      destruct (IH p1 T cl' (fun X => Hcl (proj1 (Hq' X))) (HJ1 cl' Hq') ltac:(rewrite P2; intros x X; apply Hin; now right) Nd2 Tr1) as (a & A1 & A2 & A3 & A4 & A5 & A6 & A7 & A8). exists (a1 ++ a).
      split; [rewrite A1, P3; now rewrite app_assoc|]. split; [now rewrite A2|]. split; [now rewrite A3|]. split; [exact A4|]. split; [intros ts' N; rewrite (A5 ts' N); apply El, N|].
      split; [intros m0 v Om Nm Cm; cbn [dkeys map fst In] in Nm; apply A6; [exact Om|tauto|]; apply Ct1, Cm|]. split; [rewrite flat_map_app, Fx; exact A7|]. intro Hq. rewrite flat_map_app, Fx. cbn [app].
      assert (Ecl : cl = cl') by (unfold cl'; destruct cl; [|reflexivity]; specialize (Hq eq_refl); apply quiet_app in Hq; destruct Step as [[_ ->]|[_ ->]]; [reflexivity|exfalso; apply (proj1 Hq (s_call s) 103); now left]).
      rewrite Ecl. apply A8. intro X. rewrite <- Ecl in X. specialize (Hq X). apply quiet_app in Hq. apply Hq.
Qed.
End Producer.
