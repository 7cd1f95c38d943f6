(** * C76, concretely *)
From Verif Require Import Base BaseLemmas TlvSpec NameModel NameSpec NameProofs DictModel DictProofs WireModel WireSpec WireProofs5 CtlModel CtlSpec CertProofs HierModel HierSpec HierProps PibModel PibSpec PibProps FrontModel FrontSpec BagModel BagProps ChainModel ChainSpec ChainProofs3 ChainProps ChainExamples StoreModel CmdProps NacModel NacSpec NacExamples EncModel EncSpec EncProps EncExamples AmModel AmSpec AmProps.

Lemma c_crypto : crypto bool t_derive t_sign t_verify t_type t_digest.
Proof. destruct t_crypto as (A & B & C & _ & D). split; [exact A|]. split; [exact B|]. split; [exact C|]. split; [|exact D]. intros m. unfold t_digest. apply Forall_forall. intros x J. apply repeat_spec in J. subst x. unfold is_byte. pose proof (Z.mod_pos_bound (zlen m) 256). lia. Qed.
Lemma c_wide : wide t_digest. Proof. intros m. unfold t_digest, zlen. rewrite repeat_length. reflexivity. Qed.
Lemma c_rsa : rsa_law t_sign t_verify t_penc t_pdec.
Proof.
  intros b p r m c Be E. specialize (Be 0 []). apply t_verify_ok in Be. subst b. unfold t_derive, t_penc in E. destruct p; injection E as <-; split; try discriminate; reflexivity.
Qed.
Lemma c_aes : aes_law t_cbc t_cbc_inv.
Proof.
  intros k iv m c [= <-]. unfold t_cbc_inv. rewrite app_assoc, firstn_app, firstn_all, Nat.sub_diag. cbn [firstn]. rewrite app_nil_r. replace (zlist_eqb (k ++ iv) (k ++ iv)) with true by (symmetry; apply zlist_eqb_eq; reflexivity).
  rewrite skipn_app, skipn_all, Nat.sub_diag. reflexivity.
Qed.
Lemma c_dump : forall q w, t_load (t_dump q w) w = Ok q. Proof. intros [] w; reflexivity. Qed.
(** Alice has an EC key, which signs; her access manager makes a new RSA key for the dataset "d". *)
Notation c_reach := (reach bool t_derive t_sign t_verify t_type t_digest t_load t_ord).
Notation c_exec := (kexec bool t_derive t_sign t_verify t_type t_digest t_load t_ord).
Definition c_s0 : kstate bool := ChainSpec.begin bool t_ord [] [].
Definition c_s1 : kstate bool := fst (c_exec (KCreateIdentity t_alice kp1 true [] 5000 0) c_s0).
Lemma c_valid_alice : Forall c_valid t_alice. Proof. apply validb_ok. reflexivity. Qed.
Lemma c_reach1 : c_reach [] [] c_s1.
Proof.
  assert (R0 : c_reach [] [] c_s0) by (split; [exact t_begins|exists []; split; [exact Logic.I|reflexivity]]). apply (reach_step _ _ _ _ _ _ _ _ [] [] c_s0 (KCreateIdentity t_alice kp1 true [] 5000 0) R0). split; [exact c_valid_alice|]. split; [discriminate|].
  split; [apply generic_valid; repeat constructor; unfold is_byte; lia|]. split; [constructor|]. split; [lia|]. intros E. discriminate E.
Qed.
Lemma c_signs : signs bool [] c_s1 t_h.
Proof. split; [vm_compute; auto 20|]. exists t_k1. split; [vm_compute; reflexivity|exact t_k1_ok]. Qed.
Definition c_set : name := [c_generic [100]].
Definition c_nac : name := t_alice ++ [N_NAC] ++ c_set.
Definition c_kid : comp := c_generic [51].
Ltac names := repeat (apply Forall_cons; [apply generic_ok, bytes_okb_ok; reflexivity|]); apply Forall_nil.
Definition c_member : data := plain (t_bob ++ [c_generic [115]; c_generic [49]]) [48; 2].
Definition c_new := am_new bool t_derive t_sign t_type t_digest t_ord t_h c_set false [[51]] 6000 1 false [] 0 0 2 c_s1.
Definition c_s2 : kstate bool := fst c_new.
Definition c_am : am := match snd c_new with Ok a => a | Err _ => Am t_h t_h [] end.
Definition c_cert : data := match cert x_name (pib_hist bool [] c_s2) (self_name (key_name c_nac c_kid) 6000) with Some c => c | None => c_member end.
Definition c_kdk : data := match snd (am_kdk bool t_sign t_type t_digest t_dump t_ord t_penc t_h (am_key c_am) c_member [5; 0; 7] 0 4 (fst (am_kek bool t_sign t_type t_digest t_ord t_h (am_key c_am) 3 c_s2))) with Ok d => d | Err _ => c_member end.
Example C76_new_example : exists s' a kek c, am_new bool t_derive t_sign t_type t_digest t_ord t_h c_set false [[51]] 6000 1 false [] 0 0 2 c_s1 = (s', Ok a) /\ c_reach [] [] s' /\ signs bool [] s' t_h /\ am_id a = t_h /\
    nac_key bool t_sign t_verify [] s' (am_key a) c_nac c_kid false c /\ d_content c = Some [48; 2] /\ data_ok c /\ data_seen data_new c = c /\
    kek_data c_nac c_kid [48; 2] kek /\ am_serve a (c_nac ++ [N_KEK]) = Some kek.
Proof.
  destruct (C76_new bool t_derive t_sign t_verify t_type t_digest t_load t_ord [] [] c_s1 t_h c_set false [[51]] 6000 1 false [] 0 0 2 c_kid c_crypto t_order c_wide c_reach1 c_signs) as (s' & a & kek & c & H1 & H2 & H3 & H4 & H5 & H6 & H7 & H8 & H9 & _ & H10 & _).
  - names.
  - split; [discriminate|]. split; [apply generic_valid; constructor|]. split; [repeat constructor; unfold is_byte; lia|]. split; [lia|]. intros E. discriminate E.
  - vm_compute. reflexivity.
  - split; [left; reflexivity|]. split; [vm_compute; reflexivity|]. right. right. split; [reflexivity|]. exists [], [51], []. split; [reflexivity|]. split; [reflexivity|]. split; [discriminate|constructor].
  - unfold in_time. lia.
  - reflexivity.
  - exists s', a, kek, c. auto 12.
Qed.
(** Bob, a member, reads what a producer encrypted: the hypotheses of C76_end_to_end hold. *)
Example C76_example : exists kek kdk w ck, let k := EncSpec.ck_of_time t_prefix 5000 in
  d_out (d_run bool t_sign t_verify t_type t_load t_ord t_pdec t_cbc_inv t_bob (d_new (ChainSpec.begin bool t_ord [] [])) [EDecrypt 1 w (Some 11); EData 11 ck t_cred 0 (Some 12); EData 12 kdk (member_key t_pdec false) 0 None]) =
  [Send 11 k true false; Send 12 (kdk_data_name c_nac c_kid t_bob) false true; Answer 1 (Success [77; 78])] /\ kek_data c_nac c_kid [48; 2] kek /\ serve (e_run t_penc t_cbc t_digest c_nac t_prefix [VRegen 5000 [9] (Some 1) 0 signed; VData 1 kek 0 signed]) k = Some ck.
Proof.
  destruct C76_new_example as (s' & a & kek0 & c & En & R & Si & Ei & Nc & Ec & Dk & Ds & _). assert (Es : s' = c_s2) by (unfold c_s2, c_new; rewrite En; reflexivity). assert (Ea : a = c_am) by (unfold c_am, c_new; rewrite En; reflexivity). clear En kek0. subst s' a. clear Ei.
  assert (Ecc : c = c_cert). { destruct Nc as (_ & _ & _ & _ & n & En & Ecn). assert (Ev : def_cert x_name (pib_hist bool [] c_s2) (key_name c_nac c_kid) = Some (self_name (key_name c_nac c_kid) 6000)) by (vm_compute; reflexivity). rewrite Ev in En. injection En as <-. unfold c_cert. rewrite Ecn. reflexivity. } subst c.
  assert (N1 : name_ok (kek_name c_nac c_kid)) by names. assert (N2 : name_ok (kdk_data_name c_nac c_kid (owner (d_name c_member)))) by names.
  destruct (C76_kek bool t_derive t_sign t_verify t_type t_digest t_load t_ord [] [] c_s2 t_h (am_key c_am) c_nac c_kid false c_cert [48; 2] 3 c_crypto t_order R Si Nc Ec N1 (proj1 (proj2 Dk))) as (s1 & kek & E1 & K1 & _ & _ & S1).
  destruct (C76_kdk bool t_derive t_sign t_verify t_type t_digest t_load t_dump t_ord t_penc [] [] s1 t_h (am_key c_am) c_nac c_kid false c_cert c_member [48; 2] [5; 0; 7] 0 [2; 5; 1; 7] 4 c_crypto t_order (proj1 S1) (same_signs _ _ _ _ _ _ _ _ _ _ _ _ _ S1 Si) (same_nac _ _ _ _ _ _ _ _ _ _ _ _ _ _ _ _ _ S1 Nc) Dk eq_refl eq_refl N2) as (s2 & kdk & E2 & K2 & _).
  set (l := [VRegen 5000 [9] (Some 1) 0 signed; VData 1 kek 0 signed]). assert (Pr : eproper l) by (unfold l; eprop).
  assert (Pu : published t_penc (e_run t_penc t_cbc t_digest c_nac t_prefix l) (EncSpec.ck_of_time t_prefix 5000) [9] kek).
  { destruct (C75_kek_arrives t_penc t_cbc t_digest c_nac t_prefix [VRegen 5000 [9] (Some 1) 0 signed] 1 kek 0 signed 5000 [9] Pr) as [[[X _]|[X _]] _]; [exists 3; vm_compute; auto|reflexivity|exact X|]. exfalso. apply X. clear X. exists [48; 2], [2; 9]. do 2 eexists. split; [apply K1|]. split; [reflexivity|]. split; [reflexivity|].
    rewrite (proj1 K1). split; [apply encodeData_ok|apply c_wide]. split; [names|]. split; [|exact Logic.I]. split; [left; cbn; lia|]. split; [cbn; lia|]. apply generic_ok. constructor. }
  destruct (C76_end_to_end bool t_derive t_sign t_verify t_type t_digest t_load t_dump t_ord t_pdec t_penc t_cbc t_cbc_inv [] [] c_s2 t_h (am_key c_am) c_nac c_kid false c_cert [48; 2] 3 s1 kek c_member [48; 2] [5; 0; 7] 0 4 s2 kdk c_nac t_prefix l 5000 [9] [0] [77; 78] ([9; 0] ++ aes_pad [77; 78])
    [] [] (d_new (ChainSpec.begin bool t_ord [] [])) false KT_RSA 11 12 t_cred 0 0 1 None) as (w & ck & W1 & W2 & W3); try reflexivity; try assumption.
  - exact c_crypto.
  - exact t_order.
  - exact c_rsa.
  - exact c_aes.
  - exact c_dump.
  - repeat constructor. intros [].
  - intros kek' (id & r & g & [J|[J|[]]]); [discriminate J|congruence].
  - split; [exact t_begins|exists []; split; [exact Logic.I|reflexivity]].
  - intros r m. apply t_verify_ok. reflexivity.
  - exists kek, kdk, w, ck. cbv zeta. split; [|split; [exact K1|exact W2]]. rewrite (proj1 K2) in W3. apply W3.
    + assert (Ecd : ck_data t_penc (EncSpec.ck_of_time t_prefix 5000) [9] kek ck). { destruct (C75_served t_penc t_cbc t_digest c_nac t_prefix l [] 5000 [9] kek) as (ck' & kek' & Sv & (id & r & g & J) & Cd); [rewrite app_nil_r; exact Pr|repeat constructor; intros []|left; reflexivity|exact Pu|]. rewrite app_nil_r in Sv, J. assert (ck' = ck) by (assert (X : Some ck' = Some ck) by (etransitivity; [symmetry; exact Sv|exact W2]); injection X as ->; reflexivity). subst ck'. destruct J as [J|[J|[]]]; [discriminate J|]. injection J as _ <- _ _. exact Cd. }
      destruct Ecd as (_ & pub & r & ct & D1 & D2 & D3). rewrite (proj2 K1) in D1. injection D1 as <-. injection D2 as <-. rewrite D3. reflexivity.
    + assert (Ek : kdk = c_kdk) by (unfold c_kdk; rewrite E1; cbn [fst]; rewrite E2; reflexivity). rewrite Ek. vm_compute. reflexivity.
    + vm_compute. reflexivity.
Qed.
