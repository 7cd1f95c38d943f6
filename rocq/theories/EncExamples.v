(** * C75: EncryptorV2, concretely *)
From Verif Require Import Base BaseLemmas TlvSpec NameModel NameSpec DictModel WireModel CtlModel FrontModel FrontProofs5 ChainModel ChainSpec ChainExamples NacModel NacExamples EncModel EncSpec EncProps.

Lemma bind_inv : forall (S A B : Type) (m : sm S A) (k : A -> sm S B) s s' b, bind m k s = (s', Ok b) -> exists a s1, m s = (s1, Ok a) /\ k a s1 = (s', Ok b).
Proof. intros S A B m k s s' b. unfold bind. destruct (m s) as [s1 [a|e]]; [eauto|discriminate]. Qed.
(** KeyChain.sign only changes the signature. *)
Theorem C75_sign : forall P psign ktype sha ord si rnd s, keeps (fun d => snd (sign_data P psign ktype sha ord si rnd d s)).
Proof.
  intros P psign ktype sha ord si rnd s d d' E. unfold sign_data in E.
  match type of E with snd (?m s) = _ => destruct (m s) as [s' r] eqn:Em end. cbn [snd] in E. subst r.
  apply bind_inv in Em. destruct Em as (sk & s1 & _ & Em). cbv zeta in Em. apply bind_inv in Em. destruct Em as (e & s2 & _ & Em). apply bind_inv in Em. destruct Em as (b & s3 & _ & Em). apply bind_inv in Em. destruct Em as (w & s4 & _ & Em). injection Em as _ <-. eexists. reflexivity.
Qed.
Print Assumptions C75_sign.
Definition t_digest (m : bytes) : bytes := repeat (zlen m mod 256) 32.
Definition t_access : name := [c_generic [97]; N_NAC; c_generic [100]].
Definition t_prefix : name := [c_generic [112]].
Notation x_run := (e_run t_penc t_cbc t_digest t_access t_prefix).
Definition t_kek : data := plain (t_access ++ [N_KEK; c_generic [49]]) [48; 2].
Definition signed (d : data) : res data := Ok (with_sig d (SigDigest (Some [1]))).
Lemma signed_keeps : keeps signed. Proof. intros d d' [= <-]. eexists. reflexivity. Qed.
Definition ck1 : name := EncSpec.ck_of_time t_prefix 5000.
Definition x_hist : list eevent := [VRegen 5000 [9] (Some 1) 0 signed; VTimeout 1 (Some 2); VNack 2; VEncrypt [0] [7]; VLater 0 (Some 3); VData 3 t_kek 0 signed; VRegen 6000 [8] None 0 signed; VEncrypt [0] [7]].
Ltac eprop := split; [repeat (apply Forall_cons; [split; repeat constructor; apply signed_keeps|]); apply Forall_nil|repeat constructor; cbn; try discriminate; reflexivity].
Lemma x_hist_proper : eproper x_hist.
Proof. unfold x_hist. eprop. Qed.
Example C75_example : eproper x_hist /\ no_shutdown x_hist /\ e_out (x_run x_hist) =
  [OSend 1 (t_access ++ [N_KEK]); OSend 2 (t_access ++ [N_KEK]); ODelay 1000; OContent (Ok (EC None (KL (Some 1) ck1 None) (Some [0]) (Some ([9; 0; 7] ++ repeat 15 15)) None)); OSend 3 (t_access ++ [N_KEK]);
   OContent (Ok (EC None (KL (Some 1) (EncSpec.ck_of_time t_prefix 6000) None) (Some [0]) (Some ([8; 0; 7] ++ repeat 15 15)) None))] /\
  map (fun now => option_map d_content (serve (x_run x_hist) (EncSpec.ck_of_time t_prefix now))) [5000; 6000; 7000] =
   [Some (Some (ck_content [2; 9])); Some (Some (ck_content [2; 8])); None].
Proof. split; [exact x_hist_proper|]. split; [intros H; unfold x_hist in H; cbn [In] in H; repeat (destruct H as [H|H]; [discriminate H|]); destruct H|]. split; vm_compute; reflexivity. Qed.
Example C75_example_served : exists d kek', serve (x_run x_hist) ck1 = Some d /\ kek_in x_hist kek' /\ EncSpec.ck_data t_penc ck1 [9] kek' d.
Proof.
  refine (C75_served t_penc t_cbc t_digest t_access t_prefix (firstn 6 x_hist) (skipn 6 x_hist) 5000 [9] t_kek x_hist_proper _ _ _).
  - cbn. repeat constructor; cbn; intuition lia.
  - left. reflexivity.
  - change (firstn 6 x_hist) with (firstn 5 x_hist ++ [VData 3 t_kek 0 signed]). destruct (C75_kek_arrives t_penc t_cbc t_digest t_access t_prefix (firstn 5 x_hist) 3 t_kek 0 signed 5000 [9]) as ([[H _]|[_ H]] & _).
    + apply (eproper_app (firstn 6 x_hist) (skipn 6 x_hist)). exact x_hist_proper.
    + exists 1. vm_compute. auto.
    + reflexivity.
    + exact H.
    + exfalso. vm_compute in H. discriminate H.
Qed.
(** Two CKs of the same millisecond have the same name: the Data of the second is also stored, but the
    first is served, whose bits do not decrypt what encrypt returns (encryptor_v2.py 155-158). *)
Theorem C75_same_millisecond_refuted : ~ (forall l now bits kek, eproper l -> current l = Some (now, bits) -> published t_penc (x_run l) (EncSpec.ck_of_time t_prefix now) bits kek ->
  exists d kek', serve (x_run l) (EncSpec.ck_of_time t_prefix now) = Some d /\ EncSpec.ck_data t_penc (EncSpec.ck_of_time t_prefix now) bits kek' d).
Proof.
  intros H. set (l := [VRegen 5000 [9] (Some 1) 0 signed; VData 1 t_kek 0 signed; VRegen 5000 [8; 8] None 0 signed]). assert (Pr : eproper l) by (unfold l; eprop).
  destruct (H l 5000 [8; 8] t_kek Pr eq_refl) as (d & kek' & E & _ & pub & r & c & _ & E2 & E3).
  - destruct (C75_regenerate t_penc t_cbc t_digest t_access t_prefix (firstn 2 l) t_kek 5000 [8; 8] None 0 signed Pr) as [[X _]|[_ X]]; [|exact X|exfalso; vm_compute in X; discriminate X].
    exists (firstn 1 l), 1, 0, signed, []. split; [reflexivity|]. split; [exists 3; vm_compute; auto|]. intros a id' kek' r' g' b X. destruct a; discriminate X.
  - vm_compute in E. injection E as <-. cbn [d_content] in E3. unfold t_penc in E2. destruct pub as [|a [|b [|? ?]]]; try discriminate E2; [destruct a as [|p|p]; try discriminate E2; repeat (destruct p as [p|p|]; try discriminate E2) ..]. injection E2 as <-. vm_compute in E3. discriminate E3.
Qed.
Print Assumptions C75_same_millisecond_refuted.
(** A CK that is replaced before the KEK comes is never published, so that what was encrypted with it
    can not be decrypted (encryptor_v2.py 152-153, 165-166 say so). *)
Theorem C75_replaced_refuted : exists l now bits, eproper l /\ no_shutdown l /\ In (now, bits) (regens l) /\ (exists iv m c, In (OContent (Ok (EC None (KL (Some 1) (EncSpec.ck_of_time t_prefix now) None) (Some iv) (Some c) None))) (e_out (x_run l)) /\ t_cbc bits iv (aes_pad m) = Ok c) /\
  last_kek t_penc t_cbc t_digest t_access t_prefix l t_kek /\ serve (x_run l) (EncSpec.ck_of_time t_prefix now) = None.
Proof.
  exists [VRegen 5000 [9] (Some 1) 0 signed; VEncrypt [0] [7]; VRegen 6000 [8] None 0 signed; VData 1 t_kek 0 signed], 5000, [9]. split; [eprop|]. split; [intros H; cbn [In] in H; repeat (destruct H as [H|H]; [discriminate H|]); destruct H|]. split; [left; reflexivity|]. split; [exists [0], [7], ([9; 0; 7] ++ repeat 15 15); split; [vm_compute; auto|reflexivity]|]. split; [|vm_compute; reflexivity].
  exists [VRegen 5000 [9] (Some 1) 0 signed; VEncrypt [0] [7]; VRegen 6000 [8] None 0 signed], 1, 0, signed, []. split; [reflexivity|]. split; [exists 3; vm_compute; auto|]. intros a id' kek' r' g' b X. destruct a; discriminate X.
Qed.
Print Assumptions C75_replaced_refuted.
(** shutdown does not stop the delayed calls: an Interest is sent after it (encryptor_v2.py 115-118);
    and it leaves _kekPendingInterestId, so that without such a call nothing is fetched any more. *)
Theorem C75_shutdown_refuted : exists l, eproper l /\ zlen (e_sends (e_out (x_run (l ++ [VShutdown])))) < zlen (e_sends (e_out (x_run (l ++ [VShutdown; VLater 0 (Some 2)])))).
Proof. exists [VRegen 5000 [9] (Some 1) 0 signed; VNack 1]. split; [eprop|]. vm_compute. reflexivity. Qed.
Print Assumptions C75_shutdown_refuted.
