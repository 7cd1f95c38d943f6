(** * C77: PibSqlite3, concretely *)
From Verif Require Import Base BaseLemmas TlvSpec NameModel NameSpec WireModel WireSpec HierModel HierSpec HierProps PibModel PibSpec PibProps ChainModel ChainProofs3 SqlModel SqlSpec SqlProps.

Definition q_a : name := [c_generic [97]].
Definition q_k1 : name := key_name q_a (c_generic [49]).
Definition q_k2 : name := key_name q_a (c_generic [50]).
Definition q_c1 : data := Data (cert_name q_a (c_generic [49]) (c_generic [115]) (c_generic [1])) (MI 2 (-1) (Some 3600000) (c_generic [])) (Some [48; 1]) (SigDigest (Some [9])).
Definition q_history : list (call data) := [AddIdentity q_a; AddKey q_a q_k1 [1]; AddKey q_a q_k2 [2]; AddCert q_c1; SetDefaultKey q_a q_k2; RemoveKey q_k1].
Lemma q_fits : forall n, forallb (fun c => (c_type c =? 8) && (c_other c =? -1) && bytes_okb (c_value c)) n = true -> zlen (encodeName n) < 2 ^ 64 -> fits n.
Proof.
  intros n H L. split; [|exact L]. apply Forall_forall. intros c I. rewrite forallb_forall in H. specialize (H c I). apply andb_true_iff in H. destruct H as [H B]. apply andb_true_iff in H. destruct H as [H1 H2]. apply Z.eqb_eq in H1, H2. apply bytes_okb_ok in B. pose proof (generic_ok _ B) as G. unfold c_generic in G. destruct c. cbn in *. subst. exact G.
Qed.
Lemma q_sane : Forall sql_sane q_history.
Proof.
  assert (Fa : fits q_a) by (apply q_fits; reflexivity). assert (F1 : fits q_k1) by (apply q_fits; reflexivity). assert (F2 : fits q_k2) by (apply q_fits; reflexivity). assert (Fc : fits (d_name q_c1)) by (apply q_fits; reflexivity).
  assert (Va : Forall c_valid q_a) by (apply validb_ok; reflexivity). assert (V1 : Forall c_valid q_k1) by (apply validb_ok; reflexivity). assert (V2 : Forall c_valid q_k2) by (apply validb_ok; reflexivity). assert (Vc : Forall c_valid (d_name q_c1)) by (apply validb_ok; reflexivity).
  apply Forall_cons; [split; assumption|]. apply Forall_cons; [split; [split; [exact V1|split; [discriminate|exists (c_generic [49]); reflexivity]]|exact F1]|]. apply Forall_cons; [split; [split; [exact V2|split; [discriminate|exists (c_generic [50]); reflexivity]]|exact F2]|].
  apply Forall_cons; [split|].
  - split; [exact Vc|]. split; [|vm_compute; reflexivity]. exists q_a, (c_generic [49]), (c_generic [115]), (c_generic [1]). split; [discriminate|reflexivity].
  - split; [exact Fc|]. split; [|split; [reflexivity|vm_compute; reflexivity]]. split; [apply Fc|]. split; [|exact Logic.I]. split; [left; cbn; lia|]. split; [cbn; lia|]. apply generic_ok. constructor.
  - apply Forall_cons; [split; [split; [exact V2|split; [discriminate|exists (c_generic [50]); reflexivity]]|exact F2]|]. apply Forall_cons; [|constructor]. split; [split; [exact V1|exists q_a, (c_generic [49]); split; [discriminate|reflexivity]]|exact F1].
Qed.
Example C77_example : Forall sql_sane q_history /\
  let d := s_run (firstn 5 q_history) db_new in let e := s_run q_history db_new in
  gives d p_getDefaultIdentity = Ok q_a /\ gives d (p_getDefaultKey q_a) = Ok q_k2 /\ gives d (p_getCertificate (d_name q_c1)) = Ok q_c1 /\ gives d (p_getDefaultCert q_k1) = Ok q_c1 /\ gives d (p_getKeyBits q_k1) = Ok [48; 1] /\
  gives e (p_getDefaultKey q_a) = Ok q_k2 /\ gives e (p_hasCertificate (d_name q_c1)) = Ok false /\ gives e (p_getKeysOfIdentity q_a) = Ok [q_k2] /\
  snd (perform (p_setDefaultKey q_a q_k1) e) = Err OtherError.
Proof. split; [exact q_sane|]. vm_compute. repeat (split; [reflexivity|]). reflexivity. Qed.
(** addCertificate in an empty database can stop at four points. *)
Example C77_crash_example : map (fun d => (gives d (p_hasIdentity q_a), gives d (p_hasKey q_k1), gives d (p_hasCertificate (d_name q_c1)))) (crashes (p_call (AddCert q_c1)) db_new) =
  repeat (Ok false, Ok false, Ok false) 2 ++ repeat (Ok true, Ok false, Ok false) 3 ++ repeat (Ok true, Ok true, Ok false) 3 ++ repeat (Ok true, Ok true, Ok true) 2.
Proof. vm_compute. reflexivity. Qed.
(** PibMemory forgets the default key when another key of the identity is removed; PibSqlite3 does not. *)
Theorem C77_same_default_key_refuted : exists h i, Forall sql_sane h /\ sql_def_key (rev h) i <> def_key x_name x_content (rev h) i.
Proof.
  exists q_history, q_a. split; [exact q_sane|]. vm_compute. discriminate.
Qed.
(** After an empty locator was set, setTpmLocator adds rows, and getTpmLocator goes on giving the empty one. *)
Theorem C77_any_locator_refuted : exists ls l, gives (set_all (ls ++ [l]) db_new) p_getTpmLocator <> Ok l.
Proof. exists [[]], [116]. vm_compute. discriminate. Qed.
(** Two processes add the same identity at once: both find that it is not there, and the INSERT of
    the second violates the unique index: it raises, although the identity is there. *)
Definition q_add : list (prog unit) := [p_addIdentity q_a; p_addIdentity q_a].
Theorem C77_race_refuted : exists d u k ps, y_reach sql_sane (Sys d (Run u k :: ps)) /\ write u d = None /\ gives d (p_hasIdentity q_a) = Ok true.
Proof.
  assert (Sa : sql_sane (AddIdentity q_a)) by (pose proof q_sane as H; inversion H; assumption).
  assert (R1 : y_reach sql_sane (Sys db_new q_add)). { eapply YNext; [eapply YNext; [apply YStart|apply (YBegin _ db_new [] _ Sa)]|]. apply (YBegin _ db_new [p_addIdentity q_a] _ Sa). }
  unfold q_add, p_addIdentity, p_hasIdentity, some_row in R1. cbn [pbind] in R1.
  eapply YNext in R1; [|apply (YAsk _ db_new [] _ _ _)]. eapply YNext in R1; [|apply (YAsk _ db_new [_] _ _ [])]. cbn [app read db_new b_ids filter map give pbind do] in R1.
  eapply YNext in R1; [|apply (YRun _ _ [_] _ _ [] (s_run [AddIdentity q_a] db_new)); vm_compute; reflexivity]. cbn [app] in R1.
  eexists _, _, _, _. split; [exact R1|]. split; vm_compute; reflexivity.
Qed.
Print Assumptions C77_state. Print Assumptions C77_integrity. Print Assumptions C77_retry.
