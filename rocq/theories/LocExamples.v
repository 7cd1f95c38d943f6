(** * C97: examples and witnesses *)
From Coq Require Import String Ascii.
From Verif Require Import Base BaseLemmas NameModel UriModel UriProofs DictModel WireModel HierModel PibModel FrontModel BagModel ChainModel SqlModel SqlSpec SqlTable SqlProofs SqlProps LocModel LocSpec LocProofs LocStep LocProps.
Local Open Scope string_scope.
Fixpoint z_ (s : string) : str := match s with EmptyString => [] | String c r => Z.of_N (N_of_ascii c) :: z_ r end.
Definition h_ : str := z_ "/home/u/.ndn".
Definition e_ : env := Env None None [].
Definition w_ : world := World None None (fun _ => None) db_new.
Definition i_ : name := [c_generic [97]].
Definition new_ (e : env) (pl tl : string) (allow : bool) (w : world) : world * (keychain + kerr) := k_init h_ e (z_ pl) (Some (z_ tl)) allow w.
Definition ids_ (w : world) (p : str) : option (list bytes * list bytes) := match w_files w p with Some d => Some (b_tpm d, map r_name (b_ids d)) | None => None end.

(** A client.conf *)
Definition conf_ : list str := map z_ [" ; pib=none"; "pib = pib-memory:"; ""; "transport"; "  tpm=tpm-memory: "; "pib= pib-sqlite3:/a=b"].
Example C97_config_example : conf_get (conf_parse conf_) s_pib [] = z_ "pib-sqlite3:/a=b" /\ conf_get (conf_parse conf_) s_tpm [] = z_ "tpm-memory:" /\ conf_get (conf_parse conf_) (z_ "transport") (z_ "x") = z_ "x".
Proof. vm_compute. auto. Qed.
Example C97_default_example : default_says None conf_ s_pib s_sqlite (z_ "pib-sqlite3:/a=b") /\ snd (k_init h_ (Env None (Some []) conf_) [] (Some []) false w_) = inl (KC (InFile (z_ "/a=b")) (z_ "tpm-memory:")) /\
  snd (k_init0 h_ e_ true w_) = inl KV1 /\ snd (k_init0 h_ e_ false w_) = inl (KC (InFile h_) (z_ "tpm-file:")).
Proof. split; [apply default_choice; vm_compute; reflexivity|vm_compute; auto]. Qed.

Example C97_version_example : snd (k_init0 h_ e_ true (ev_run h_ [New e_ [] (Some []) false; Process] w_)) = inl (KC (InFile h_) (z_ "tpm-file:")).
Proof. vm_compute. reflexivity. Qed.
(** A PIB with a TPM *)
Definition w1_ : world := ev_run h_ [New e_ (z_ "pib-sqlite3:/a") (Some (z_ "tpm-file:/x")) false; Use (z_ "/a") (AddIdentity i_); Process] w_.
Example C97_exact_example : ids_ w1_ (z_ "/a") = Some ([z_ "tpm-file:/x"], [enc i_]) /\
  snd (new_ e_ "pib-sqlite3:/a" "tpm-file:/x" false w1_) = inl (KC (InFile (z_ "/a")) (z_ "tpm-file:/x")) /\
  snd (new_ e_ "pib-sqlite3:/a" "tpm-memory" false w1_) = inr Mismatch /\ ids_ (fst (new_ e_ "pib-sqlite3:/a" "tpm-memory" false w1_)) (z_ "/a") = ids_ w1_ (z_ "/a") /\
  snd (new_ e_ "pib-sqlite3:/a" "tpm-memory" true w1_) = inl (KC (InFile (z_ "/a")) (z_ "tpm-memory:")) /\ ids_ (fst (new_ e_ "pib-sqlite3:/a" "tpm-memory" true w1_)) (z_ "/a") = Some ([[]; z_ "tpm-memory:"], []).
Proof. vm_compute. repeat split. Qed.
Example C97_history_example : exists d, w_files w1_ (z_ "/a") = Some d /\ stored d (z_ "tpm-file:/x") /\ linked d /\ unreset d /\ elsewhere h_ e_ (z_ "/a") /\ w_pibdef w1_ = None.
Proof.
  eexists. split; [vm_compute; reflexivity|]. split; [vm_compute; reflexivity|]. split; [split; intros r []|]. split; [intros [K|[]]; discriminate K|]. split; [|reflexivity].
  intros l sl H C. apply default_choice in H. subst l. vm_compute in C. injection C as <-. vm_compute. discriminate.
Qed.
(** After a reset that was allowed, the PIB does not record its TPM, and from then on any TPM is accepted. *)
Definition w2_ : world := ev_run h_ [New e_ (z_ "pib-sqlite3:/a") (Some (z_ "tpm-memory:")) true; Use (z_ "/a") (AddIdentity i_)] w1_.
Theorem C97_recorded_refuted : exists dir e pl tl w w' p T d', k_init dir e pl tl true w = (w', inl (KC (InFile p) T)) /\ w_files w' p = Some d' /\ ~ stored d' T.
Proof.
  exists h_, e_, (z_ "pib-sqlite3:/a"), (Some (z_ "tpm-memory:")), w1_. destruct (k_init h_ e_ (z_ "pib-sqlite3:/a") (Some (z_ "tpm-memory:")) true w1_) as [w' r] eqn:E.
  assert (R : r = inl (KC (InFile (z_ "/a")) (z_ "tpm-memory:"))) by (change r with (snd (w', r)); rewrite <- E; vm_compute; reflexivity). subst r.
  destruct (w_files w' (z_ "/a")) as [d'|] eqn:F; [|exfalso; assert (K : w_files (fst (w', inl (KC (InFile (z_ "/a")) (z_ "tpm-memory:")) : keychain + kerr)) (z_ "/a") <> None) by (rewrite <- E; vm_compute; discriminate); cbn [fst] in K; congruence].
  exists w', (z_ "/a"), (z_ "tpm-memory:"), d'. split; [reflexivity|]. split; [exact F|].
  assert (Q : option_map loc (w_files (fst (w', inl (KC (InFile (z_ "/a")) (z_ "tpm-memory:")) : keychain + kerr)) (z_ "/a")) = Some []) by (rewrite <- E; vm_compute; reflexivity). cbn [fst] in Q. rewrite F in Q. cbn [option_map] in Q. injection Q as Q. intros S. apply stored_loc in S. rewrite Q in S. vm_compute in S. discriminate S.
Qed.
Theorem C97_guard_refuted : exists T, snd (new_ e_ "pib-sqlite3:/a" "tpm-memory:" true w1_) = inl (KC (InFile (z_ "/a")) (z_ "tpm-memory:")) /\
  ids_ w2_ (z_ "/a") = Some ([[]; z_ "tpm-memory:"], [enc i_]) /\ T <> "tpm-memory:" /\ snd (new_ e_ "pib-sqlite3:/a" T false w2_) = inl (KC (InFile (z_ "/a")) (z_ T)).
Proof. exists "tpm-file:/y". split; [vm_compute; reflexivity|]. split; [vm_compute; reflexivity|]. split; [discriminate|]. vm_compute. reflexivity. Qed.
(** KeyChain("", "tpm-memory:") uses the default PIB with another TPM, and the next KeyChain() erases the default PIB: nobody allowed a reset. *)
Definition w3_ : world := ev_run h_ [New0 e_ false; New e_ [] (Some (z_ "tpm-memory:")) false; Use h_ (AddIdentity i_)] w_.
Theorem C97_default_kept_refuted : snd (new_ e_ "" "tpm-memory:" false (ev_run h_ [New0 e_ false] w_)) = inl (KC (InFile h_) (z_ "tpm-memory:")) /\
  ids_ w3_ h_ = Some ([z_ "tpm-memory:"], [enc i_]) /\ snd (k_init0 h_ e_ false w3_) = inl (KC (InFile h_) (z_ "tpm-file:")) /\ ids_ (fst (k_init0 h_ e_ false w3_)) h_ = Some ([[]; z_ "tpm-file:"], []).
Proof. vm_compute. repeat split. Qed.
(** A wrong NDN_CLIENT_TPM: the first KeyChain("", "tpm-file:") raises and changes nothing; the second raises too, and has erased the default PIB. *)
Definition e4_ : env := Env None (Some (z_ "no")) [].
Definition w4_ : world := ev_run h_ [New0 e_ false; Use h_ (AddIdentity i_); Process] w_.
Theorem C97_bad_default_refuted : let (w5, r5) := new_ e4_ "" "tpm-file:" false w4_ in let (w6, r6) := new_ e4_ "" "tpm-file:" false w5 in
  ids_ w4_ h_ = Some ([z_ "tpm-file:"], [enc i_]) /\ r5 = inr NotSupported /\ ids_ w5 h_ = ids_ w4_ h_ /\ r6 = inr NotSupported /\ ids_ w6 h_ = Some ([[]], []).
Proof. vm_compute. repeat split. Qed.
(** A wrong NDN_CLIENT_PIB: the first KeyChain with locators raises, the same call again succeeds. *)
Theorem C97_same_again_refuted : let e := Env (Some (z_ "no")) None [] in let (w5, r5) := new_ e "pib-memory:" "tpm-memory:" false w_ in
  r5 = inr NotSupported /\ snd (new_ e "pib-memory:" "tpm-memory:" false w5) = inl (KC InMemory (z_ "tpm-memory:")).
Proof. vm_compute. repeat split. Qed.
Print Assumptions C97_config. Print Assumptions C97_locator. Print Assumptions C97_default. Print Assumptions C97_once. Print Assumptions C97_fixed. Print Assumptions C97_exact. Print Assumptions C97_never_lost. Print Assumptions C97_error.
Print Assumptions C97_recorded. Print Assumptions C97_history. Print Assumptions C97_default_history. Print Assumptions C97_crash. Print Assumptions C97_retry. Print Assumptions C97_version.
