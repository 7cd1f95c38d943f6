(** * C98: deletion, what goes wrong, and examples *)
From Verif Require Import Base BaseLemmas NameModel NameSpec NameProofs UriModel UriSpec UriProofs UriProps SinfoProps BisModel BisSpec BisProofs BisStep BisSim BisProps.

(** A deleted identity leaves nothing behind, and a deleted key none of its certificates *)
Theorem C98_deleted : forall cs, Forall proper cs ->
  (forall i k, plain i -> plain (i ++ [k]) ->
     let s := run (cs ++ [DeleteIdentity i]) in
     doesIdentityExist i s = false /\ doesKeyExist (i ++ [k]) s = Ok false /\ getAllCertificateNamesOfKey (i ++ [k]) true s = Ok [] /\ getAllCertificateNamesOfKey (i ++ [k]) false s = Ok [] /\ getDefaultIdentity s <> Ok i) /\
  (forall k, key_like k ->
     let s := run (cs ++ [DeleteKey k]) in
     doesKeyExist k s = Ok false /\ getAllCertificateNamesOfKey k true s = Ok [] /\ getAllCertificateNamesOfKey k false s = Ok []).
Proof.
  intros cs P. split.
  - intros i k Pi Pk s. assert (P' : Forall proper (cs ++ [DeleteIdentity i])) by (apply Forall_app; auto). assert (Kk : key_like (i ++ [k])) by (split; [exact Pk|intros X; apply app_eq_nil in X; destruct X as [_ X]; discriminate X]).
    destruct (C98_exists _ P') as (E1 & E2 & _). destruct (C98_lists _ P') as (_ & L & _). destruct (C98_defaults _ P') as (D & _). fold s in E1, E2, L, D. unfold history in *. rewrite fold_left_app in *. cbn [fold_left meaning] in *. set (w := fold_left _ cs nothing) in *.
    split; [destruct (doesIdentityExist i s) eqn:E; [|reflexivity]; apply E1 in E; [|exact Pi]; destruct E as (d & N & _); contradiction|].
    split; [destruct (E2 _ Kk) as (b & -> & Hb); destruct b; [|reflexivity]; destruct (proj1 Hb eq_refl) as (t & x & d & a & N & _); exfalso; apply N, removelast_last|].
    assert (Z0 : forall d, getAllCertificateNamesOfKey (i ++ [k]) d s = Ok []).
    { intros d. destruct (L _ d Kk) as (l & -> & Hl). destruct l as [|n l]; [reflexivity|]. destruct (proj1 (Hl n) (or_introl eq_refl)) as (x & N & _). exfalso. apply N, removelast_last. }
    split; [apply Z0|]. split; [apply Z0|]. intros X. apply D in X. destruct X as [N _]. contradiction.
  - intros k Kk s. assert (P' : Forall proper (cs ++ [DeleteKey k])) by (apply Forall_app; auto). destruct (C98_exists _ P') as (_ & E2 & _). destruct (C98_lists _ P') as (_ & L & _). fold s in E2, L. unfold history in *. rewrite fold_left_app in *. cbn [fold_left meaning] in *. set (w := fold_left _ cs nothing) in *.
    split; [destruct (E2 _ Kk) as (b & -> & Hb); destruct b; [|reflexivity]; destruct (proj1 Hb eq_refl) as (t & x & d & a & N & _); contradiction|].
    assert (Z0 : forall d, getAllCertificateNamesOfKey k d s = Ok []).
    { intros d. destruct (L _ d Kk) as (l & -> & Hl). destruct l as [|n l]; [reflexivity|]. destruct (proj1 (Hl n) (or_introl eq_refl)) as (x & N & _). contradiction. }
    split; apply Z0.
Qed.

(** ** What goes wrong *)
Definition g (v : bytes) : comp := c_generic v.
Lemma plain_g : forall v, bytes_okb v = true -> plain_comp (g v).
Proof. intros v H. split; [apply bytes_okb_ok; exact H|left; split; reflexivity]. Qed.
Ltac plains := repeat (apply Forall_cons; [apply plain_g; reflexivity|]); apply Forall_nil.
Ltac klike := split; [plains|discriminate].

(** "a/k k": the default key's name comes back with its escape, "a/k%20k", which names no key *)
Definition n_a : name := [g [97]].
Definition n_key : name := [g [97]; g [107; 32; 107]].
Definition n_bad : name := [g [97]; g [107; 37; 50; 48; 107]].
Theorem C98_escaped_key_refuted :
  exists cs, Forall proper cs /\ getKey n_key (run cs) = Ok [1; 2] /\
    getDefaultKeyNameForIdentity n_a (run cs) = Ok n_bad /\ n_bad <> n_key /\ getKey n_bad (run cs) = Err SecurityException /\ In n_bad (getAllKeyNamesOfIdentity n_a true (run cs)).
Proof.
  exists [AddKey n_key 1 [1; 2]; SetDefaultKey n_key None]. split; [apply Forall_cons; [klike|apply Forall_cons; [split; [klike|exact Logic.I]|apply Forall_nil]]|]. split; [vm_compute; reflexivity|]. split; [vm_compute; reflexivity|]. split; [discriminate|]. split; [vm_compute; reflexivity|]. vm_compute. auto.
Qed.
(** Choosing an identity, key or certificate that does not exist raises nothing, and loses the default *)
Theorem C98_absent_default_refuted :
  exists cs i, Forall proper cs /\ proper (SetDefaultIdentity i) /\ getDefaultIdentity (run cs) = Ok n_a /\
    snd (do_call (SetDefaultIdentity i) (run cs)) = Ok tt /\ getDefaultIdentity (run (cs ++ [SetDefaultIdentity i])) = Err SecurityException.
Proof.
  exists [AddIdentity n_a; SetDefaultIdentity n_a], [g [98]]. split; [repeat (apply Forall_cons; [cbn; plains|]); apply Forall_nil|]. split; [cbn; plains|]. split; [vm_compute; reflexivity|]. split; [reflexivity|]. vm_compute. reflexivity.
Qed.

(** ** Examples *)
Definition k1 : name := [g [97]; g [49]].
Definition k2 : name := [g [97]; g [50]].
Definition n_1 : name := [g [97]; g [75]; g [49]; g [73]; g [7]].
Definition cs0 : list call :=
  [AddCertificate (Cert n_1 k1 1 [1] [10]); AddKey k2 2 [2]; AddKey k2 1 [3]; SetDefaultIdentity n_a; SetDefaultKey k2 (Some n_a); SetDefaultKey k1 (Some []); SetDefaultCertificate k1 n_1; SetActive k1 true; SetDefaultKey k2 (Some k1)].
Lemma cs0_proper : Forall proper cs0.
Proof. repeat (apply Forall_cons; [cbn; repeat split; try plains; try discriminate|]); apply Forall_nil. Qed.
Example C98_exists_example : doesIdentityExist n_a (run cs0) = true /\ has_id (history cs0) n_a /\ doesKeyExist k2 (run cs0) = Ok true /\ doesCertificateExist n_1 (run cs0) = true /\ doesCertificateExist k1 (run cs0) = false.
Proof. split; [vm_compute; reflexivity|]. split; [apply (C98_exists cs0 cs0_proper); [plains|vm_compute; reflexivity]|]. vm_compute. auto. Qed.
Example C98_get_example : getKey k2 (run cs0) = Ok [2] /\ (exists t d a, w_key (history cs0) k2 t [2] d a) /\ getCertificate n_1 (run cs0) = Ok [10].
Proof. split; [vm_compute; reflexivity|]. split; [apply (C98_get cs0 cs0_proper); [klike|vm_compute; reflexivity]|]. vm_compute. reflexivity. Qed.
Example C98_defaults_example : getDefaultIdentity (run cs0) = Ok n_a /\ getDefaultKeyNameForIdentity n_a (run cs0) = Ok k1 /\ getDefaultCertificateNameForKey k1 (run cs0) = Ok n_1 /\ getDefaultCertificateNameForKey k2 (run cs0) = Err SecurityException /\ w_id (history cs0) n_a true.
Proof. do 4 (split; [vm_compute; reflexivity|]). apply (C98_defaults cs0 cs0_proper). vm_compute. reflexivity. Qed.
Example C98_default_key_example : (exists t x a, w_key (history cs0) (n_a ++ [c_generic [49]]) t x true a) /\ c_toEscapedString (c_generic [49]) = [49].
Proof.
  split; [|reflexivity]. assert (H : getDefaultKeyNameForIdentity n_a (run cs0) = Ok k1) by (vm_compute; reflexivity). apply (C98_defaults cs0 cs0_proper) in H; [|plains]. destruct H as (c & t & x & a & A & E).
  assert (K : In k1 (getAllKeyNamesOfIdentity n_a true (run cs0))) by (vm_compute; auto).
  destruct (held cs0 cs0_proper) as [_ W]. pose proof (s_key _ W _ _ _ _ _ A) as [Pk _]. assert (X : n_a ++ [c] = n_a ++ [c_generic [49]]); [|rewrite X in A; eauto]. f_equal. f_equal.
  assert (Y : uri (n_a ++ [c]) = uri (n_a ++ [c_generic [49]])). { rewrite !uri_last. f_equal. f_equal. injection E as E. rewrite <- E. reflexivity. }
  apply u_inj in Y; [|exact Pk|plains]. apply app_inj_tail in Y. apply Y.
Qed.
Example C98_lists_example : getAllIdentities true (run cs0) = Ok [n_a] /\ getAllIdentities false (run cs0) = Ok [] /\ getAllKeyNamesOfIdentity n_a false (run cs0) = [k2] /\ getAllCertificateNamesOfKey k1 true (run cs0) = Ok [n_1].
Proof. vm_compute. auto. Qed.
Example C98_integrity_example : doesKeyExist k1 (run cs0) = Ok true /\ doesIdentityExist (removelast k1) (run cs0) = true.
Proof. vm_compute. auto. Qed.
Example C98_raises_example : snd (do_call (SetDefaultKey k2 (Some k1)) (run cs0)) = Err SecurityException /\ snd (do_call (SetDefaultKey k2 (Some n_a)) (run cs0)) = Ok tt.
Proof. vm_compute. auto. Qed.
Example C98_first_stays_example : getKey k2 (run (cs0 ++ [AddKey k2 1 [9]])) = Ok [2].
Proof. apply (C98_first_stays cs0 cs0_proper); [klike|vm_compute; reflexivity]. Qed.
Example C98_deleted_example : doesKeyExist k1 (run cs0) = Ok true /\ doesKeyExist k1 (run (cs0 ++ [DeleteIdentity n_a])) = Ok false /\ doesCertificateExist n_1 (run (cs0 ++ [DeleteKey k1])) = false.
Proof. vm_compute. auto. Qed.

Print Assumptions C98_exists.
Print Assumptions C98_get.
Print Assumptions C98_defaults.
Print Assumptions C98_default_key.
Print Assumptions C98_lists.
Print Assumptions C98_integrity.
Print Assumptions C98_raises.
Print Assumptions C98_first_stays.
Print Assumptions C98_deleted.
Print Assumptions C98_escaped_key_refuted.
Print Assumptions C98_absent_default_refuted.
