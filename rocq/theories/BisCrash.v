(** * C98: the process ends between two transactions of a call *)
From Verif Require Import Base BaseLemmas NameModel NameSpec NameProofs UriModel UriSpec BisModel BisSpec BisProofs BisStep BisSim BisProps.

(** What the file can hold if the process ends in the call: the state after each commit.  addKey
    (basic_identity_storage.py 212-242) commits the identity (177) and then the key (241); addCertificate
    (332-369) those two and then the certificate (368); every other call has one commit. *)
Definition on_disk (c : call) (s : db) : list db :=
  match c with
  | AddKey k _ _ => match doesKeyExist k s with Ok false => [s; addIdentity (removelast k) s; fst (do_call c s)] | _ => [s] end
  | AddCertificate x =>
      match doesKeyExist (x_key x) s with
      | Ok false => [s; addIdentity (removelast (x_key x)) s; fst (addKey (x_key x) (x_type x) (x_der x) s); fst (do_call c s)]
      | _ => [s; fst (do_call c s)]
      end
  | _ => [s; fst (do_call c s)]
  end.

Lemma filter_twice : forall A (p : A -> bool) l, filter p (filter p l) = filter p l.
Proof. intros A p l. induction l as [|x l IH]; [reflexivity|]. cbn [filter]. destruct (p x) eqn:E; [|exact IH]. cbn [filter]. rewrite E, IH. reflexivity. Qed.
Lemma addId_twice : forall i s, addIdentity i (addIdentity i s) = addIdentity i s.
Proof.
  intros i s. unfold addIdentity at 2 3. destruct (doesIdentityExist i s) eqn:E; unfold addIdentity; [rewrite E; reflexivity|].
  assert (X : doesIdentityExist i (Db (ids s ++ [IdRow (uri i) false]) (keys s) (certs s)) = true); [|rewrite X; reflexivity].
  unfold doesIdentityExist. apply some_count. exists (IdRow (uri i) false). split; [apply in_snoc; auto|]. unfold is_id. cbn [i_name]. apply zlist_eqb_refl.
Qed.
Lemma key_same : forall k i s, doesKeyExist k (addIdentity i s) = doesKeyExist k s.
Proof. intros k i s. unfold addIdentity. destruct (doesIdentityExist i s); reflexivity. Qed.
Lemma key_after : forall k t x s, k <> [] -> doesKeyExist k (fst (addKey k t x s)) = Ok true.
Proof.
  intros k t x s N. unfold addKey. rewrite (split_ok k N). destruct (doesKeyExist k s) as [[|]|] eqn:E; [exact E| |unfold doesKeyExist in E; rewrite (split_ok k N) in E; discriminate E].
  cbv zeta. cbn [fst]. unfold doesKeyExist. rewrite (split_ok k N). cbn [rbind keys]. f_equal. apply some_count. eexists. split; [apply in_snoc; right; reflexivity|]. unfold is_key. cbn [k_identity k_id]. rewrite !zlist_eqb_refl. reflexivity.
Qed.
Lemma addKey_id : forall k t x s, k <> [] -> doesKeyExist k s = Ok false -> addKey k t x (addIdentity (removelast k) s) = addKey k t x s.
Proof. intros k t x s N E. unfold addKey. rewrite (split_ok k N), key_same, E, addId_twice. reflexivity. Qed.
Lemma addKey_again : forall k t x s, k <> [] -> addKey k t x (fst (addKey k t x s)) = (fst (addKey k t x s), Ok tt).
Proof. intros k t x s N. pose proof (key_after k t x s N) as E. unfold addKey at 1. rewrite (split_ok k N), E. reflexivity. Qed.
Lemma addKey_ok : forall k t x s, k <> [] -> snd (addKey k t x s) = Ok tt.
Proof. intros k t x s N. unfold addKey, doesKeyExist. rewrite (split_ok k N). cbn [rbind]. destruct (0 <? _); reflexivity. Qed.
Lemma addCert_alt : forall c s s', x_key c <> [] -> addKey (x_key c) (x_type c) (x_der c) s' = addKey (x_key c) (x_type c) (x_der c) s -> addCertificate c s' = addCertificate c s.
Proof. intros c s s' N E. unfold addCertificate. rewrite E. reflexivity. Qed.
Lemma addCert_again : forall c s, x_key c <> [] -> fst (addCertificate c (fst (addCertificate c s))) = fst (addCertificate c s).
Proof.
  intros c s N. pose proof (addKey_again (x_key c) (x_type c) (x_der c) s N) as A. pose proof (addKey_ok (x_key c) (x_type c) (x_der c) s N) as B. pose proof (key_after (x_key c) (x_type c) (x_der c) s N) as K.
  unfold addCertificate at 2 3. destruct (addKey (x_key c) (x_type c) (x_der c) s) as [s1 r]. cbn [fst snd] in *. subst r. destruct (doesCertificateExist (x_name c) s1) eqn:E.
  - cbn [fst]. unfold addCertificate. rewrite A. rewrite E. reflexivity.
  - rewrite (split_ok _ N). cbn [fst]. set (s2 := Db (ids s1) (keys s1) _). assert (K2 : doesKeyExist (x_key c) s2 = Ok true) by exact K. unfold addCertificate, addKey. rewrite (split_ok _ N), K2.
    assert (X : doesCertificateExist (x_name c) s2 = true); [|rewrite X; reflexivity]. unfold doesCertificateExist. apply some_count. eexists. split; [apply in_snoc; right; reflexivity|]. unfold is_cert. cbn [c_name]. apply zlist_eqb_refl.
Qed.
Lemma again : forall c s, proper c -> fst (do_call c (fst (do_call c s))) = fst (do_call c s).
Proof.
  intros c s P. destruct c as [i|k t x|c|k|n|i|i|k check|k n|k b]; cbn [do_call fst] in *.
  - apply addId_twice.
  - rewrite addKey_again by apply P. reflexivity.
  - apply addCert_again, (proj2 P).
  - unfold deletePublicKeyInfo. rewrite (split_ok k) by apply P. cbn [ids keys certs]. rewrite !filter_twice. reflexivity.
  - destruct n; cbn [deleteCertificateInfo ids keys certs]; [reflexivity|]. rewrite filter_twice. reflexivity.
  - unfold deleteIdentityInfo. cbn [ids keys certs]. rewrite !filter_twice. reflexivity.
  - unfold setDefaultIdentity, update. cbn [ids keys certs]. f_equal. rewrite !map_map. apply map_ext. intros [u d]. unfold is_id, i_set. cbn. destruct d, (zlist_eqb u (uri i)) eqn:E; cbn; rewrite ?E; cbn; rewrite ?E; reflexivity.
  - destruct P as [P _]. unfold setDefaultKeyNameForIdentity. rewrite (split_ok k) by apply P. destruct (match check with None => _ | Some i => _ end); [reflexivity|]. cbn [fst ids keys certs]. f_equal. unfold update. rewrite !map_map. apply map_ext. destruct (kid k) as [U V]. intros [u v t x d a]. unfold is_key, key_of_id, k_set. cbn [fst snd k_identity k_id k_type k_der k_default k_active].
    destruct (zlist_eqb u U) eqn:E1, (zlist_eqb v V) eqn:E2, d; repeat (cbn [andb fst snd k_identity k_id k_type k_der k_default k_active]; rewrite ?E1, ?E2); reflexivity.
  - destruct P as [P _]. unfold setDefaultCertificateNameForKey. rewrite (split_ok k) by apply P. cbn [fst ids keys certs]. f_equal. unfold update. rewrite !map_map. apply map_ext. destruct (kid k) as [U V]. generalize (uri n) as M. intros M [m u v x d]. unfold is_cert, cert_of_key, c_set. cbn [fst snd c_name c_identity c_keyid c_data c_default].
    destruct (zlist_eqb u U) eqn:E1, (zlist_eqb v V) eqn:E2, (zlist_eqb m M) eqn:E3, d; repeat (cbn [andb fst snd c_name c_identity c_keyid c_data c_default]; rewrite ?E1, ?E2, ?E3); reflexivity.
  - unfold updateKeyStatus. rewrite (split_ok k) by apply P. cbn [fst ids keys certs]. f_equal. unfold update. rewrite !map_map. apply map_ext. destruct (kid k) as [U V]. intros [u v t x d a]. unfold is_key, k_setActive. cbn [fst snd k_identity k_id k_type k_der k_default k_active].
    destruct (zlist_eqb u U) eqn:E1, (zlist_eqb v V) eqn:E2; repeat (cbn [andb fst snd k_identity k_id k_type k_der k_default k_active]; rewrite ?E1, ?E2); reflexivity.
Qed.
Lemma run_snoc : forall cs c, run (cs ++ [c]) = fst (do_call c (run cs)).
Proof. intros cs c. unfold run. rewrite fold_left_app. reflexivity. Qed.
(** The file holds what some history without a crash gives, so all theorems of C98 apply; and the same
    call again gives what it would have given *)
Theorem C98_crash : forall cs c s', Forall proper cs -> proper c -> In s' (on_disk c (run cs)) ->
  (exists cs', Forall proper cs' /\ s' = run (cs ++ cs')) /\ fst (do_call c s') = fst (do_call c (run cs)).
Proof.
  intros cs c s' P Pc I.
  assert (A0 : (exists cs', Forall proper cs' /\ run cs = run (cs ++ cs')) /\ fst (do_call c (run cs)) = fst (do_call c (run cs))) by (split; [exists []; rewrite app_nil_r; auto|reflexivity]).
  assert (A1 : (exists cs', Forall proper cs' /\ fst (do_call c (run cs)) = run (cs ++ cs')) /\ fst (do_call c (fst (do_call c (run cs)))) = fst (do_call c (run cs))) by (split; [exists [c]; rewrite run_snoc; auto|apply again; exact Pc]).
  assert (G : In s' [run cs; fst (do_call c (run cs))] -> (exists cs', Forall proper cs' /\ s' = run (cs ++ cs')) /\ fst (do_call c s') = fst (do_call c (run cs))) by (intros [<-|[<-|[]]]; assumption).
  destruct c as [i|k t x|c|k|n|i|i|k check|k n|k b]; cbn [on_disk] in I; try (apply G; exact I).
  - destruct (doesKeyExist k (run cs)) as [[|]|] eqn:E; [destruct I as [<-|[]]; exact A0| |destruct I as [<-|[]]; exact A0]. destruct I as [<-|[<-|[<-|[]]]]; [exact A0| |exact A1].
    split; [exists [AddIdentity (removelast k)]; rewrite run_snoc; split; [constructor; [apply plain_identity, Pc|constructor]|reflexivity]|]. cbn [do_call]. rewrite addKey_id; [reflexivity|apply Pc|exact E].
  - destruct (doesKeyExist (x_key c) (run cs)) as [[|]|] eqn:E; [apply G; exact I| |apply G; exact I]. destruct Pc as [Pn Pk]. destruct I as [<-|[<-|[<-|[<-|[]]]]]; [exact A0| | |exact A1].
    + split; [exists [AddIdentity (removelast (x_key c))]; rewrite run_snoc; split; [constructor; [apply plain_identity, Pk|constructor]|reflexivity]|]. cbn [do_call]. rewrite (addCert_alt c (run cs)); [reflexivity|apply Pk|]. apply addKey_id; [apply Pk|exact E].
    + split; [exists [AddKey (x_key c) (x_type c) (x_der c)]; rewrite run_snoc; split; [constructor; [exact Pk|constructor]|reflexivity]|]. cbn [do_call]. rewrite (addCert_alt c (run cs)); [reflexivity|apply Pk|]. rewrite addKey_again by apply Pk. rewrite <- (addKey_ok (x_key c) (x_type c) (x_der c) (run cs)) by apply Pk. symmetry. apply surjective_pairing.
Qed.
Example C98_crash_example :
  let c := AddCertificate (Cert [c_generic [97]; c_generic [7]] [c_generic [97]; c_generic [49]] 1 [1] [10]) in
  proper c /\ In (Db [IdRow [47; 97] false] [] []) (on_disk c (run [])) /\ length (on_disk c (run [])) = 4%nat.
Proof. cbv zeta. split; [cbn; repeat split; try discriminate; repeat (apply Forall_cons; [split; [apply bytes_okb_ok; reflexivity|left; split; reflexivity]|]); apply Forall_nil|]. vm_compute. auto. Qed.
Print Assumptions C98_crash.
