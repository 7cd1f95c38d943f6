(** * Proofs about the group manager: the key pairs and the packets. *)
From Verif Require Import Base BaseLemmas NameModel NameSpec NameProofs NameProps DictModel DictProofs CertModel CertSpec CertProofs TlvSpec TlvProofs TlvDecProofs WireModel WireSpec WireProofs WireProofs5 WireProps BlobModel CalModel CalSpec CalProofs CalProps SchedModel SchedSpec SchedProps SchedWireProps CtlModel CtlSpec CtlProofs CtlProps EncrModel GmModel GmSpec GmProofs GmProofs2.
From Coq Require Import Permutation Sorted.

Notation Dom := (dom (V := bytes) fits).

(** ** Sorting *)
Lemma insert_perm : forall x l, Permutation (n_insert x l) (x :: l).
Proof. intros x. induction l as [|y l IH]; [reflexivity|]. cbn [n_insert]. destruct (n_ltb x y); [reflexivity|]. rewrite IH. apply perm_swap. Qed.
Lemma sorted_perm : forall l, Permutation (n_sorted l) l.
Proof. unfold n_sorted. induction l as [|x l IH]; [reflexivity|]. cbn [fold_right]. rewrite insert_perm, IH. reflexivity. Qed.
Definition nlt (x y : name) : Prop := name_lt (n_key x) (n_key y).
Lemma insert_sorted : forall x l, StronglySorted nlt l -> (forall y, In y l -> n_key y <> n_key x) -> StronglySorted nlt (n_insert x l).
Proof.
  intros x. destruct C09_total_order as (_ & Tr & To). induction l as [|y l IH]; intros S N; cbn [n_insert]; [constructor; constructor|]. inversion S as [|? ? S1 S2]; subst.
  destruct (n_ltb x y) eqn:E.
  - apply n_ltb_iff in E. constructor; [exact S|]. constructor; [exact E|]. eapply Forall_impl; [|exact S2]. intros z Hz. exact (Tr _ _ _ E Hz).
  - constructor; [apply IH; [exact S1|]; intros z Hz; apply N; right; exact Hz|]. apply Forall_forall. intros z Hz. apply (Permutation_in _ (insert_perm x l)) in Hz. destruct Hz as [<-|Hz].
    + destruct (To x y) as [H|[H|H]]; [apply n_ltb_iff in H; congruence|elim (N y (or_introl eq_refl)); congruence|exact H].
    + rewrite Forall_forall in S2. apply S2. exact Hz.
Qed.
Lemma fits_key_inj : forall a b, fits a -> fits b -> n_key a = n_key b -> a = b.
Proof. intros a b [A _] [B _]. apply n_valid_key_inj; apply name_valid; assumption. Qed.
Lemma sorted_ok : forall l, NoDup l -> Forall fits l -> StronglySorted nlt (n_sorted l).
Proof.
  induction l as [|x l IH]; intros N F; [constructor|]. inversion N as [|? ? N1 N2]; subst. inversion F as [|? ? F1 F2]; subst. unfold n_sorted. cbn [fold_right]. apply insert_sorted; [apply IH; assumption|].
  intros y Hy E. apply (Permutation_in _ (sorted_perm l)) in Hy. rewrite Forall_forall in F2. apply fits_key_inj in E; [subst; contradiction|apply F2; exact Hy|exact F1].
Qed.

(** ** Encryption *)
Lemma encode_ec : forall e a, kl_ok (ec_keyLocator e) -> ec_algorithm e = Some a -> u64 a -> encodeEncryptedContent e = Ok (ec_bytes e).
Proof.
  intros e a K Ea U. unfold ec_bytes. rewrite Ea. cbn [opt_nn app].
  unfold encodeEncryptedContent. rewrite Ea. rewrite blob_els by lia. rewrite opt_blob_els by lia. rewrite e_nnTlv_tlv by (unfold u64 in U; lia). cbn [rbind].
  rewrite enc_kl_ok by (assumption || lia). cbn [rbind]. f_equal. rewrite app_nil_r.
  set (b := elems [kl_el 28 (ec_keyLocator e)] ++ tlv 131 (nonneg a) ++ elems (opt_el 133 (blob_opt (ec_iv e))) ++ elems [(132, blob_bytes (ec_payload e))]).
  pose proof (e_TL_tlv 130 b [] ltac:(lia)) as Q. rewrite !app_nil_r in Q. rewrite Q. f_equal. unfold b.
  rewrite (elems_one' (kl_el 28 _)), (elems_cons' (kl_el 28 _)), (elems_cons 131), elems_app. reflexivity.
Qed.
Lemma nonce_name_ok : forall n, name_ok n -> name_ok (n ++ [N_nonce]).
Proof. intros n H. unfold name_ok. apply Forall_app. split; [exact H|]. constructor; [|constructor]. apply gen_ok. reflexivity. Qed.

Section Enc.
Variable rsa_enc : bytes -> bytes -> Z -> Z -> rsa_out.
Variable aes_enc : bytes -> bytes -> Z -> bytes -> res bytes.
Lemma encrypt_ok : forall payload kn key alg r, name_ok kn -> alg = 2 \/ alg = 3 ->
  match encryptContent rsa_enc aes_enc payload kn key alg None r with
  | Ok c => sealed_for rsa_enc aes_enc key kn alg r payload c
  | Err e => seal_error rsa_enc aes_enc key alg r payload e
  end.
Proof.
  intros payload kn key alg r Hk Ha. unfold encryptContent.
  assert (A : (alg =? ALG_AES_CBC) || (alg =? ALG_AES_ECB) = false) by (unfold ALG_AES_CBC, ALG_AES_ECB; lia). rewrite A.
  assert (A' : (alg =? ALG_RSA_PKCS) || (alg =? ALG_RSA_OAEP) = true) by (unfold ALG_RSA_PKCS, ALG_RSA_OAEP; lia). rewrite A'.
  assert (U : u64 alg) by (unfold u64; lia).
  assert (Ea : forall c, encodeEncryptedContent (asymContent alg kn c) = Ok (ec_bytes (EC (Some alg) (KL (Some 1) kn None) None (Some c) None))).
  { intros c. apply (encode_ec _ alg); [|reflexivity|exact U]. left. auto. }
  unfold sealed_for, seal_error, rsa_part, aes_part. destruct (rsa_enc key payload alg (r_pad1 r)) as [c| |e] eqn:E1.
  - rewrite Ea. left. exists c. auto.
  - unfold encryptSymmetric. change ((ALG_AES_CBC =? ALG_AES_CBC) || (ALG_AES_CBC =? ALG_AES_ECB)) with true. cbv iota. change (ALG_AES_CBC =? ALG_AES_CBC) with true. cbn [andb].
    destruct (Z.eqb_spec (zlen (r_iv r)) 16) as [L|L]; cbn [negb rbind]; [|right; split; [reflexivity|left; exact L]].
    change ALG_AES_CBC with 1. destruct (aes_enc (r_nonce r) payload 1 (r_iv r)) as [c2|e] eqn:E2; cbn [rbind]; [|right; split; [reflexivity|auto]].
    destruct (rsa_enc key (r_nonce r) alg (r_pad2 r)) as [c1| |e] eqn:E3; cbn [rbind]; [|right; split; [reflexivity|]; auto|right; split; [reflexivity|auto]].
    rewrite (encode_ec _ 1); [|left; split; [reflexivity|apply nonce_name_ok; exact Hk]|reflexivity|unfold u64; lia]. cbn [rbind]. rewrite Ea. cbn [rbind].
    right. split; [reflexivity|]. eexists _, _. split; [exists c1; split; reflexivity|]. split; [|reflexivity]. split; [exact L|]. exists c2. split; reflexivity.
  - left. reflexivity.
Qed.

(** ** The D-KEYs *)
Variables prefix dataType : name.
Variable hours : Z.
Definition dkey_base (a b : comp) : name := (namespace prefix dataType ++ [N_D_KEY]) ++ [a] ++ [b].
Lemma dkeys_ok : forall a b keys priv rs, Dom keys -> forall names, Forall fits names -> (forall n, In n names -> exists k, dget n_equals keys n = Some k) ->
  match createDKeys rsa_enc aes_enc prefix dataType hours a b names keys priv rs with
  | Ok ps => Forall2 (fun n p => exists k, dget n_equals keys n = Some k /\ p_name p = dkey_base a b ++ [N_FOR] ++ n /\ p_fresh p = hours * 3600000 /\ sealed_for rsa_enc aes_enc k n 3 (rs n) priv (p_content p)) names ps
  | Err e => exists n k, In n names /\ dget n_equals keys n = Some k /\ seal_error rsa_enc aes_enc k 3 (rs n) priv e
  end.
Proof.
  intros a b keys priv rs DK. induction names as [|n names IH]; intros F H; cbn [createDKeys]; [constructor|]. inversion F as [|? ? F1 F2]; subst.
  destruct (H n (or_introl eq_refl)) as (k & Ek). unfold dindex. rewrite Ek. cbn [rbind]. unfold createDKeyData. change ALG_RSA_OAEP with 3.
  pose proof (encrypt_ok priv n k 3 (rs n) (proj1 F1) (or_intror eq_refl)) as E. destruct (encryptContent rsa_enc aes_enc priv n k 3 None (rs n)) as [c|e]; cbn [rbind].
  2: { exists n, k. split; [left; reflexivity|auto]. }
  specialize (IH F2 (fun n' Hn => H n' (or_intror Hn))). destruct (createDKeys _ _ _ _ _ _ _ names keys priv rs) as [ps|e]; cbn [rbind].
  - constructor; [|exact IH]. exists k. split; [exact Ek|]. cbn [p_name p_fresh p_content]. split; [reflexivity|]. split; [reflexivity|exact E].
  - destruct IH as (n' & k' & I & X). exists n', k'. split; [right; exact I|exact X].
Qed.
End Enc.

(** ** The E-KEY name *)
Lemma iso_ok : forall us t, slot_range us -> dateOnly us <= t <= dateOnly us + DAY -> (HOUR | t) -> exists str, toIsoString t = Ok str /\ fromIsoString str = Ok t /\ comp_of_str str = Ok (c_generic str) /\ zlen str = 15 /\ bytes_ok str.
Proof.
  intros us t [S1 S2] [B1 B2] [k ->].
  assert (M : k * HOUR mod 1000 = 0) by (unfold HOUR; replace (k * (3600 * 1000)) with (k * 3600 * 1000) by lia; apply Z.mod_mul; lia).
  assert (R : iso_range (k * HOUR / 1000)).
  { assert (D : us / 1000 - DAY <= dateOnly us <= us / 1000 + 1).
    { unfold dateOnly. pose proof (round_cases us) as [[-> _]|[-> _]]; unfold DAY; Z.div_mod_to_equations; lia. }
    unfold iso_range, HOUR, DAY, year_1000, year_10000 in *. clear M. Z.div_mod_to_equations. lia. }
  destruct (date_text _ R M) as (str & A & B & C & D & E & F). exists str. split; [exact A|]. split; [exact B|]. unfold comp_of_str. unfold blob_of_str in C. destruct (utf8_encode str) as [u|]; [|discriminate C]. cbn [rbind] in *. injection C as ->. auto.
Qed.
Definition space_ok (prefix dataType : name) : Prop := name_ok prefix /\ name_ok dataType /\ zlen (encodeName (prefix ++ dataType)) < 2 ^ 63.
Lemma ekey_fits : forall p t a b, space_ok p t -> bytes_ok a -> bytes_ok b -> zlen a = 15 -> zlen b = 15 -> fits (eKeyName p t (c_generic a) (c_generic b)).
Proof.
  intros p t a b (P & T & L) Ba Bb La Lb. unfold eKeyName, namespace.
  assert (G : forall v, bytes_ok v -> comp_ok (c_generic v)). { intros v H. apply gen_ok. apply bytes_okb_ok. exact H. }
  assert (N : name_ok (((p ++ [N_READ] ++ t) ++ [N_E_KEY]) ++ [c_generic a] ++ [c_generic b])).
  { unfold name_ok in *. assert (One : forall c, comp_ok c -> Forall comp_ok [c]) by (intros c H; constructor; [exact H|constructor]).
    rewrite !Forall_app. split; [split; [split; [exact P|split; [apply One, gen_ok; reflexivity|exact T]]|apply One, gen_ok; reflexivity]|split; apply One, G; assumption]. }
  split; [exact N|]. unfold encodeName in *.
  rewrite enc_name_ok by exact N. rewrite enc_name_ok in L by (unfold name_ok in *; rewrite Forall_app; auto). cbn [fst] in *. rewrite app_nil_r in *. rewrite elems_one' in *. unfold name_el in *. cbn [fst snd] in *.
  rewrite !map_app, !elems_app in *. rewrite !tlv_len in *. unfold hdr in *. rewrite !zlen_app in *. 
  set (x := zlen (elems (map comp_el p))) in *. set (y := zlen (elems (map comp_el t))) in *.
  assert (X1 : zlen (elems (map comp_el [N_READ])) = 6) by reflexivity. assert (X2 : zlen (elems (map comp_el [N_E_KEY])) = 7) by reflexivity.
  assert (X3 : forall v, zlen v = 15 -> zlen (elems (map comp_el [c_generic v])) = 17).
  { intros v Hv. cbn [map]. change (comp_el (c_generic v)) with (8, v). rewrite elems_one, tlv_len. unfold hdr. rewrite Hv. reflexivity. }
  rewrite X1, X2, !X3 by assumption. assert (0 <= x) by apply zlen_nonneg. assert (0 <= y) by apply zlen_nonneg.
  rewrite !varnum_len in * by lia. clear - L H H0. repeat match goal with |- context [if ?c then _ else _] => destruct c end; repeat match type of L with context [if ?c then _ else _] => destruct c end; lia.
Qed.

(** ** The key pairs *)
Section Pairs.
Variable generate : Z -> Z -> res bytes.
Variable derive : bytes -> res bytes.
Variable keySize : Z.
Record Keep (d : db) : Prop := MkKeep {
  k_rows : NoDup (map fst (db_ekeys d));
  k_fits : forall r, In r (db_ekeys d) -> exists n, fits n /\ fst r = encodeName n;
  k_dom : Dom (db_base d);
  k_uniq : uniq (db_base d);
  k_pair : forall n priv, fits n -> dget n_equals (db_base d) n = Some priv -> exists pub, In (encodeName n, pub) (db_ekeys d) /\ derive priv = Ok pub }.
(** every E-KEY of the database has its private key *)
Definition full (d : db) : Prop := forall n pub, fits n -> In (encodeName n, pub) (db_ekeys d) -> exists priv, dget n_equals (db_base d) n = Some priv.

Lemma e_is_iff : forall n r, e_is n r = true <-> fst r = encodeName n.
Proof. intros. apply zlist_eqb_eq. Qed.
Lemma find_row : forall d n pub, Keep d -> In (encodeName n, pub) (db_ekeys d) -> find (e_is n) (db_ekeys d) = Some (encodeName n, pub).
Proof.
  intros d n pub K I. destruct (find (e_is n) (db_ekeys d)) as [r|] eqn:F.
  - apply find_some in F. destruct F as [I' E]. apply e_is_iff in E. f_equal. apply (nodup_inj _ _ fst (db_ekeys d)); [apply K|assumption|assumption|exact E].
  - rewrite find_none_iff in F. specialize (F _ I). assert (e_is n (encodeName n, pub) = true) by (apply e_is_iff; reflexivity). congruence.
Qed.
Lemma hasE_iff : forall d n, hasEKey d n = true <-> exists pub, In (encodeName n, pub) (db_ekeys d).
Proof.
  intros d n. unfold hasEKey. rewrite existsb_exists. split.
  - intros ([x pub] & I & E). apply e_is_iff in E. cbn [fst] in E. subst x. exists pub. exact I.
  - intros (pub & I). exists (encodeName n, pub). split; [exact I|apply e_is_iff; reflexivity].
Qed.
Lemma pair_iff : forall d n pub priv, Keep d -> fits n -> (pair_of d n = Some (pub, priv) <-> In (encodeName n, pub) (db_ekeys d) /\ dget n_equals (db_base d) n = Some priv).
Proof.
  intros d n pub priv K Fn. unfold pair_of, getEKey. split.
  - destruct (find (e_is n) (db_ekeys d)) as [[x p]|] eqn:F; [|discriminate]. apply find_some in F. destruct F as [I E]. apply e_is_iff in E. cbn [fst] in E. subst x. unfold dindex.
    destruct (dget n_equals (db_base d) n) as [v|]; [|discriminate]. cbn [rbind snd]. intros [= -> ->]. auto.
  - intros [I E]. rewrite (find_row d n pub K I). unfold dindex. rewrite E. reflexivity.
Qed.
Lemma pair_none : forall d n, pair_of d n = None <-> hasEKey d n = false \/ dget n_equals (db_base d) n = None.
Proof.
  intros d n. unfold pair_of, getEKey, hasEKey, dindex. destruct (find (e_is n) (db_ekeys d)) as [r|] eqn:F.
  - apply find_some in F. destruct F as [I E]. assert (X : existsb (e_is n) (db_ekeys d) = true) by (apply existsb_exists; exists r; auto). rewrite X. destruct (dget n_equals (db_base d) n); cbn [rbind]; split; try discriminate; auto. intros [H|H]; discriminate H.
  - assert (X : existsb (e_is n) (db_ekeys d) = false). { rewrite find_none_iff in F. destruct (existsb _ _) eqn:Ex; [|reflexivity]. apply existsb_exists in Ex. destruct Ex as (r & I & E). rewrite (F r I) in E. discriminate E. } rewrite X. split; auto.
Qed.

Lemma add_ok : forall d n pub priv, Keep d -> fits n -> hasEKey d n = false -> derive priv = Ok pub -> exists d', addEKey d n pub priv = Ok d' /\
  same_tables d d' /\ Keep d' /\ (full d -> full d') /\ pair_of d' n = Some (pub, priv) /\ forall m, fits m -> m <> n -> pair_of d' m = pair_of d m.
Proof.
  intros d n pub priv K Fn H De. unfold addEKey. rewrite H. eexists. split; [reflexivity|]. split; [split; reflexivity|]. set (d' := Db _ _ _ _). pose proof K as [K1 Kf K2 K3 K4].
  assert (Nr : forall r, In r (db_ekeys d) -> fst r <> encodeName n).
  { intros [x p] I E. cbn [fst] in E. subst x. assert (hasEKey d n = true) by (apply hasE_iff; exists p; exact I). congruence. }
  assert (G : forall x, fits x -> dget n_equals (db_base d') x = if n_equals n x then Some priv else dget n_equals (db_base d) x) by (intros x Fx; apply (dset_get _ _ neq_eq); assumption).
  assert (K' : Keep d').
  { split; cbn [d' db_ekeys db_base].
    - apply nodup_snoc; [exact K1|]. exact Nr.
    - intros r I. apply in_app_iff in I. destruct I as [I|[<-|[]]]; [apply Kf; exact I|exists n; auto].
    - apply dset_dom; assumption.
    - apply (dset_uniq _ _ neq_eq); assumption.
    - intros m pv Fm. specialize (G m Fm). cbn [d' db_base] in G. rewrite G. destruct (eqb_case _ _ neq_eq n m Fn Fm) as [[<- E]|[Ne E]]; rewrite E.
      + intros [= <-]. exists pub. split; [apply in_app_iff; right; left; reflexivity|exact De].
      + intros X. destruct (K4 m pv Fm X) as (pb & I & Y). exists pb. split; [apply in_app_iff; left; exact I|exact Y]. }
  split; [exact K'|]. split; [|split].
  - intros Fu m pb Fm I. rewrite (G m Fm). destruct (eqb_case _ _ neq_eq n m Fn Fm) as [[<- E]|[Ne E]]; rewrite E; [eauto|]. cbn [d' db_ekeys] in I. apply in_app_iff in I. destruct I as [I|[I|[]]]; [apply (Fu m pb Fm I)|]. injection I as I _. apply enc_inj in I; [contradiction|assumption|assumption].
  - apply pair_iff; [exact K'|exact Fn|]. split; [cbn [d' db_ekeys]; apply in_app_iff; right; left; reflexivity|]. rewrite (G n Fn). rewrite (eqb_refl_ _ _ neq_eq) by exact Fn. reflexivity.
  - intros m Fm Ne. unfold pair_of, getEKey, dindex. rewrite (G m Fm). rewrite (eqb_neq _ _ neq_eq n m Fn Fm) by congruence.
    assert (X : find (e_is m) (db_ekeys d') = find (e_is m) (db_ekeys d)).
    { cbn [d' db_ekeys]. assert (Z : e_is m (encodeName n, pub) = false) by (destruct (e_is m (encodeName n, pub)) eqn:E; [apply e_is_iff in E; cbn [fst] in E; apply enc_inj in E; [congruence|assumption|assumption]|reflexivity]).
      clear -Z. induction (db_ekeys d) as [|r l IH]; cbn [app find]; [rewrite Z; reflexivity|]. destruct (e_is m r); [reflexivity|exact IH]. }
    rewrite X. reflexivity.
Qed.
Lemma del_ok : forall d n, Keep d -> fits n -> hasEKey d n = true ->
  let '(d', r) := deleteEKey d n in
  same_tables d d' /\ Keep d' /\ (full d -> full d') /\ hasEKey d' n = false /\ (forall m, fits m -> m <> n -> pair_of d' m = pair_of d m) /\
  match dget n_equals (db_base d) n with Some _ => r = Ok tt | None => r = Err KeyError end.
Proof.
  intros d n K Fn H. unfold deleteEKey, ddel, din. pose proof K as [K1 Kf K2 K3 K4]. set (rows := filter _ _).
  assert (Rw : forall r, In r rows <-> In r (db_ekeys d) /\ fst r <> encodeName n).
  { intros r. unfold rows. rewrite filter_In. split; intros [I E]; (split; [exact I|]); destruct (e_is n r) eqn:X; cbn [negb] in *; try discriminate E; try reflexivity.
    - intros Y. apply e_is_iff in Y. congruence. - apply e_is_iff in X. contradiction. }
  assert (Fo : forall m, fits m -> m <> n -> find (e_is m) rows = find (e_is m) (db_ekeys d)).
  { intros m Fm Ne. unfold rows. clear - Fn Fm Ne. induction (db_ekeys d) as [|r l IH]; [reflexivity|]. cbn [filter find]. destruct (e_is n r) eqn:E1; cbn [negb find]; destruct (e_is m r) eqn:E2; try rewrite IH; try reflexivity.
    apply e_is_iff in E1, E2. rewrite E1 in E2. apply enc_inj in E2; [congruence|assumption|assumption]. }
  assert (Hn : forall b, hasEKey (Db (db_sched d) (db_mem d) rows b) n = false).
  { intros b. destruct (hasEKey (Db (db_sched d) (db_mem d) rows b) n) eqn:E; [|reflexivity]. apply hasE_iff in E. destruct E as (pb & I). cbn [db_ekeys] in I. apply Rw in I. destruct I as [_ I]. elim I. reflexivity. }
  destruct (dget n_equals (db_base d) n) as [pv|] eqn:Eg.
  - assert (G : forall x, fits x -> dget n_equals (dremove n_equals (db_base d) n) x = if n_equals n x then None else dget n_equals (db_base d) x) by (intros x Fx; apply (dremove_get _ _ neq_eq); assumption).
    split; [split; reflexivity|]. split; [|split; [|split; [apply Hn|split; [|reflexivity]]]].
    + split; cbn [db_ekeys db_base].
      * apply nodup_filter. exact K1.
      * intros r I. apply Rw in I. apply Kf. apply I.
      * apply dremove_dom. exact K2. * apply dremove_uniq. exact K3.
      * intros m p Fm. rewrite (G m Fm). destruct (eqb_case _ _ neq_eq n m Fn Fm) as [[<- E]|[Ne E]]; rewrite E; [discriminate|]. intros X. destruct (K4 m p Fm X) as (pb & I & Y). exists pb. split; [|exact Y]. apply Rw. split; [exact I|]. cbn [fst]. intros Z. apply enc_inj in Z; [congruence|assumption|assumption].
    + intros Fu m pb Fm I. cbn [db_ekeys db_base] in *. apply Rw in I. destruct I as [I Ne]. rewrite (G m Fm). cbn [fst] in Ne. rewrite (eqb_neq _ _ neq_eq n m Fn Fm) by congruence. apply (Fu m pb Fm I).
    + intros m Fm Ne. unfold pair_of, getEKey, dindex. cbn [db_ekeys db_base]. rewrite (Fo m Fm Ne), (G m Fm). rewrite (eqb_neq _ _ neq_eq n m Fn Fm) by congruence. reflexivity.
  - split; [split; reflexivity|]. split; [|split; [|split; [apply Hn|split; [|reflexivity]]]].
    + split; cbn [db_ekeys db_base]; try assumption.
      * apply nodup_filter. exact K1.
      * intros r I. apply Rw in I. apply Kf. apply I.
      * intros m p Fm X. destruct (K4 m p Fm X) as (pb & I & Y). exists pb. split; [|exact Y]. apply Rw. split; [exact I|]. cbn [fst]. intros Z. apply enc_inj in Z; [congruence|assumption|assumption].
    + intros Fu m pb Fm I. cbn [db_ekeys db_base] in *. apply Rw in I. apply (Fu m pb Fm). apply I.
    + intros m Fm Ne. unfold pair_of, getEKey, dindex. cbn [db_ekeys db_base]. rewrite (Fo m Fm Ne). reflexivity.
Qed.

(** generating raises this *)
Definition gen_error (seed : Z) (e : exn) : Prop := generate keySize seed = Err e \/ exists priv, generate keySize seed = Ok priv /\ derive priv = Err e.
Lemma take_ok : forall d n need seed, Keep d -> fits n ->
  let '(d', r) := takePair generate derive keySize d n need seed in
  same_tables d d' /\ Keep d' /\ (full d -> full d') /\ (forall m, fits m -> m <> n -> pair_of d' m = pair_of d m) /\
  match r with
  | Ok (pub, priv) => derive priv = Ok pub /\ pair_of d' n = Some (pub, priv) /\
      (if need then generate keySize seed = Ok priv else match pair_of d n with Some p => p = (pub, priv) /\ d' = d | None => generate keySize seed = Ok priv /\ hasEKey d n = false end)
  | Err e => gen_error seed e \/ e = KeyError /\ hasEKey d n = true /\ dget n_equals (db_base d) n = None
  end.
Proof.
  intros d n need seed K Fn. unfold takePair. destruct (negb need && hasEKey d n) eqn:E.
  - apply andb_true_iff in E. destruct E as [En Eh]. destruct need; [discriminate En|]. split; [split; reflexivity|]. split; [exact K|]. split; [auto|]. split; [auto|].
    destruct (getEKey d n) as [[pub priv]|e] eqn:Eg.
    + assert (P : pair_of d n = Some (pub, priv)) by (unfold pair_of; rewrite Eg; reflexivity). pose proof P as P0. apply pair_iff in P; [|exact K|exact Fn]. destruct P as [I G]. destruct (k_pair d K n priv Fn G) as (pb & I' & De).
      assert (X : (encodeName n, pub) = (encodeName n, pb)) by (apply (nodup_inj _ _ fst (db_ekeys d)); [apply K|assumption|assumption|reflexivity]). injection X as <-.
      split; [exact De|]. split; [exact P0|]. rewrite P0. auto.
    + right. unfold getEKey, dindex in Eg. apply hasE_iff in Eh. destruct Eh as (pb & I). rewrite (find_row d n pb K I) in Eg. destruct (dget n_equals (db_base d) n); cbn [rbind] in Eg; [discriminate Eg|]. injection Eg as <-. split; [reflexivity|]. split; [apply hasE_iff; eauto|reflexivity].
  - unfold generateKeyPair. destruct (generate keySize seed) as [priv|e] eqn:Eg; cbn [rbind]; [|split; [split; reflexivity|]; split; [exact K|]; split; [auto|]; split; [auto|]; left; left; exact Eg].
    destruct (derive priv) as [pub|e] eqn:Ed; cbn [rbind]; [|split; [split; reflexivity|]; split; [exact K|]; split; [auto|]; split; [auto|]; left; right; exists priv; auto].
    destruct (hasEKey d n) eqn:Eh.
    + assert (need = true) by (destruct need; [reflexivity|discriminate E]). subst need. pose proof (del_ok d n K Fn Eh) as X. destruct (deleteEKey d n) as [d1 r1]. destruct X as (S1 & K1 & F1 & H1 & P1 & R1).
      destruct (dget n_equals (db_base d) n) as [v|] eqn:Gd; subst r1.
      * destruct (add_ok d1 n pub priv K1 Fn H1 Ed) as (d2 & E2 & S2 & K2 & F2 & P2 & Q2). rewrite E2. split; [destruct S1, S2; split; congruence|]. split; [exact K2|]. split; [auto|]. split; [intros m Fm Ne; rewrite Q2, P1 by assumption; reflexivity|]. auto.
      * split; [exact S1|]. split; [exact K1|]. split; [exact F1|]. split; [exact P1|]. right. auto.
    + destruct (add_ok d n pub priv K Fn Eh Ed) as (d2 & E2 & S2 & K2 & F2 & P2 & Q2). rewrite E2. split; [exact S2|]. split; [exact K2|]. split; [exact F2|]. split; [exact Q2|]. split; [exact Ed|]. split; [exact P2|].
      destruct need; [reflexivity|]. assert (N : pair_of d n = None) by (apply pair_none; auto). rewrite N. auto.
Qed.
End Pairs.
