(** * C92: signing and verifying with a version 1 KeyChain *)
From Verif Require MatchProps ChainProofs3 ChainModel.
From Verif Require Import Base BaseLemmas NameModel NameSpec NameProofs UriModel UriSpec BlobModel DictModel DictProofs DerModel DerProps PkcsModel TlvSpec WireModel WireSpec WireProofs WireProofs5 WireProps CtlModel MatchModel SigProps IcertModel IcertSpec IcertProps IdmModel IdmSpec IdmProofs IdmProofs2 IdmProofs3 IdmProps SelfModel SelfSpec SelfProofs.
Local Open Scope res_scope.

Lemma pk_new_type : forall lp fl b y, pk_new lp fl b = Ok y -> pk_type y = Some 0 \/ pk_type y = Some 1.
Proof.
  intros lp fl b y H. unfold pk_new in H. cbv zeta in H. apply rbind_ok in H. destruct H as (v & _ & H). destruct (is_oid_str v RSA_ENCRYPTION_OID).
  - apply rbind_ok in H. destruct H as (u & _ & H). injection H as <-. auto.
  - destruct (is_oid_str v EC_ENCRYPTION_OID); [injection H as <-; auto|discriminate H].
Qed.
Lemma last_two : forall (n : name), zlen n < 2 \/ exists pre a b, n = pre ++ [a; b].
Proof.
  intro n. destruct n as [|b n] using rev_ind; [left; rewrite zlen_nil; lia|]. clear IHn. destruct n as [|a n] using rev_ind; [left; cbn; lia|]. right. exists n, a, b. rewrite <- app_assoc. reflexivity.
Qed.
Lemma two_last : forall (pre : name) a b, (zlen (pre ++ [a; b]) <? 2) = false /\ py_getitem (pre ++ [a; b]) (-2) = Ok a /\ py_getitem (pre ++ [a; b]) (-1) = Ok b.
Proof.
  intros pre a b. pose proof (zlen_nonneg _ pre). split; [rewrite zlen_app, !zlen_cons, zlen_nil; lia|]. split.
  - unfold py_getitem. rewrite zlen_app, !zlen_cons, zlen_nil. replace (-2 <? 0) with true by reflexivity. cbv iota zeta. replace (-2 + (zlen pre + (1 + (1 + 0)))) with (zlen pre) by lia.
    replace ((0 <=? zlen pre) && (zlen pre <? zlen pre + (1 + (1 + 0)))) with true by lia. unfold zlen. rewrite Nat2Z.id, nth_error_app2, Nat.sub_diag by lia. reflexivity.
  - change [a; b] with ([a] ++ [b]). rewrite app_assoc. apply MatchProps.last_getitem.
Qed.
Lemma pair_inj : forall (pre pre' : name) a b a' b', pre ++ [a; b] = pre' ++ [a'; b'] -> a = a' /\ b = b'.
Proof. intros pre pre' a b a' b' E. change [a; b] with ([a] ++ [b]) in E. change [a'; b'] with ([a'] ++ [b']) in E. rewrite !app_assoc in E. apply app_inj_tail in E. destruct E as [E ->]. apply app_inj_tail in E. tauto. Qed.

Section Props.
Context {P : Type}.
Variable psign : P -> Z -> bytes -> res bytes.
Variable load_public : bytes -> res unit.
Variable floor40 : Z -> Z.
Variable vrfy : bytes -> Z -> bytes -> bytes -> bool.
Variable sha : bytes -> bytes.
Notation store := (store P).
Notation verify := (verify P load_public floor40 vrfy sha).
Notation verifyData := (verifyData P load_public floor40 vrfy sha).
Notation verifyInterest := (verifyInterest P load_public floor40 vrfy sha).
Notation vouched := (vouched load_public floor40 vrfy sha).
Notation SelfVerify := (SelfVerify P).

Lemma getPublicKeyDer_ok : forall w kl b, getPublicKeyDer P w kl = Ok (Some b) <-> kl_type kl = Some 1 /\ key_for w (kl_name kl) b.
Proof.
  intros w kl b. unfold getPublicKeyDer. assert (T : (match kl_type kl with Some t => t =? 1 | None => false end) = true <-> kl_type kl = Some 1).
  { destruct (kl_type kl) as [t|]; [|split; intro X; discriminate X]. rewrite Z.eqb_eq. split; congruence. }
  destruct (match kl_type kl with Some t => t =? 1 | None => false end) eqn:E.
  - destruct T as [T _]. specialize (T eq_refl). destruct w as [s|g|]; cbn [key_for].
    + destruct (certificateNameToPublicKeyName (kl_name kl)) as [k|e] eqn:Ek.
      * destruct (getKey P k s) as [b'|e] eqn:Eg.
        { split; [intros [= <-]; split; [exact T|]; exists k; split; [apply C89_key_name; exact Ek|exact Eg]|]. intros (_ & k' & Kn & G). apply C89_key_name in Kn. rewrite Ek in Kn. injection Kn as <-. congruence. }
        { split; [intro X; destruct e; discriminate X|]. intros (_ & k' & Kn & G). apply C89_key_name in Kn. rewrite Ek in Kn. injection Kn as <-. congruence. }
      * split; [intro X; discriminate X|]. intros (_ & k' & Kn & _). apply C89_key_name in Kn. congruence.
    + destruct (g (kl_name kl)) as [b'|e] eqn:Eg; [split; [intros [= <-]; auto|intros (_ & [= <-]); reflexivity]|]. split; [intro X; destruct e; discriminate X|]. intros (_ & G). discriminate G.
    + split; [intro X; discriminate X|intros [_ []]].
  - split; [intro X; destruct w; discriminate X|]. intros [X _]. apply T in X. discriminate X.
Qed.
Lemma verifyWithKey_ok : forall b x t m bits, pk_new load_public floor40 b = Ok x -> pk_type x = Some t -> verifyWithKey vrfy m bits x = Ok (match bits with Some sg => vrfy b t m sg | None => false end).
Proof.
  intros b x t m bits Ex Et. unfold verifyWithKey. rewrite Et, (pk_new_der _ _ _ _ Ex). destruct (pk_new_type _ _ _ _ Ex) as [E|E]; rewrite E in Et; injection Et as <-; reflexivity.
Qed.
Lemma verify_true : forall w sg m, verify w sg m = Ok true <-> vouched w sg m.
Proof.
  intros w sg m. assert (K : forall kl bits, (r <-- getPublicKeyDer P w kl ;; match r with None => Ok false | Some b => x <-- pk_new load_public floor40 b ;; verifyWithKey vrfy m bits x end) = Ok true <->
    exists b x t sig, kl_type kl = Some 1 /\ key_for w (kl_name kl) b /\ pk_new load_public floor40 b = Ok x /\ pk_type x = Some t /\ bits = Some sig /\ vrfy b t m sig = true).
  { intros kl bits. split.
    - intro H. apply rbind_ok in H. destruct H as (r & Er & H). destruct r as [b|]; [|discriminate H]. apply rbind_ok in H. destruct H as (x & Ex & H). assert (Et : exists t, pk_type x = Some t) by (destruct (pk_new_type _ _ _ _ Ex) as [E|E]; eauto). destruct Et as (t & Et).
      rewrite (verifyWithKey_ok b x t m bits Ex Et) in H. destruct bits as [sig|]; [|discriminate H]. apply getPublicKeyDer_ok in Er. destruct Er as [A B]. exists b, x, t, sig. split; [exact A|]. split; [exact B|]. split; [exact Ex|]. split; [exact Et|]. split; [reflexivity|congruence].
    - intros (b & x & t & sig & A & B & Ex & Et & -> & V). rewrite (proj2 (getPublicKeyDer_ok w kl b) (conj A B)). cbn [rbind]. rewrite Ex. cbn [rbind]. rewrite (verifyWithKey_ok b x t m (Some sig) Ex Et), V. reflexivity. }
  unfold SelfModel.verify. destruct sg as [kl vp bits|kl vp bits|kl bits|bits|e ty bits]; cbn [kl_ofSignature verifySignature SelfSpec.vouched].
  - apply K.
  - apply K.
  - split; [|intros []]. intro H. apply rbind_ok in H. destruct H as (r & _ & H). destruct r; discriminate H.
  - unfold verifyDigest. destruct bits as [b|]; [|split; intro X; discriminate X]. split; [intros [= H]; apply zlist_eqb_eq in H; congruence|]. intros [= ->]. assert (zlist_eqb (sha m) (sha m) = true) as -> by now apply zlist_eqb_eq. reflexivity.
  - split; [intro X; discriminate X|intros []].
Qed.
Lemma verify_raised : forall w sg m e, (match w with PibStore _ _ => False | _ => True end) -> verify w sg m = Err e ->
  (e = SecurityException /\ match sg with SigHmac kl _ => kl_type kl = Some 1 /\ exists b, key_for w (kl_name kl) b | SigGeneric _ _ _ => True | _ => False end) \/
  (exists kl b, kl_ofSignature sg = Some kl /\ kl_type kl = Some 1 /\ key_for w (kl_name kl) b /\ pk_new load_public floor40 b = Err e).
Proof.
  intros w sg m e Hw H. assert (G : forall kl e, getPublicKeyDer P w kl <> Err e).
  { intros kl e'. unfold getPublicKeyDer. destruct w as [s|g|]; [|destruct Hw|discriminate]. destruct (match kl_type kl with Some t => t =? 1 | None => false end); [|discriminate]. destruct (certificateNameToPublicKeyName _); [|discriminate]. unfold getKey. destruct (_ =? 0); [discriminate|]. destruct (dget _ _ _) as [[[? ?] ?]|]; discriminate. }
  assert (K : forall kl bits, (r <-- getPublicKeyDer P w kl ;; match r with None => Ok false | Some b => x <-- pk_new load_public floor40 b ;; verifyWithKey vrfy m bits x end) = Err e -> exists b, kl_type kl = Some 1 /\ key_for w (kl_name kl) b /\ pk_new load_public floor40 b = Err e).
  { intros kl bits X. destruct (getPublicKeyDer P w kl) as [[b|]|e'] eqn:Er; [|discriminate X|destruct (G _ _ Er)]. cbn [rbind] in X. apply getPublicKeyDer_ok in Er. destruct Er as [A B]. exists b. split; [exact A|]. split; [exact B|]. destruct (pk_new load_public floor40 b) as [x|e'] eqn:Ex; [|cbn [rbind] in X; injection X as ->; reflexivity]. cbn [rbind] in X.
    assert (Et : exists t, pk_type x = Some t) by (destruct (pk_new_type _ _ _ _ Ex) as [E|E]; eauto). destruct Et as (t & Et). rewrite (verifyWithKey_ok b x t m bits Ex Et) in X. discriminate X. }
  unfold SelfModel.verify in H. destruct sg as [kl vp bits|kl vp bits|kl bits|bits|en ty bits]; cbn [kl_ofSignature verifySignature] in H |- *.
  - right. destruct (K kl bits H) as (b & X). exists kl, b. auto.
  - right. destruct (K kl bits H) as (b & X). exists kl, b. auto.
  - left. destruct (getPublicKeyDer P w kl) as [[b|]|e'] eqn:Er; [|discriminate H|destruct (G _ _ Er)]. apply getPublicKeyDer_ok in Er. injection H as <-. split; [reflexivity|]. split; [apply Er|]. exists b. apply Er.
  - discriminate H.
  - left. injection H as <-. auto.
Qed.
Lemma data_enc : forall d cached m, data_covers d cached m -> exists e, encodingOfData d cached = Ok e /\ signed_part e = m.
Proof.
  intros d [[w [b e]]|] m H; cbn in *; [eexists; split; [reflexivity|symmetry; exact H]|]. destruct H as [Hd ->]. destruct (ChainProofs3.data_slice d Hd) as (w & b & e & E & S). eexists. split; [exact E|exact S].
Qed.
Lemma interest_enc : forall rn i cached m, interest_covers i cached m -> exists e, encodingOfInterest rn i cached = Ok e /\ signed_part e = m.
Proof.
  intros rn i [[w [b e]]|] m H; cbn in *; [eexists; split; [reflexivity|symmetry; exact H]|]. destruct H as [Hd ->]. destruct (ChainProofs3.interest_slice_ok rn i Hd) as (w & b & e & E & S). eexists. split; [exact E|exact S].
Qed.
Lemma outcome_verified : forall r, outcome_of r = Verified <-> r = Ok true.
Proof. intros [[]|e]; split; intro X; try reflexivity; discriminate X. Qed.
Lemma outcome_raised : forall r e, outcome_of r = Raised e <-> r = Err e.
Proof. intros [[]|e'] e; split; intro X; try discriminate X; injection X as ->; reflexivity. Qed.

(** onVerified is called for a Data packet exactly when its signature is the digest of the signed portion, or
    verifies over it with the key that the storage has for the certificate name in the key locator. *)
Theorem C92_data_verified : forall w d cached m, data_covers d cached m -> (verifyData (SelfVerify w) d cached = Verified <-> vouched w (d_sig d) m).
Proof.
  intros w d cached m H. destruct (data_enc d cached m H) as (e & E & S). cbn [SelfModel.verifyData]. unfold checkData. rewrite E. cbn [rbind]. rewrite S, outcome_verified. apply verify_true.
Qed.
Theorem C92_interest_verified : forall w rn i cached m, interest_covers i cached m -> (verifyInterest (SelfVerify w) rn i cached = Verified <-> exists sg, signed_with i sg /\ vouched w sg m).
Proof.
  intros w rn i cached m H. destruct (interest_enc rn i cached m H) as (e & E & S). cbn [SelfModel.verifyInterest]. unfold checkInterest. destruct (last_two (i_name i)) as [L|(pre & a & b & En)].
  - replace (zlen (i_name i) <? 2) with true by lia. split; [intro X; discriminate X|]. intros (sg & (pre & a & b & En & _) & _). exfalso. rewrite En, zlen_app, !zlen_cons, zlen_nil in L. pose proof (zlen_nonneg _ pre). lia.
  - destruct (two_last pre a b) as (A1 & A2 & A3). rewrite En, A1, A2, A3. cbn [rbind]. destruct (decodeSignatureInfoAndValue (c_value a) (c_value b)) as [sg|err] eqn:D.
    + rewrite E. cbn [rbind]. rewrite S, outcome_verified, verify_true. split; [intro V; exists sg; split; [exists pre, a, b; auto|exact V]|]. intros (sg' & (pre' & a' & b' & En' & D') & V). rewrite En in En'. apply pair_inj in En'. destruct En' as [<- <-]. congruence.
    + split; [intro X; discriminate X|]. intros (sg' & (pre' & a' & b' & En' & D') & V). rewrite En in En'. apply pair_inj in En'. destruct En' as [<- <-]. congruence.
Qed.
(** With an identity storage, or with none, a verification calls exactly one of the callbacks, except that it raises
    for signatures which are neither RSA, ECDSA nor digests, and when the bytes in the storage are not a key. *)
Definition may_raise (w : store) (sg : signature) (e : Base.exn) : Prop :=
  (e = SecurityException /\ match sg with SigHmac kl _ => kl_type kl = Some 1 /\ exists b, key_for w (kl_name kl) b | SigGeneric _ _ _ => True | _ => False end) \/
  (exists kl b, kl_ofSignature sg = Some kl /\ kl_type kl = Some 1 /\ key_for w (kl_name kl) b /\ pk_new load_public floor40 b = Err e).
Theorem C92_answered : forall w, (match w with PibStore _ _ => False | _ => True end) ->
  (forall d cached m, data_covers d cached m -> verifyData (SelfVerify w) d cached = Verified \/ verifyData (SelfVerify w) d cached = Failed \/ exists e, verifyData (SelfVerify w) d cached = Raised e /\ may_raise w (d_sig d) e) /\
  (forall rn i cached m, interest_covers i cached m -> verifyInterest (SelfVerify w) rn i cached = Verified \/ verifyInterest (SelfVerify w) rn i cached = Failed \/ exists e sg, verifyInterest (SelfVerify w) rn i cached = Raised e /\ signed_with i sg /\ may_raise w sg e) /\
  (forall d cached, verifyData (NoVerify P) d cached = Verified) /\ (forall rn i cached, verifyInterest (NoVerify P) rn i cached = Verified).
Proof.
  intros w Hw. split; [|split; [|split; reflexivity]].
  - intros d cached m H. destruct (data_enc d cached m H) as (e & E & S). cbn [SelfModel.verifyData]. unfold checkData. rewrite E. cbn [rbind]. rewrite S. destruct (verify w (d_sig d) m) as [[]|err] eqn:V; [left; reflexivity|right; left; reflexivity|]. right. right. exists err. split; [reflexivity|]. exact (verify_raised w (d_sig d) m err Hw V).
  - intros rn i cached m H. destruct (interest_enc rn i cached m H) as (e & E & S). cbn [SelfModel.verifyInterest]. unfold checkInterest. destruct (last_two (i_name i)) as [L|(pre & a & b & En)]; [replace (zlen (i_name i) <? 2) with true by lia; auto|]. destruct (two_last pre a b) as (A1 & A2 & A3). rewrite En, A1, A2, A3. cbn [rbind].
    destruct (decodeSignatureInfoAndValue (c_value a) (c_value b)) as [sg|err] eqn:D; [|auto]. rewrite E. cbn [rbind]. rewrite S. destruct (verify w sg m) as [[]|err] eqn:V; [left; reflexivity|right; left; reflexivity|]. right. right. exists err, sg. split; [reflexivity|]. split; [exists pre, a, b; auto|]. exact (verify_raised w sg m err Hw V).
Qed.
(** (Witness, for every PIB.) With a PibImpl, a packet that names a key which is not there is not answered: an error
    of the code (keyName has no value where the reason is made) is raised. *)
Theorem C92_pib_refuted : forall g d cached m kl, data_covers d cached m -> kl_ofSignature (d_sig d) = Some kl -> kl_type kl = Some 1 -> g (kl_name kl) = Err SecurityException ->
  verifyData (SelfVerify (PibStore P g)) d cached = Raised OtherError.
Proof.
  intros g d cached m kl H K T G. destruct (data_enc d cached m H) as (e & E & S). cbn [SelfModel.verifyData]. unfold checkData. rewrite E. cbn [rbind]. unfold SelfModel.verify. rewrite K. unfold getPublicKeyDer. rewrite T. change (1 =? 1) with true. cbv iota. rewrite G. reflexivity.
Qed.
End Props.
