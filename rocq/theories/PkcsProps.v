(** * C71: private keys in PKCS #8, plain and encrypted *)
From Verif Require Import Base BaseLemmas UriModel DerModel DerSpec DerProofs DerProofs2 DerProps PkcsModel PkcsSpec.
Local Open Scope res_scope.

(** ** What getChildren and toVal show of a parsed node *)
Section Fl.
Variable fl : Z -> Z.
Notation read := (read fl).
Notation toVal := (node_toVal fl).
Lemma read_seq : forall n vs, read n = Ok (VSeq vs) -> exists a b c l, n = Seq a b c l /\ Forall2 (fun n v => read n = Ok v) l vs.
Proof.
  intros [t h p|a b c l] vs E.
  - exfalso. cbn [DerSpec.read] in E. repeat match type of E with context [if ?x then _ else _] => destruct x end; repeat match type of E with context [match ?x with _ => _ end] => destruct x end; discriminate E.
  - exists a, b, c, l. split; [reflexivity|]. cbn [DerSpec.read] in E. clear a b c. revert vs E. induction l as [|n l IH]; intros vs E; [injection E as <-; constructor|].
    destruct (read n) as [v|] eqn:E1; [|discriminate E]. match type of E with match (match ?x with _ => _ end) with _ => _ end = _ => destruct x as [w|] eqn:E2 end; [|discriminate E]. injection E as <-. constructor; [exact E1|]. apply IH. reflexivity.
Qed.
Ltac leaf E := cbn [DerSpec.read] in E; repeat match type of E with context [if ?x then _ else _] => destruct x eqn:? end; repeat match type of E with context [match ?x with _ => _ end] => destruct x eqn:? end; try discriminate E.
Lemma read_leaf : forall n v, read n = Ok v -> match v with VInt i => toVal n = Ok (PInt i) | VOctets b => toVal n = Ok (PBytes b) | VOid l => toVal n = Ok (PStr (oid_str l)) | _ => True end.
Proof.
  intros [t h p|a b c l] v E.
  - unfold node_toVal. cbn [DerSpec.read] in E.
    destruct (t =? T_BOOLEAN); [destruct (boolean_toVal p); [|discriminate E]; injection E as <-; exact I|]. destruct (t =? T_INTEGER); [destruct (integer_toVal p); [|discriminate E]; injection E as <-; reflexivity|].
    destruct (t =? T_BITSTRING) eqn:EB; [destruct p; [discriminate E|]; injection E as <-; exact I|]. destruct (t =? T_OCTETSTRING); [injection E as <-; reflexivity|]. destruct (t =? T_NULL) eqn:EN; [injection E as <-; exact I|].
    destruct (t =? T_OID); [destruct (oid_toVal fl p); [|discriminate E]; injection E as <-; reflexivity|]. destruct (t =? T_PRINTABLE); injection E as <-; exact I.
  - cbn [DerSpec.read] in E. match type of E with context [match ?x with _ => _ end] => destruct x end; [|discriminate E]. injection E as <-. exact I.
Qed.
Lemma read_integer : forall n v, read n = Ok v -> is_integer n = match v with VInt _ => true | _ => false end.
Proof.
  intros [t h p|a b c l] v E.
  - unfold is_integer. cbn [DerSpec.read] in E. destruct (t =? T_BOOLEAN) eqn:E1; [apply Z.eqb_eq in E1; subst t; destruct (boolean_toVal p); [|discriminate E]; injection E as <-; reflexivity|]. destruct (t =? T_INTEGER); [destruct (integer_toVal p); [|discriminate E]; injection E as <-; reflexivity|].
    destruct (t =? T_BITSTRING) eqn:EB; [destruct p; [discriminate E|]; injection E as <-; reflexivity|]. destruct (t =? T_OCTETSTRING); [injection E as <-; reflexivity|]. destruct (t =? T_NULL) eqn:EN; [injection E as <-; reflexivity|].
    destruct (t =? T_OID); [destruct (oid_toVal fl p); [|discriminate E]; injection E as <-; reflexivity|]. destruct (t =? T_PRINTABLE); injection E as <-; reflexivity.
  - cbn [DerSpec.read] in E. match type of E with context [match ?x with _ => _ end] => destruct x end; [|discriminate E]. injection E as <-. reflexivity.
Qed.
Lemma read_octets : forall n b, read n = Ok (VOctets b) -> getPayload n = b.
Proof.
  intros [t h p|a b' c l] b E.
  - cbn [DerSpec.read] in E. destruct (t =? T_BOOLEAN); [destruct (boolean_toVal p); discriminate E|]. destruct (t =? T_INTEGER); [destruct (integer_toVal p); discriminate E|]. destruct (t =? T_BITSTRING); [destruct p; discriminate E|]. destruct (t =? T_OCTETSTRING); [injection E as <-; reflexivity|]. destruct (t =? T_NULL); [discriminate E|]. destruct (t =? T_OID); [destruct (oid_toVal fl p); discriminate E|]. destruct (t =? T_PRINTABLE); discriminate E.
  - exfalso. cbn [DerSpec.read] in E. match type of E with context [match ?x with _ => _ end] => destruct x end; discriminate E.
Qed.
End Fl.

Section Key.
Variable K : Type.
Variable load_der : bytes -> res K.
Variable to_der : K -> bytes.
Variable pbkdf2 : Z -> bytes -> Z -> bytes -> res bytes.
Variable des des_inv : bytes -> bytes -> bytes -> res bytes.
Variable floor40 : Z -> Z.
Hypothesis Hfl : floor_ok floor40.
Notation loadPkcs1 := (loadPkcs1 K load_der floor40).
Notation loadPkcs8 := (loadPkcs8 K load_der floor40).
Notation loadEncryptedPkcs8 := (loadEncryptedPkcs8 K load_der pbkdf2 des_inv floor40).
Notation toEncryptedPkcs8 := (toEncryptedPkcs8 K to_der pbkdf2 des).
Notation toPkcs1 := (toPkcs1 K to_der).

Tactic Notation "item" ident(F) "as" ident(R) := let F0 := fresh "F0" in inversion F as [|? ? ? ? R F0]; subst; clear F; rename F0 into F.
Tactic Notation "sequ" constr(H) "as" ident(F) := let a := fresh "a" in let b := fresh "b" in let c := fresh "c" in let l := fresh "l" in destruct (read_seq floor40 _ _ H) as (a & b & c & l & -> & F); clear H.
Lemma parse_at : forall v bs rest, der v bs -> exists n, node_parse (bs ++ rest) 0 = Ok n /\ read floor40 n = Ok v.
Proof. intros v bs rest D. destruct (C59_parse floor40 v [] bs rest Hfl D) as (n & E & R & _). exists n. auto. Qed.

(** ** The type of a key *)
Lemma pkcs8_oid_ok : forall bs rest oid priv, private_key_info bs oid priv -> pkcs8_oid floor40 (bs ++ rest) = Ok (oid_str oid).
Proof.
  intros bs rest oid priv (ver & ps & at_ & D). destruct (parse_at _ _ rest D) as (n & E & R). unfold pkcs8_oid. rewrite E. cbn [rbind]. sequ R as F. cbn [getChildren rbind]. item F as R1. item F as R2. sequ R2 as G. cbn [getSequence nth_error rbind getChildren]. item G as R3. cbn [PkcsModel.item nth_error rbind]. pose proof (read_leaf _ _ _ R3) as X. cbn in X. rewrite X. reflexivity.
Qed.
(** A key is loaded with the type that its algorithm says. *)
Theorem C71_key_type : forall bs rest oid priv, private_key_info bs oid priv ->
  (oid = [1; 2; 840; 10045; 2; 1] -> loadPkcs8 (bs ++ rest) None = rbind (load_der (bs ++ rest)) (fun k => Ok (TKey TK_EC k))) /\
  (oid = [1; 2; 840; 113549; 1; 1; 1] -> loadPkcs8 (bs ++ rest) None = rbind (load_der (bs ++ rest)) (fun k => Ok (TKey TK_RSA k))) /\
  (oid_str oid <> oid_str [1; 2; 840; 10045; 2; 1] -> oid_str oid <> oid_str [1; 2; 840; 113549; 1; 1; 1] -> loadPkcs8 (bs ++ rest) None = Err RuntimeError).
Proof.
  intros bs rest oid priv H. pose proof (pkcs8_oid_ok bs rest oid priv H) as E. unfold PkcsModel.loadPkcs8. rewrite E. cbn [rbind]. split; [|split].
  - intros ->. reflexivity.
  - intros ->. reflexivity.
  - intros N1 N2. fold EC_ENCRYPTION_OID RSA_ENCRYPTION_OID in N1, N2. assert (Z1 : forall a b, a <> b -> zlist_eqb a b = false) by (intros a b N; destruct (zlist_eqb a b) eqn:Z; [apply zlist_eqb_eq in Z; contradiction|reflexivity]). rewrite (Z1 _ _ N1), (Z1 _ _ N2). reflexivity.
Qed.
(** A plain key comes back with its type. *)
Theorem C71_plain : forall k priv, (tk_type k = TK_RSA \/ tk_type k = TK_EC) -> private_key_info (to_der (tk_key k)) (key_oid (tk_type k)) priv -> load_der (to_der (tk_key k)) = Ok (tk_key k) -> loadPkcs8 (toPkcs8 K to_der k) None = Ok k.
Proof.
  intros [ty k] priv T H L. cbn [tk_type tk_key] in *. unfold toPkcs8. cbn [tk_key]. destruct (C71_key_type _ [] _ _ H) as (A & B & _). rewrite app_nil_r in A, B. rewrite L in A, B. cbn [rbind] in A, B. destruct T as [-> | ->]; [apply B|apply A]; reflexivity.
Qed.
Theorem C71_pkcs1 : forall k oid priv, private_key_info (to_der (tk_key k)) oid priv -> toPkcs1 k = Ok priv.
Proof.
  intros k oid priv (ver & ps & at_ & D). destruct (parse_at _ _ [] D) as (n & E & R). rewrite app_nil_r in E. unfold PkcsModel.toPkcs1, toPkcs8. rewrite E. cbn [rbind]. sequ R as F. cbn [getChildren rbind]. item F as R1. item F as R2. item F as R3. cbn [PkcsModel.item nth_error rbind or_error]. rewrite (read_octets _ _ _ R3). reflexivity.
Qed.
(** RFC 3447: an RSAPrivateKey with two primes is a sequence of nine integers, the first zero.
    loadPkcs1 without a key type takes exactly these for RSA keys, and the others for EC keys. *)
Lemma all_integers : forall l vs, Forall2 (fun n v => DerSpec.read floor40 n = Ok v) l vs -> forallb is_integer l = true <-> exists is, vs = map VInt is.
Proof.
  intros l vs F. induction F as [|n v l vs E F IH]; [split; [exists []; reflexivity|reflexivity]|]. cbn [forallb]. rewrite (read_integer floor40 n v E). split.
  - intros H. apply andb_true_iff in H. destruct H as [H1 H2]. apply IH in H2. destruct H2 as [is ->]. destruct v; try discriminate H1. exists (n0 :: is). reflexivity.
  - intros [[|i is] X]; [discriminate X|]. injection X as -> ->. cbn [andb]. apply IH. eauto.
Qed.
Theorem C71_pkcs1_type : forall vs bs rest, der (VSeq vs) bs ->
  ((exists is, length is = 8%nat /\ vs = VInt 0 :: map VInt is) -> loadPkcs1 (bs ++ rest) None = rbind (load_der (bs ++ rest)) (fun k => Ok (TKey TK_RSA k))) /\
  (~ (exists is, length is = 8%nat /\ vs = VInt 0 :: map VInt is) -> loadPkcs1 (bs ++ rest) None = rbind (load_der (bs ++ rest)) (fun k => Ok (TKey TK_EC k))).
Proof.
  intros vs bs rest D. destruct (parse_at _ _ rest D) as (n & E & R). sequ R as F.
  assert (X : pkcs1_type floor40 (bs ++ rest) = Ok TK_RSA /\ (exists is, length is = 8%nat /\ vs = VInt 0 :: map VInt is) \/ pkcs1_type floor40 (bs ++ rest) = Ok TK_EC /\ ~ (exists is, length is = 8%nat /\ vs = VInt 0 :: map VInt is)).
  { unfold pkcs1_type. rewrite E. cbn [rbind getChildren]. destruct F as [|c0 v r vs' E0 F]; [right; split; [reflexivity|intros (is & _ & X); discriminate X]|]. rewrite (read_integer floor40 c0 v E0). assert (Lr : length r = length vs') by (clear -F; induction F; cbn; congruence).
    destruct (Z.eqb_spec (zlen (c0 :: r)) 9) as [L|L]; cbn [andb].
    - destruct v as [ | i | | | | | | | ]; try (right; split; [reflexivity|intros (is & _ & X); discriminate X]). pose proof (read_leaf floor40 c0 _ E0) as T. cbn in T. rewrite T. cbn [rbind]. destruct (Z.eq_dec i 0) as [-> |N].
      + destruct (forallb is_integer r) eqn:A.
        * left. split; [reflexivity|]. apply (all_integers r vs' F) in A. destruct A as [is ->]. exists is. split; [|reflexivity]. rewrite map_length in Lr. rewrite zlen_cons in L. unfold zlen in L. lia.
        * right. split; [reflexivity|]. intros (is & _ & X). injection X as ->. assert (forallb is_integer r = true) by (apply (all_integers r _ F); eauto). congruence.
      + right. split; [destruct i; [congruence|reflexivity|reflexivity]|]. intros (is & _ & X). injection X as -> _. congruence.
    - right. split; [reflexivity|]. intros (is & Li & X). injection X as -> ->. rewrite map_length in Lr. apply L. rewrite zlen_cons. unfold zlen. lia. }
  unfold PkcsModel.loadPkcs1. destruct X as [[X H]|[X H]]; rewrite X; cbn [rbind]; unfold load_typed; cbn; split; intros H'; (contradiction || reflexivity).
Qed.
(** loadPkcs8 raises TpmPrivateKey.Error, or what the cryptography package raises for the encoding. *)
Theorem C71_errors : forall bs e, loadPkcs8 bs None = Err e -> e = RuntimeError \/ load_der bs = Err e.
Proof.
  intros bs e. unfold PkcsModel.loadPkcs8. assert (X : forall x, pkcs8_oid floor40 bs = Err x -> x = RuntimeError) by (intros x; unfold pkcs8_oid, or_error; destruct (rbind _ _); congruence). destruct (pkcs8_oid floor40 bs) as [o|x]; cbn [rbind]; [|intros [= <-]; left; apply X; reflexivity]. clear X.
  unfold load_typed. destruct (zlist_eqb o _); [|destruct (zlist_eqb o _); [|intros [= <-]; auto]]; cbn; destruct (load_der bs); cbn; intros H; try discriminate H; injection H as <-; auto.
Qed.

(** ** Encryption *)
Lemma unpad_padded : forall m p, 1 <= p -> unpad (padded m p) = Ok m.
Proof.
  intros m p Hp. unfold unpad, padded. rewrite rev_app_distr. destruct (Z.to_nat p) as [|k] eqn:Ek; [lia|]. assert (X : rev (repeat p (S k)) = p :: repeat p k) by (change (p :: repeat p k) with (repeat p (S k)); generalize (S k); clear; intros k; induction k as [|k IH]; [reflexivity|]; cbn [repeat rev]; rewrite IH; symmetry; apply repeat_cons).
  rewrite X. cbn [app]. replace (p =? 0) with false by lia. rewrite app_length, repeat_length, Ek. replace (length m + S k - S k)%nat with (length m) by lia. rewrite firstn_app, Nat.sub_diag, firstn_all. cbn. rewrite app_nil_r. reflexivity.
Qed.
(** Any EncryptedPrivateKeyInfo of these algorithms, with anything after it, is decrypted with the
    derived key and its padding is removed. *)
Theorem C71_decrypt : forall bs rest salt n more iv ct pw dk m p, der (encrypted_info salt n more iv ct) bs -> pbkdf2 24 salt n pw = Ok dk -> des_inv dk iv ct = Ok (padded m p) -> 1 <= p ->
  loadEncryptedPkcs8 (bs ++ rest) pw = loadPkcs8 m None.
Proof.
  intros bs rest salt n more iv ct pw dk m p D Ek Ec Hp. destruct (parse_at _ _ rest D) as (nd & E & R). unfold PkcsModel.loadEncryptedPkcs8, read_info. rewrite E. cbn [rbind]. unfold encrypted_info in R.
  sequ R as F. item F as Ra. item F as Rc. sequ Ra as G. item G as Ro. item G as Rp. pose proof (read_leaf _ _ _ Ro) as X1. pose proof (read_leaf _ _ _ Rc) as X2. cbn in X1, X2.
  cbn [getChildren getSequence nth_error rbind PkcsModel.item]. rewrite X1. cbn [rbind]. rewrite X2. cbn [rbind or_error].
  replace (is_oid_str _ PBES2_OID) with true by (vm_compute; reflexivity).
  sequ Rp as H. item H as Rk. item H as Re. unfold read_pbes2. sequ Rk as I1. item I1 as Rk1. item I1 as Rk2. sequ Re as I2. item I2 as Re1. item I2 as Re2. pose proof (read_leaf _ _ _ Rk1) as X3. pose proof (read_leaf _ _ _ Re1) as X4. pose proof (read_leaf _ _ _ Re2) as X5. cbn in X3, X4, X5.
  cbn [getChildren getSequence nth_error rbind PkcsModel.item]. rewrite X3. cbn [rbind]. rewrite X4. cbn [rbind or_error].
  replace (is_oid_str _ PBKDF2_OID) with true by (vm_compute; reflexivity).
  unfold read_pbkdf2. sequ Rk2 as J. item J as Rs. item J as Rn. pose proof (read_leaf _ _ _ Rs) as X6. pose proof (read_leaf _ _ _ Rn) as X7. cbn in X6, X7. cbn [getChildren nth_error rbind PkcsModel.item]. rewrite X6. cbn [rbind]. rewrite X7. cbn [rbind or_error].
  replace (is_oid_str _ DES_EDE3_CBC_OID) with true by (vm_compute; reflexivity).
  cbn [blob_bytes rbind]. unfold DES_EDE3_KEY_LENGTH. rewrite Ek. cbn [rbind]. rewrite X5. cbn [or_error rbind blob_bytes]. rewrite Ec. cbn [rbind]. rewrite (unpad_padded m p Hp). reflexivity.
Qed.
(** toEncryptedPkcs8 makes such an encoding. *)
Lemma info_built : forall salt n iv ct, info_node salt n iv ct = build (encrypted_info salt n [] iv ct).
Proof. intros salt n iv ct. unfold info_node, encrypted_info. cbn [build]. unfold add, new_seq. destruct (der_integer n); reflexivity. Qed.
Lemma info_ok : forall salt n iv ct, bytes_ok salt -> 0 <= n -> bytes_ok iv -> bytes_ok ct -> v_ok (encrypted_info salt n [] iv ct).
Proof.
  intros salt n iv ct A B C D. unfold encrypted_info. cbn [v_ok]. assert (O : forall a b r, 0 <= a <= 2 -> 0 <= b <= 39 -> forallb (fun x => 0 <=? x) r = true -> exists a' b' r', a :: b :: r = a' :: b' :: r' /\ 0 <= a' <= 2 /\ 0 <= b' <= 39 /\ Forall (fun x => 0 <= x) r').
  { intros a b r Ha Hb Hr. exists a, b, r. split; [reflexivity|]. split; [exact Ha|]. split; [exact Hb|]. apply Forall_forall. intros x I. rewrite forallb_forall in Hr. apply Z.leb_le, Hr, I. }
  split; [|split; [exact D|exact I]]. split; [apply O; [lia|lia|reflexivity]|]. split; [|exact I]. split; [|split; [|exact I]].
  - split; [apply O; [lia|lia|reflexivity]|]. split; [|exact I]. split; [exact A|]. split; [exact B|exact I].
  - split; [apply O; [lia|lia|reflexivity]|]. split; [exact C|exact I].
Qed.
Theorem C71_encrypt : forall k pw salt iv dk ct, bytes_ok salt -> bytes_ok iv -> pbkdf2 24 salt 2048 pw = Ok dk ->
  (forall p, 1 <= p <= 16 -> (zlen (to_der (tk_key k)) + p) mod 16 = 0 -> des dk iv (padded (to_der (tk_key k)) p) = Ok ct) -> bytes_ok ct ->
  exists bs, toEncryptedPkcs8 k pw salt iv = Ok bs /\ (zlen bs < 2 ^ 64 -> der (encrypted_info salt 2048 [] iv ct) bs).
Proof.
  intros k pw salt iv dk ct Hs Hi Ek Ec Hc. unfold PkcsModel.toEncryptedPkcs8, DES_EDE3_KEY_LENGTH. rewrite Ek. cbn [rbind]. set (m := to_der (tk_key k)) in *. change (toPkcs8 K to_der k) with m.
  assert (Ep : pad16 m = padded m (16 - zlen m mod 16)) by reflexivity. rewrite Ep, (Ec (16 - zlen m mod 16)). 2:{ Z.to_euclidean_division_equations; lia. } 2:{ clear. replace (zlen m + (16 - zlen m mod 16)) with ((zlen m / 16 + 1) * 16) by (Z.to_euclidean_division_equations; lia). apply Z.mod_mul. lia. }
  cbn [or_error rbind]. rewrite info_built. destruct (C59_encode _ (info_ok salt 2048 iv ct Hs ltac:(lia) Hi Hc)) as (n & -> & Sz & D). cbn [rbind or_error]. eexists. split; [reflexivity|exact D].
Qed.
(** What is encrypted with a password and random bytes is the same key again with that password. *)
Theorem C71_round_trip : forall k priv pw salt iv bs,
  (tk_type k = TK_RSA \/ tk_type k = TK_EC) -> private_key_info (to_der (tk_key k)) (key_oid (tk_type k)) priv -> load_der (to_der (tk_key k)) = Ok (tk_key k) ->
  (forall dk m ct, zlen m mod 8 = 0 -> des dk iv m = Ok ct -> des_inv dk iv ct = Ok m /\ bytes_ok ct) ->
  bytes_ok salt -> bytes_ok iv -> toEncryptedPkcs8 k pw salt iv = Ok bs -> zlen bs < 2 ^ 64 -> forall rest, loadEncryptedPkcs8 (bs ++ rest) pw = Ok k.
Proof.
  intros k priv pw salt iv bs T H L Hd Hs Hi E Sz rest. pose proof E as E0. unfold PkcsModel.toEncryptedPkcs8 in E. destruct (pbkdf2 DES_EDE3_KEY_LENGTH salt 2048 pw) as [dk|] eqn:Ek; [|discriminate E]. cbn [rbind] in E. set (m := to_der (tk_key k)) in *. set (p := 16 - zlen m mod 16). assert (Hp : 1 <= p <= 16) by (unfold p; Z.to_euclidean_division_equations; lia).
  change (pad16 (toPkcs8 K to_der k)) with (padded m p) in E. destruct (des dk iv (padded m p)) as [ct|] eqn:Ec; [|discriminate E]. cbn [or_error rbind] in E. rewrite info_built in E.
  assert (M8 : zlen (padded m p) mod 8 = 0). { unfold padded. rewrite zlen_app. unfold zlen at 2. rewrite repeat_length, Z2Nat.id by lia. unfold p. replace (zlen m + (16 - zlen m mod 16)) with ((zlen m / 16 + 1) * 2 * 8) by (Z.to_euclidean_division_equations; lia). apply Z.mod_mul. lia. }
  destruct (Hd dk _ ct M8 Ec) as [Ed Hc]. destruct (C59_encode _ (info_ok salt 2048 iv ct Hs ltac:(lia) Hi Hc)) as (n & Eb & _ & D). rewrite Eb in E. cbn [rbind or_error] in E. injection E as <-. rewrite (C71_decrypt _ rest salt 2048 [] iv ct pw dk m p (D Sz) Ek Ed ltac:(lia)). apply C71_plain with (priv := priv); assumption.
Qed.
(** The optional parameters of PBKDF2 (the length of the key and the pseudorandom function) are not
    looked at. *)
Theorem C71_parameters_ignored : forall b1 b2 salt n more1 more2 iv ct pw dk m p, der (encrypted_info salt n more1 iv ct) b1 -> der (encrypted_info salt n more2 iv ct) b2 -> pbkdf2 24 salt n pw = Ok dk -> des_inv dk iv ct = Ok (padded m p) -> 1 <= p ->
  loadEncryptedPkcs8 b1 pw = loadEncryptedPkcs8 b2 pw.
Proof. intros b1 b2 salt n more1 more2 iv ct pw dk m p D1 D2 Ek Ec Hp. rewrite <- (app_nil_r b1), <- (app_nil_r b2). rewrite (C71_decrypt _ [] _ _ _ _ _ _ _ _ _ D1 Ek Ec Hp), (C71_decrypt _ [] _ _ _ _ _ _ _ _ _ D2 Ek Ec Hp). reflexivity. Qed.
End Key.

(** ** A concrete instance: one EC key and one RSA key *)
Definition tk_info (rsa : bool) : bytes := if rsa then [48; 21; 2; 1; 0; 48; 13; 6; 9; 42; 134; 72; 134; 247; 13; 1; 1; 1; 5; 0; 4; 1; 7] else [48; 17; 2; 1; 0; 48; 9; 6; 7; 42; 134; 72; 206; 61; 2; 1; 4; 1; 9].
Definition tk_load (b : bytes) : res bool := if zlist_eqb b (tk_info true) then Ok true else if zlist_eqb b (tk_info false) then Ok false else Err ValueError.
Definition tk_pbkdf2 (len : Z) (salt : bytes) (n : Z) (pw : bytes) : res bytes := Ok (salt ++ pw).
Definition tk_des (k iv m : bytes) : res bytes := if bytes_okb m && (zlen m mod 8 =? 0) then Ok (rev m) else Err ValueError.
Definition tk_floor (x : Z) : Z := x / 40.
Lemma tk_rsa : private_key_info (tk_info true) (key_oid TK_RSA) [7].
Proof.
  exists 0, [VNull], []. destruct (C59_encode (VSeq [VInt 0; VSeq [VOid (key_oid TK_RSA); VNull]; VOctets [7]])) as (n & E & _ & D).
  - cbn [v_ok]. split; [lia|]. split; [split; [|split; exact I]|]. { exists 1, 2, [840; 113549; 1; 1; 1]. split; [reflexivity|]. split; [lia|]. split; [lia|]. repeat (apply Forall_cons; [lia|]). apply Forall_nil. } split; [apply bytes_okb_ok; reflexivity|exact I].
  - vm_compute in E. injection E as <-. vm_compute in D. apply D. reflexivity.
Qed.
Lemma tk_ec : private_key_info (tk_info false) (key_oid TK_EC) [9].
Proof.
  exists 0, [], []. destruct (C59_encode (VSeq [VInt 0; VSeq [VOid (key_oid TK_EC)]; VOctets [9]])) as (n & E & _ & D).
  - cbn [v_ok]. split; [lia|]. split; [split; [|exact I]|]. { exists 1, 2, [840; 10045; 2; 1]. split; [reflexivity|]. split; [lia|]. split; [lia|]. repeat (apply Forall_cons; [lia|]). apply Forall_nil. } split; [apply bytes_okb_ok; reflexivity|exact I].
  - vm_compute in E. injection E as <-. vm_compute in D. apply D. reflexivity.
Qed.
Example C71_example : floor_ok tk_floor /\ tk_load (tk_info false) = Ok false /\
  (forall dk iv m ct, zlen m mod 8 = 0 -> tk_des dk iv m = Ok ct -> tk_des dk iv ct = Ok m /\ bytes_ok ct) /\
  exists bs, toEncryptedPkcs8 bool tk_info tk_pbkdf2 tk_des (TKey TK_EC false) [112; 119] [1; 2; 3; 4; 5; 6; 7; 8] [8; 7; 6; 5; 4; 3; 2; 1] = Ok bs /\ zlen bs < 2 ^ 64 /\
    loadEncryptedPkcs8 bool tk_load tk_pbkdf2 tk_des tk_floor bs [112; 119] = Ok (TKey TK_EC false).
Proof.
  split; [intros x _; reflexivity|]. split; [reflexivity|]. split.
  - intros dk iv m ct M E. unfold tk_des in *. destruct (bytes_okb m) eqn:B; [|discriminate E]. apply bytes_okb_ok in B. rewrite M in E. cbn in E. injection E as <-. assert (B' : bytes_ok (rev m)) by (apply Forall_rev, B). split; [|exact B'].
    replace (bytes_okb (rev m)) with true by (symmetry; apply bytes_okb_ok; exact B'). unfold zlen in *. rewrite rev_length, M, rev_involutive. reflexivity.
  - eexists. split; [vm_compute; reflexivity|]. split; [vm_compute; reflexivity|vm_compute; reflexivity].
Qed.
(** With an explicit type, loadPkcs8 does not look at the algorithm. *)
Theorem C71_explicit_type_refuted : ~ (forall bs ty oid priv k, private_key_info bs oid priv -> loadPkcs8 bool tk_load tk_floor bs (Some ty) = Ok k -> oid = key_oid (tk_type k)).
Proof. intros X. specialize (X (tk_info false) TK_RSA _ _ (TKey TK_RSA false) tk_ec eq_refl). discriminate X. Qed.
(** A bag that is not understood can raise a TypeError instead of TpmPrivateKey.Error. *)
Theorem C71_type_error_refuted : ~ (forall bs pw e, loadEncryptedPkcs8 bool tk_load tk_pbkdf2 tk_des tk_floor bs pw = Err e -> e <> TypeError).
Proof. intros X. exact (X [48; 9; 48; 5; 2; 1; 1; 5; 0; 5; 0] [] TypeError eq_refl eq_refl). Qed.
Print Assumptions C71_key_type.
Print Assumptions C71_pkcs1_type.
Print Assumptions C71_plain.
Print Assumptions C71_pkcs1.
Print Assumptions C71_errors.
Print Assumptions C71_decrypt.
Print Assumptions C71_encrypt.
Print Assumptions C71_round_trip.
Print Assumptions C71_parameters_ignored.
Print Assumptions C71_explicit_type_refuted.
Print Assumptions C71_type_error_refuted.
