(** * Lemmas about the TLV model. *)
From Verif Require Import Base BaseLemmas TlvModel TlvSpec.
From Coq Require Import ZifyBool.
Local Open Scope res_scope.

(** ** Big-endian digits *)
Lemma be_length : forall k n, length (be k n) = k.
Proof. induction k; intros; cbn [be length]; [reflexivity|]. now rewrite IHk. Qed.
Lemma zlen_be : forall k n, zlen (be k n) = Z.of_nat k.
Proof. intros. unfold zlen. now rewrite be_length. Qed.
Lemma be_ok : forall k n, bytes_ok (be k n).
Proof.
  induction k; intros; cbn [be]; constructor; [|apply IHk].
  unfold is_byte. apply Z.mod_pos_bound. lia.
Qed.

Lemma be_value_app : forall a b, be_value (a ++ b) = be_value a * 256 ^ zlen b + be_value b.
Proof.
  intros a b. unfold be_value. rewrite fold_left_app.
  generalize (fold_left (fun acc b => acc * 256 + b) a 0). induction b as [|x b IH] using rev_ind; intros acc.
  - cbn [fold_left]. rewrite zlen_nil. lia.
  - rewrite !fold_left_app. cbn [fold_left]. rewrite IH, zlen_app, zlen_cons, zlen_nil.
    rewrite Z.add_0_r, Z.pow_add_r by (try apply zlen_nonneg; lia). lia.
Qed.
Lemma be_value_cons : forall x l, be_value (x :: l) = x * 256 ^ zlen l + be_value l.
Proof. intros. change (x :: l) with ([x] ++ l). rewrite be_value_app. unfold be_value at 1. cbn [fold_left]. lia. Qed.
Lemma be_value_nil : be_value [] = 0.
Proof. reflexivity. Qed.

Lemma be_value_bound : forall l, bytes_ok l -> 0 <= be_value l < 256 ^ zlen l.
Proof.
  induction l as [|x l IH]; intros H.
  - rewrite zlen_nil. cbn. lia.
  - inversion H; subst. specialize (IH H3). rewrite be_value_cons, zlen_cons.
    rewrite Z.add_comm, Z.pow_add_r by (try apply zlen_nonneg; lia).
    unfold is_byte in H2. nia.
Qed.

Lemma be_value_be : forall k n, be_value (be k n) = n mod 256 ^ Z.of_nat k.
Proof.
  induction k; intros.
  - cbn [be]. rewrite be_value_nil. cbn. now rewrite Z.mod_1_r.
  - cbn [be]. rewrite be_value_cons, zlen_be, IHk.
    set (p := 256 ^ Z.of_nat k).
    assert (0 < p) by (unfold p; apply Z.pow_pos_nonneg; lia).
    replace (256 ^ Z.of_nat (S k)) with (p * 256)
      by (unfold p; rewrite Nat2Z.inj_succ, Z.pow_succ_r by lia; lia).
    rewrite Z.rem_mul_r by lia. lia.
Qed.

Lemma be_be_value : forall l, bytes_ok l -> be (length l) (be_value l) = l.
Proof.
  induction l as [|x l IH]; intros H; [reflexivity|].
  inversion H; subst. cbn [length be]. rewrite be_value_cons.
  pose proof (be_value_bound l H3) as B. unfold is_byte in H2.
  replace (Z.of_nat (length l)) with (zlen l) by reflexivity.
  f_equal.
  - rewrite Z.div_add_l by lia. rewrite Z.div_small by lia. rewrite Z.add_0_r. apply Z.mod_small; lia.
  - transitivity (be (length l) (be_value l)); [clear IH|exact (IH H3)].
    assert (G : forall k a b, a mod 256 ^ Z.of_nat k = b mod 256 ^ Z.of_nat k -> be k a = be k b).
    { clear. induction k; intros; [reflexivity|]. cbn [be].
      set (p := 256 ^ Z.of_nat k) in *.
      assert (0 < p) by (unfold p; apply Z.pow_pos_nonneg; lia).
      replace (256 ^ Z.of_nat (S k)) with (p * 256) in H
        by (unfold p; rewrite Nat2Z.inj_succ, Z.pow_succ_r by lia; lia).
      rewrite !Z.rem_mul_r in H by lia.
      pose proof (Z.mod_pos_bound a p). pose proof (Z.mod_pos_bound b p).
      assert ((a / p) mod 256 = (b / p) mod 256) by nia.
      f_equal; [assumption|]. apply IHk. fold p. nia. }
    apply G. replace (256 ^ Z.of_nat (length l)) with (256 ^ zlen l) by reflexivity.
    rewrite Z.add_comm, Z.mod_add by lia. reflexivity.
Qed.

Lemma land_255 : forall n, Z.land n 255 = n mod 256.
Proof. intros. change 255 with (Z.ones 8). now rewrite Z.land_ones by lia. Qed.

Lemma varNumber_bytes_varnum : forall n, 0 <= n -> varNumber_bytes n = varnum n.
Proof.
  intros n Hn. unfold varNumber_bytes, varnum. cbn [be].
  repeat match goal with |- context [Z.of_nat ?k] => let v := eval cbv in (Z.of_nat k) in change (Z.of_nat k) with v end.
  rewrite !land_255, !Z.shiftr_div_pow2 by lia.
  rewrite Z.div_1_r.
  change (256 ^ 1) with (2 ^ 8). change (256 ^ 2) with (2 ^ 16). change (256 ^ 3) with (2 ^ 24).
  change (256 ^ 4) with (2 ^ 32). change (256 ^ 5) with (2 ^ 40). change (256 ^ 6) with (2 ^ 48).
  change (256 ^ 7) with (2 ^ 56).
  destruct (n <? 253) eqn:E1; [rewrite Z.mod_small by lia; reflexivity|].
  replace (n <=? 65535) with (n <? 2 ^ 16) by lia. destruct (n <? 2 ^ 16) eqn:E2; [reflexivity|].
  replace (n <=? 4294967295) with (n <? 2 ^ 32) by lia. destruct (n <? 2 ^ 32) eqn:E3; reflexivity.
Qed.

Lemma nonNegativeInteger_bytes_nonneg : forall n, 0 <= n -> nonNegativeInteger_bytes n = nonneg n.
Proof.
  intros n Hn. unfold nonNegativeInteger_bytes, nonneg. cbn [be].
  repeat match goal with |- context [Z.of_nat ?k] => let v := eval cbv in (Z.of_nat k) in change (Z.of_nat k) with v end.
  rewrite !land_255, !Z.shiftr_div_pow2 by lia.
  rewrite Z.div_1_r.
  change (256 ^ 1) with (2 ^ 8). change (256 ^ 2) with (2 ^ 16). change (256 ^ 3) with (2 ^ 24).
  change (256 ^ 4) with (2 ^ 32). change (256 ^ 5) with (2 ^ 40). change (256 ^ 6) with (2 ^ 48).
  change (256 ^ 7) with (2 ^ 56).
  replace (n <=? 255) with (n <? 2 ^ 8) by lia. destruct (n <? 2 ^ 8) eqn:E1; [reflexivity|].
  replace (n <=? 65535) with (n <? 2 ^ 16) by lia. destruct (n <? 2 ^ 16) eqn:E2; [reflexivity|].
  replace (n <=? 4294967295) with (n <? 2 ^ 32) by lia. destruct (n <? 2 ^ 32) eqn:E3; reflexivity.
Qed.

Lemma varnum_len : forall n, 0 <= n ->
  zlen (varnum n) = if n <? 253 then 1 else if n <? 2 ^ 16 then 3 else if n <? 2 ^ 32 then 5 else 9.
Proof.
  intros. unfold varnum. destruct (n <? 253); [reflexivity|]. destruct (n <? 2 ^ 16); [reflexivity|].
  destruct (n <? 2 ^ 32); reflexivity.
Qed.
Lemma varnum_pos : forall n, 1 <= zlen (varnum n).
Proof. intros. unfold varnum. repeat (destruct (_ <? _)); rewrite ?zlen_cons, ?zlen_be, ?zlen_nil; lia. Qed.
Lemma varnum_ok : forall n, 0 <= n -> bytes_ok (varnum n).
Proof.
  intros. unfold varnum. destruct (n <? 253) eqn:E; [repeat constructor; lia|].
  repeat (destruct (_ <? _)); constructor; try apply be_ok; unfold is_byte; lia.
Qed.

(** The encoder's shortest form is one of the acceptable forms. *)
Lemma varnum_form : forall n, u64 n -> var_form n (varnum n).
Proof.
  intros n Hn. unfold u64 in Hn. unfold varnum.
  destruct (n <? 253) eqn:E1; [constructor; unfold is_byte; lia|].
  destruct (n <? 2 ^ 16) eqn:E2.
  { replace n with (be_value (be 2 n)) at 1.
    - apply VF2; [apply be_ok | apply be_length].
    - rewrite be_value_be. apply Z.mod_small. change (256 ^ Z.of_nat 2) with (2 ^ 16). lia. }
  destruct (n <? 2 ^ 32) eqn:E3.
  { replace n with (be_value (be 4 n)) at 1.
    - apply VF4; [apply be_ok | apply be_length].
    - rewrite be_value_be. apply Z.mod_small. change (256 ^ Z.of_nat 4) with (2 ^ 32). lia. }
  replace n with (be_value (be 8 n)) at 1.
  - apply VF8; [apply be_ok | apply be_length].
  - rewrite be_value_be. apply Z.mod_small. change (256 ^ Z.of_nat 8) with (2 ^ 64). lia.
Qed.

Lemma var_form_len : forall n vb, var_form n vb -> 1 <= zlen vb <= 9.
Proof. intros n vb H; inversion H; subst; rewrite ?zlen_cons, ?zlen_nil; unfold zlen; try rewrite H1; lia. Qed.
Lemma var_form_u64 : forall n vb, var_form n vb -> u64 n.
Proof.
  intros n vb H; inversion H; subst; unfold u64.
  - unfold is_byte in *; lia.
  - pose proof (be_value_bound l H0). unfold zlen in *. rewrite H1 in *. change (256 ^ Z.of_nat 2) with (2 ^ 16) in *. lia.
  - pose proof (be_value_bound l H0). unfold zlen in *. rewrite H1 in *. change (256 ^ Z.of_nat 4) with (2 ^ 32) in *. lia.
  - pose proof (be_value_bound l H0). unfold zlen in *. rewrite H1 in *. change (256 ^ Z.of_nat 8) with (2 ^ 64) in *. lia.
Qed.

(** Every acceptable form is at least as long as the shortest one. *)
Lemma varnum_minimal : forall n vb, var_form n vb -> zlen (varnum n) <= zlen vb.
Proof.
  intros n vb H. pose proof (var_form_u64 _ _ H) as U. unfold u64 in U. rewrite varnum_len by lia.
  inversion H; subst; rewrite ?zlen_cons, ?zlen_nil.
  - replace (n <? 253) with true by lia. lia.
  - pose proof (be_value_bound l H0). unfold zlen in *. rewrite H1 in *. change (256 ^ Z.of_nat 2) with (2 ^ 16) in *.
    destruct (be_value l <? 253); [lia|]. replace (be_value l <? 2 ^ 16) with true by lia. lia.
  - pose proof (be_value_bound l H0). unfold zlen in *. rewrite H1 in *. change (256 ^ Z.of_nat 4) with (2 ^ 32) in *.
    destruct (be_value l <? 253); [lia|]. destruct (be_value l <? 2 ^ 16); [lia|]. replace (be_value l <? 2 ^ 32) with true by lia. lia.
  - unfold zlen in *. rewrite H1 in *. destruct (be_value l <? 253); [lia|].
    destruct (be_value l <? 2 ^ 16); [lia|]. destruct (be_value l <? 2 ^ 32); lia.
Qed.

(** ** Reading *)
Lemma byte_at_app : forall pre x rest, byte_at (pre ++ x :: rest) (zlen pre) = Ok x.
Proof.
  intros. unfold byte_at.
  replace (_ && _) with true by (symmetry; zl; lia).
  unfold zlen. rewrite Nat2Z.id, app_nth2, Nat.sub_diag by lia. reflexivity.
Qed.
Lemma byte_at_end : forall pre, byte_at pre (zlen pre) = Err IndexError.
Proof. intros. unfold byte_at. replace (_ && _) with false by lia. reflexivity. Qed.

Lemma read_be_app : forall k pre l rest, length l = k ->
  read_be k (pre ++ l ++ rest) (zlen pre) = Ok (be_value l).
Proof.
  induction k; intros pre l rest H; destruct l as [|x l]; try discriminate.
  - reflexivity.
  - cbn [length] in H. injection H as H. cbn [read_be].
    cbn [app]. rewrite byte_at_app. cbn [rbind].
    change (x :: l ++ rest) with ([x] ++ l ++ rest). rewrite app_assoc.
    replace (zlen pre + 1) with (zlen (pre ++ [x])) by zlia.
    rewrite IHk by assumption. cbn [rbind]. f_equal.
    rewrite be_value_cons, Z.shiftl_mul_pow2 by lia.
    f_equal. f_equal. subst k. unfold zlen. change 256 with (2 ^ 8). rewrite <- Z.pow_mul_r by lia. f_equal.
Qed.
Lemma read_be_short : forall k pre rest, (length rest < k)%nat ->
  read_be k (pre ++ rest) (zlen pre) = Err IndexError.
Proof.
  induction k; intros pre rest H; [lia|]. cbn [read_be]. destruct rest as [|x rest].
  - rewrite app_nil_r, byte_at_end. reflexivity.
  - rewrite byte_at_app. cbn [rbind length] in *.
    change (x :: rest) with ([x] ++ rest). rewrite app_assoc.
    replace (zlen pre + 1) with (zlen (pre ++ [x])) by zlia.
    rewrite IHk by lia. reflexivity.
Qed.

Lemma readVar_form : forall pre n vb rest, var_form n vb ->
  d_readVarNumber (pre ++ vb ++ rest) (zlen pre) = Ok (n, zlen pre + zlen vb).
Proof.
  intros pre n vb rest H. unfold d_readVarNumber. inversion H; subst; cbn [app].
  - rewrite byte_at_app. cbn [rbind]. replace (n <? 253) with true by lia. reflexivity.
  - rewrite byte_at_app. cbn [rbind]. cbn [Z.ltb Z.compare Pos.compare Pos.compare_cont]. unfold d_readExtendedVarNumber. cbn [Z.eqb Pos.eqb].
    change (253 :: l ++ rest) with ([253] ++ l ++ rest). rewrite app_assoc.
    replace (zlen pre + 1) with (zlen (pre ++ [253])) by zlia.
    rewrite read_be_app by assumption. cbn [rbind index_to_value]. f_equal. f_equal. zl. unfold zlen in *. lia.
  - rewrite byte_at_app. cbn [rbind]. cbn [Z.ltb Z.compare Pos.compare Pos.compare_cont]. unfold d_readExtendedVarNumber. cbn [Z.eqb Pos.eqb].
    change (254 :: l ++ rest) with ([254] ++ l ++ rest). rewrite app_assoc.
    replace (zlen pre + 1) with (zlen (pre ++ [254])) by zlia.
    rewrite read_be_app by assumption. cbn [rbind index_to_value]. f_equal. f_equal. zl. unfold zlen in *. lia.
  - rewrite byte_at_app. cbn [rbind]. cbn [Z.ltb Z.compare Pos.compare Pos.compare_cont]. unfold d_readExtendedVarNumber. cbn [Z.eqb Pos.eqb].
    change (255 :: l ++ rest) with ([255] ++ l ++ rest). rewrite app_assoc.
    replace (zlen pre + 1) with (zlen (pre ++ [255])) by zlia.
    rewrite read_be_app by assumption. cbn [rbind index_to_value]. f_equal. f_equal. zl. unfold zlen in *. lia.
Qed.

Lemma readVar_cases : forall pre rest, bytes_ok rest ->
  (exists n vb rest', rest = vb ++ rest' /\ var_form n vb /\
     d_readVarNumber (pre ++ rest) (zlen pre) = Ok (n, zlen pre + zlen vb))
  \/ ((forall n vb rest', rest = vb ++ rest' -> ~ var_form n vb) /\
      d_readVarNumber (pre ++ rest) (zlen pre) = Err ValueError).
Proof.
  intros pre rest H. destruct rest as [|x rest].
  { right. split.
    - intros n vb rest' E V. destruct vb; [|discriminate]. inversion V.
    - unfold d_readVarNumber. rewrite app_nil_r, byte_at_end. reflexivity. }
  inversion H as [|? ? Hx Hr]; subst. unfold is_byte in Hx.
  destruct (Z.ltb_spec x 253).
  { left. exists x, [x], rest. assert (V : var_form x [x]) by (constructor; unfold is_byte; lia).
    split; [reflexivity|]. split; [exact V|]. exact (readVar_form pre x [x] rest V). }
  assert (G : forall k, (k = 2%nat /\ x = 253 \/ k = 4%nat /\ x = 254 \/ k = 8%nat /\ x = 255) ->
    (exists n vb rest', x :: rest = vb ++ rest' /\ var_form n vb /\
     d_readVarNumber (pre ++ x :: rest) (zlen pre) = Ok (n, zlen pre + zlen vb))
    \/ ((forall n vb rest', x :: rest = vb ++ rest' -> ~ var_form n vb) /\
      d_readVarNumber (pre ++ x :: rest) (zlen pre) = Err ValueError)).
  { intros k Hk. destruct (Nat.le_gt_cases k (length rest)) as [L|L].
    - left. set (l := firstn k rest).
      assert (Hl : length l = k) by (unfold l; rewrite firstn_length; lia).
      assert (Bl : bytes_ok l) by (unfold l; rewrite <- (firstn_skipn k rest) in Hr; apply bytes_ok_app in Hr; tauto).
      assert (V : var_form (be_value l) (x :: l)) by (destruct Hk as [[-> ->]|[[-> ->]|[-> ->]]]; constructor; assumption).
      exists (be_value l), (x :: l), (skipn k rest). split; [cbn [app]; f_equal; symmetry; apply firstn_skipn|].
      split; [exact V|]. rewrite <- (firstn_skipn k rest) at 1. exact (readVar_form pre _ (x :: l) (skipn k rest) V).
    - right. split.
      + intros n vb rest' E V. inversion V; subst; cbn [app] in E; injection E as E1 E2; subst; try lia;
          destruct Hk as [[-> ?]|[[-> ?]|[-> ?]]]; try discriminate; rewrite app_length in L; lia.
      + unfold d_readVarNumber. rewrite byte_at_app. cbn [rbind]. replace (x <? 253) with false by lia.
        change (x :: rest) with ([x] ++ rest). rewrite app_assoc.
        replace (zlen pre + 1) with (zlen (pre ++ [x])) by zlia.
        unfold d_readExtendedVarNumber.
        destruct Hk as [[-> ->]|[[-> ->]|[-> ->]]]; cbn [Z.eqb Pos.eqb];
          (rewrite read_be_short by assumption); reflexivity. }
  destruct (Z.eq_dec x 253); [apply (G 2%nat); auto|].
  destruct (Z.eq_dec x 254); [apply (G 4%nat); auto|].
  apply (G 8%nat). right; right; split; [reflexivity|lia].
Qed.
