(** * Encoder: the array representation refines the byte-list representation. *)
From Verif Require Import Base BaseLemmas TlvModel TlvSpec TlvProofs.
From Coq Require Import ZifyBool.
Local Open Scope res_scope.

(** [e] has written exactly [out]. *)
Definition le_rep (e : lenc) (out : bytes) : Prop :=
  le_length e = zlen out /\ 0 < zlen (le_array e) /\ exists front, le_array e = front ++ out.

Lemma py_bytearray_len : forall n, 0 <= n -> zlen (py_bytearray n) = n.
Proof. intros. unfold py_bytearray, zlen. rewrite repeat_length. lia. Qed.

Lemma le_rep_new : forall c, 0 < c -> le_rep (le_new c) [].
Proof.
  intros. unfold le_rep, le_new. cbn [le_length le_array]. rewrite py_bytearray_len by lia.
  split; [reflexivity|]. split; [lia|]. exists (py_bytearray c). now rewrite app_nil_r.
Qed.

Lemma ensure_rep : forall a out front L, a = front ++ out -> 0 < zlen a -> zlen out <= L ->
  exists front' old, dba_ensureLengthFromBack a L = front' ++ old ++ out /\ zlen old = L - zlen out
    /\ 0 < zlen (dba_ensureLengthFromBack a L).
Proof.
  intros a out front L E Ha HL. unfold dba_ensureLengthFromBack.
  assert (S : forall f : bytes, L <= zlen f + zlen out ->
    exists front' old, f ++ out = front' ++ old ++ out /\ zlen old = L - zlen out).
  { intros f Hf. exists (firstn (Z.to_nat (zlen f + zlen out - L)) f), (skipn (Z.to_nat (zlen f + zlen out - L)) f).
    split; [rewrite app_assoc, firstn_skipn; reflexivity|]. rewrite zlen_skipn. zlia. }
  destruct (L <=? zlen a) eqn:C.
  - subst a. destruct (S front) as (f & o & E1 & E2); [zlia|]. exists f, o. rewrite <- E1. repeat split; auto.
  - set (n := if zlen a * 2 <? L then L else zlen a * 2).
    assert (Hn : L <= n /\ zlen a < n) by (unfold n; destruct (zlen a * 2 <? L) eqn:?; lia).
    unfold py_slice_assign_from. rewrite py_bytearray_len by lia.
    set (q := Z.to_nat _). set (p := firstn q (py_bytearray n)).
    assert (Hp : zlen p = n - zlen a).
    { unfold p, q, py_bound. rewrite zlen_firstn, py_bytearray_len by lia.
      replace (- zlen a <? 0) with true by lia. lia. }
    subst a. rewrite app_assoc. destruct (S (p ++ front)) as (f & o & E1 & E2); [zlia|].
    exists f, o. rewrite <- E1. repeat split; auto. zlia.
Qed.

Lemma setitem_app : forall f x l v, py_setitem (f ++ x :: l) (- (1 + zlen l)) v = Ok (f ++ v :: l).
Proof.
  intros. unfold py_setitem. zl. replace (- (1 + zlen l) <? 0) with true by lia.
  replace (_ && _) with true by lia.
  replace (Z.to_nat _) with (length f) by (unfold zlen; lia).
  rewrite firstn_app, firstn_all, Nat.sub_diag, firstn_O, app_nil_r.
  replace (f ++ x :: l) with ((f ++ [x]) ++ l) by (now rewrite <- app_assoc).
  rewrite skipn_app. replace (S (length f)) with (length (f ++ [x])) by (rewrite app_length; cbn; lia).
  rewrite skipn_all, Nat.sub_diag. reflexivity.
Qed.

Lemma le_sets_ok : forall bs f old out L i, length old = length bs ->
  L - i = zlen bs + zlen out ->
  le_sets (f ++ old ++ out) L i bs = Ok (f ++ bs ++ out).
Proof.
  induction bs as [|b bs IH]; intros f old out L i HL HE; destruct old as [|x old]; try discriminate.
  - reflexivity.
  - cbn [length] in HL. injection HL as HL. cbn [le_sets app].
    replace (- L + i) with (- (1 + zlen (old ++ out))) by (zl; unfold zlen in *; lia).
    rewrite setitem_app. cbn [rbind].
    replace (f ++ b :: old ++ out) with ((f ++ [b]) ++ old ++ out) by (rewrite <- app_assoc; reflexivity).
    rewrite IH; [|assumption|zlia]. f_equal. rewrite <- app_assoc. reflexivity.
Qed.

Lemma le_put_rep : forall e out bs, le_rep e out ->
  exists e', le_put e bs = Ok e' /\ le_rep e' (bs ++ out).
Proof.
  intros e out bs (HL & Ha & front & E). unfold le_put.
  destruct (ensure_rep (le_array e) out front (le_length e + zlen bs) E Ha) as (f & old & E1 & E2 & E3).
  { zlia. }
  rewrite E1. rewrite le_sets_ok; [|unfold zlen in *; lia|lia].
  cbn [rbind]. eexists. split; [reflexivity|]. unfold le_rep. cbn [le_length le_array].
  split; [zlia|]. split.
  - rewrite E1 in E3. zl. lia.
  - exists f. reflexivity.
Qed.

Lemma le_writeBuffer_rep : forall e out b, le_rep e out ->
  exists e', le_writeBuffer b e = Ok e' /\ le_rep e' (e_writeBuffer b out).
Proof.
  intros e out [b|] H; cbn [le_writeBuffer e_writeBuffer]; [|exists e; auto].
  destruct H as (HL & Ha & front & E).
  eexists. split; [reflexivity|]. unfold le_rep. cbn [le_length le_array].
  split; [zlia|].
  destruct (ensure_rep (le_array e) out front (le_length e + zlen b) E Ha) as (f & old & E1 & E2 & E3).
  { zlia. }
  assert (G : dba_copyFromBack (le_array e) b (le_length e + zlen b) = f ++ b ++ out).
  { unfold dba_copyFromBack. rewrite E1. unfold py_slice_assign, py_bound.
    assert (zlen (f ++ old ++ out) = zlen f + zlen b + zlen out) by zlia.
    replace (zlen (f ++ old ++ out) - (le_length e + zlen b)) with (zlen f) by zlia.
    replace (zlen f <? 0) with false by zlia. replace (zlen f + zlen b <? 0) with false by zlia.
    replace (Z.max 0 (Z.min (zlen f) _)) with (zlen f) by zlia.
    replace (Z.max (zlen f) _) with (zlen (f ++ old)) by zlia.
    unfold zlen. rewrite !Nat2Z.id.
    rewrite firstn_app, firstn_all, Nat.sub_diag, firstn_O, app_nil_r. f_equal. f_equal.
    rewrite app_assoc, skipn_app, skipn_all, Nat.sub_diag. reflexivity. }
  rewrite G. split; [|exists f; reflexivity].
  rewrite E1 in E3. zl. lia.
Qed.

Lemma le_writeTypeAndLength_rep : forall e out t l, le_rep e out ->
  exists e', le_writeTypeAndLength t l e = Ok e' /\ le_rep e' (e_writeTypeAndLength t l out).
Proof.
  intros. unfold le_writeTypeAndLength, le_writeVarNumber.
  destruct (le_put_rep e out (varNumber_bytes l) H) as (e1 & E1 & R1). rewrite E1. cbn [rbind].
  destruct (le_put_rep e1 _ (varNumber_bytes t) R1) as (e2 & E2 & R2). exists e2. auto.
Qed.

Definition rep_res (r : res lenc) (s : res bytes) : Prop :=
  match r, s with
  | Ok e, Ok out => le_rep e out
  | Err x, Err y => x = y
  | _, _ => False
  end.

Lemma le_nnTlv_rep : forall e out t n, le_rep e out ->
  rep_res (le_writeNonNegativeIntegerTlv t n e) (e_writeNonNegativeIntegerTlv t n out).
Proof.
  intros. unfold le_writeNonNegativeIntegerTlv, e_writeNonNegativeIntegerTlv,
    le_writeNonNegativeInteger, e_writeNonNegativeInteger.
  destruct (n <? 0); [reflexivity|].
  destruct (le_put_rep e out (nonNegativeInteger_bytes n) H) as (e1 & E1 & R1). rewrite E1. cbn [rbind].
  replace (le_length e1 - le_length e) with (zlen (nonNegativeInteger_bytes n ++ out) - zlen out).
  2:{ destruct H as (-> & _). destruct R1 as (-> & _). reflexivity. }
  destruct (le_writeTypeAndLength_rep e1 _ t (zlen (nonNegativeInteger_bytes n ++ out) - zlen out) R1) as (e2 & E2 & R2).
  rewrite E2. exact R2.
Qed.

Lemma le_blobTlv_rep : forall e out t b, le_rep e out ->
  rep_res (le_writeBlobTlv t b e) (Ok (e_writeBlobTlv t b out)).
Proof.
  intros. destruct b as [b|]; cbn [le_writeBlobTlv e_writeBlobTlv].
  - destruct (le_writeBuffer_rep e out (Some b) H) as (e1 & E1 & R1). rewrite E1. cbn [rbind].
    destruct (le_writeTypeAndLength_rep e1 _ t (zlen b) R1) as (e2 & E2 & R2). rewrite E2. exact R2.
  - destruct (le_writeTypeAndLength_rep e _ t 0 H) as (e2 & E2 & R2). rewrite E2. exact R2.
Qed.

Lemma le_op_rep : forall o e out, le_rep e out -> rep_res (le_op o e) (e_op o out).
Proof.
  intros o e out H. destruct o as [n|t l|n|t n|t n|b|t b|t b]; cbn [le_op e_op].
  - destruct (le_put_rep e out (varNumber_bytes n) H) as (e1 & E1 & R1). unfold le_writeVarNumber. rewrite E1. exact R1.
  - destruct (le_writeTypeAndLength_rep e out t l H) as (e1 & E1 & R1). rewrite E1. exact R1.
  - unfold le_writeNonNegativeInteger, e_writeNonNegativeInteger. destruct (n <? 0); [reflexivity|].
    destruct (le_put_rep e out (nonNegativeInteger_bytes n) H) as (e1 & E1 & R1). rewrite E1. exact R1.
  - now apply le_nnTlv_rep.
  - destruct n as [n|]; cbn; [|exact H]. destruct (0 <=? n); [now apply le_nnTlv_rep|exact H].
  - destruct (le_writeBuffer_rep e out b H) as (e1 & E1 & R1). rewrite E1. exact R1.
  - now apply le_blobTlv_rep.
  - destruct b as [b|]; cbn [le_writeOptionalBlobTlv e_writeOptionalBlobTlv]; [|exact H].
    destruct (0 <? zlen b); [now apply le_blobTlv_rep|exact H].
Qed.

Lemma le_run_rep : forall ops e out, le_rep e out -> rep_res (le_run ops e) (e_run ops out).
Proof.
  induction ops as [|o ops IH]; intros e out H; [exact H|].
  cbn [le_run e_run]. pose proof (le_op_rep o e out H) as R.
  destruct (le_op o e) as [e1|x], (e_op o out) as [out1|y]; cbn [rep_res rbind] in *; try contradiction.
  - now apply IH.
  - exact R.
Qed.

Lemma le_getOutput_rep : forall e out, le_rep e out -> le_getOutput e = out /\ le_length e = zlen out.
Proof.
  intros e out (HL & Ha & front & E). split; [|exact HL]. unfold le_getOutput. rewrite E, HL.
  replace (Z.to_nat _) with (length front) by (zl; unfold zlen; lia).
  rewrite skipn_app, skipn_all, Nat.sub_diag. reflexivity.
Qed.

Lemma encoder_capacity_independent : forall ops c, 0 < c ->
  match le_run ops (le_new c), e_run ops [] with
  | Ok e, Ok out => le_getOutput e = out /\ le_length e = zlen out
  | Err x, Err y => x = y
  | _, _ => False
  end.
Proof.
  intros ops c Hc. pose proof (le_run_rep ops _ _ (le_rep_new c Hc)) as R.
  destruct (le_run ops (le_new c)), (e_run ops []); cbn [rep_res] in R; auto.
  now apply le_getOutput_rep.
Qed.
