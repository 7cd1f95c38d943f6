(** * Decoder lemmas: reading a sequence of TLV elements (cursor predicate),
      the critical rule, and safety on arbitrary input. *)
From Verif Require Import Base BaseLemmas TlvModel TlvSpec TlvProofs.
From Coq Require Import ZifyBool.
Local Open Scope dec_scope.

(** ** Grammar lemmas *)
Lemma elems_nil : elems [] = [].
Proof. reflexivity. Qed.
Lemma elems_cons : forall t v es, elems ((t, v) :: es) = tlv t v ++ elems es.
Proof. reflexivity. Qed.
Lemma elems_app : forall a b, elems (a ++ b) = elems a ++ elems b.
Proof. intros. unfold elems. now rewrite map_app, concat_app. Qed.

(** Types and lengths representable. *)
Definition small (es : list (Z * bytes)) : Prop :=
  Forall (fun e => u64 (fst e) /\ zlen (snd e) < 2 ^ 64) es.
Lemma small_app : forall a b, small (a ++ b) <-> small a /\ small b.
Proof. intros. apply Forall_app. Qed.

Lemma tlv_len_ge : forall t v, zlen v + 2 <= zlen (tlv t v).
Proof. intros. unfold tlv. zl. pose proof (varnum_pos t). pose proof (varnum_pos (zlen v)). lia. Qed.

Lemma elems_len_le : forall es e, In e es -> zlen (snd e) <= zlen (elems es).
Proof.
  induction es as [|[t v] es IH]; intros e [].
  - subst. rewrite elems_cons. cbn [snd]. pose proof (tlv_len_ge t v). zlia.
  - specialize (IH e H). rewrite elems_cons. zlia.
Qed.

Lemma small_of_len : forall es, Forall (fun e => u64 (fst e)) es -> zlen (elems es) < 2 ^ 64 -> small es.
Proof.
  intros es H L. unfold small. rewrite Forall_forall in *. intros e He. split; [auto|].
  pose proof (elems_len_le es e He). lia.
Qed.

(** [off] is at element sequence [es], which ends at [end_]. *)
Definition At (inp : bytes) (off end_ : Z) (es : list (Z * bytes)) : Prop :=
  small es /\ exists pre post, inp = pre ++ elems es ++ post /\ off = zlen pre /\ end_ = off + zlen (elems es).

Definition hdr (t : Z) (v : bytes) : Z := zlen (varnum t) + zlen (varnum (zlen v)).
Lemma tlv_len : forall t v, zlen (tlv t v) = hdr t v + zlen v.
Proof. intros. unfold tlv, hdr. zlia. Qed.

Lemma At_whole : forall es, small es -> At (elems es) 0 (zlen (elems es)) es.
Proof. intros. split; [assumption|]. exists [], []. rewrite app_nil_r. repeat split. Qed.

Lemma At_nil : forall inp off end_, At inp off end_ [] -> off = end_.
Proof. intros inp off end_ (_ & pre & post & _ & _ & E). rewrite elems_nil, zlen_nil in E. lia. Qed.

Lemma At_app : forall inp off end_ a b, At inp off end_ (a ++ b) -> At inp (off + zlen (elems a)) end_ b.
Proof.
  intros inp off end_ a b (S & pre & post & E & O & F). apply small_app in S. split; [tauto|].
  exists (pre ++ elems a), post. rewrite elems_app in *. repeat split.
  - rewrite E. now rewrite !app_assoc.
  - zlia.
  - zlia.
Qed.

Lemma At_next : forall inp off end_ t v es, At inp off end_ ((t, v) :: es) -> At inp (off + zlen (tlv t v)) end_ es.
Proof.
  intros. change ((t, v) :: es) with ([(t, v)] ++ es) in H. apply At_app in H.
  rewrite elems_cons, elems_nil, app_nil_r in H. exact H.
Qed.

Lemma At_readVar : forall inp off end_ t v es, At inp off end_ ((t, v) :: es) ->
  d_readVarNumber inp off = Ok (t, off + zlen (varnum t)).
Proof.
  intros inp off end_ t v es (S & pre & post & E & O & F). inversion S as [|? ? [U _] _]; subst. cbn [fst snd] in *.
  rewrite elems_cons. unfold tlv. rewrite <- !app_assoc. apply readVar_form. now apply varnum_form.
Qed.

Lemma At_readTL : forall inp off end_ t v es, At inp off end_ ((t, v) :: es) ->
  d_readTypeAndLength t inp off = Ok (zlen v, off + hdr t v).
Proof.
  intros inp off end_ t v es H. unfold d_readTypeAndLength, dbind.
  rewrite (At_readVar _ _ _ _ _ _ H). rewrite Z.eqb_refl. cbn [negb].
  destruct H as (S & pre & post & E & O & F). inversion S as [|? ? [U L] _]; subst. cbn [fst snd] in *.
  rewrite elems_cons. unfold tlv.
  assert (V : var_form (zlen v) (varnum (zlen v))) by (apply varnum_form; unfold u64; zlia).
  pose proof (readVar_form (pre ++ varnum t) (zlen v) (varnum (zlen v)) (v ++ elems es ++ post) V) as R.
  replace (pre ++ ((varnum t ++ varnum (zlen v) ++ v) ++ elems es) ++ post)
    with ((pre ++ varnum t) ++ varnum (zlen v) ++ v ++ elems es ++ post) by (rewrite <- !app_assoc; reflexivity).
  replace (zlen pre + zlen (varnum t)) with (zlen (pre ++ varnum t)) by zlia.
  rewrite R. unfold d_getOffset, d_inputLength, derr, dret.
  match goal with |- context [if ?c then _ else _] => replace c with false by zlia end.
  unfold hdr. f_equal. f_equal. zlia.
Qed.

Lemma At_peek : forall inp off end_ es t, At inp off end_ es ->
  d_peekType t end_ inp off = Ok (match es with [] => false | (t', _) :: _ => t' =? t end, off).
Proof.
  intros inp off end_ es t H. unfold d_peekType, dbind, d_getOffset.
  destruct es as [|[t' v] es].
  - apply At_nil in H. subst. rewrite Z.leb_refl. reflexivity.
  - assert (off < end_).
    { destruct H as (_ & pre & post & _ & _ & F). rewrite elems_cons in F. pose proof (tlv_len_ge t' v). zlia. }
    replace (end_ <=? off) with false by lia.
    rewrite (At_readVar _ _ _ _ _ _ H). reflexivity.
Qed.

Lemma At_blob : forall inp off end_ t v es, At inp off end_ ((t, v) :: es) ->
  d_readBlobTlv t inp off = Ok (v, off + zlen (tlv t v)).
Proof.
  intros inp off end_ t v es H. unfold d_readBlobTlv, dbind.
  rewrite (At_readTL _ _ _ _ _ _ H).
  destruct H as (S & pre & post & E & O & F). subst.
  unfold d_getOffset, d_getSlice, d_skip, dret. rewrite tlv_len, Z.add_assoc. f_equal. f_equal.
  rewrite elems_cons. unfold tlv.
  replace (pre ++ ((varnum t ++ varnum (zlen v) ++ v) ++ elems es) ++ post)
    with ((pre ++ varnum t ++ varnum (zlen v)) ++ v ++ elems es ++ post) by (rewrite <- !app_assoc; reflexivity).
  apply zslice_app'; unfold hdr; zlia.
Qed.

Lemma At_nested : forall inp off end_ t es1 es, At inp off end_ ((t, elems es1) :: es) -> small es1 ->
  d_readNestedTlvsStart t inp off = Ok (off + zlen (tlv t (elems es1)), off + hdr t (elems es1))
  /\ At inp (off + hdr t (elems es1)) (off + zlen (tlv t (elems es1))) es1.
Proof.
  intros inp off end_ t es1 es H S1. split.
  - unfold d_readNestedTlvsStart, dbind. rewrite (At_readTL _ _ _ _ _ _ H).
    unfold d_getOffset, dret. rewrite tlv_len. f_equal. f_equal. lia.
  - split; [assumption|]. destruct H as (S & pre & post & E & O & F).
    exists (pre ++ varnum t ++ varnum (zlen (elems es1))), (elems es ++ post). subst. repeat split.
    + rewrite elems_cons. unfold tlv. rewrite <- !app_assoc. reflexivity.
    + unfold hdr. zlia.
    + rewrite tlv_len. zlia.
Qed.

Lemma finish_at_end : forall e b inp, d_finishNestedTlvs e b inp e = Ok (tt, e).
Proof. intros. unfold d_finishNestedTlvs. now rewrite Z.eqb_refl. Qed.

Lemma At_finish : forall inp off end_ b, At inp off end_ [] ->
  d_finishNestedTlvs end_ b inp off = Ok (tt, end_).
Proof. intros. apply At_nil in H. subst. apply finish_at_end. Qed.

Lemma nonneg_cases : forall n, 0 <= n ->
  (n < 2 ^ 8 /\ nonneg n = be 1 n) \/ (2 ^ 8 <= n < 2 ^ 16 /\ nonneg n = be 2 n) \/
  (2 ^ 16 <= n < 2 ^ 32 /\ nonneg n = be 4 n) \/ (2 ^ 32 <= n /\ nonneg n = be 8 n).
Proof.
  intros. unfold nonneg. destruct (n <? 2 ^ 8) eqn:?; [left; split; [lia|reflexivity]|].
  destruct (n <? 2 ^ 16) eqn:?; [right; left; split; [lia|reflexivity]|].
  destruct (n <? 2 ^ 32) eqn:?; [right; right; left; split; [lia|reflexivity]|].
  right; right; right; split; [lia|reflexivity].
Qed.

Lemma nonneg_len : forall n, 0 <= n -> 1 <= zlen (nonneg n) <= 8.
Proof. intros. destruct (nonneg_cases n H) as [[_ ->]|[[_ ->]|[[_ ->]|[_ ->]]]]; rewrite zlen_be; lia. Qed.
Lemma nonneg_ok : forall n, 0 <= n -> bytes_ok (nonneg n).
Proof. intros. destruct (nonneg_cases n H) as [[_ ->]|[[_ ->]|[[_ ->]|[_ ->]]]]; apply be_ok. Qed.

Lemma readNonNeg_app : forall pre n post, 0 <= n ->
  d_readNonNegativeInteger (zlen (nonneg n)) (pre ++ nonneg n ++ post) (zlen pre)
   = Ok (n mod 2 ^ 64, zlen pre + zlen (nonneg n)).
Proof.
  intros pre n post H. unfold d_readNonNegativeInteger.
  destruct (nonneg_cases n H) as [[B ->]|[[B ->]|[[B ->]|[B ->]]]]; rewrite zlen_be;
    cbn [Z.of_nat Pos.of_succ_nat Pos.succ Z.eqb Pos.eqb];
    rewrite read_be_app by apply be_length; rewrite be_value_be.
  - cbn [Z.of_nat Pos.of_succ_nat Pos.succ Z.eqb Pos.eqb rbind index_to_value].
    change (256 ^ 1) with (2 ^ 8). rewrite !Z.mod_small by lia. reflexivity.
  - cbn [Z.of_nat Pos.of_succ_nat Pos.succ Z.eqb Pos.eqb rbind index_to_value].
    change (256 ^ 2) with (2 ^ 16). rewrite !Z.mod_small by lia. reflexivity.
  - cbn [Z.of_nat Pos.of_succ_nat Pos.succ Z.eqb Pos.eqb rbind index_to_value].
    change (256 ^ 4) with (2 ^ 32). rewrite !Z.mod_small by lia. reflexivity.
  - reflexivity.
Qed.

Lemma At_nnTlv_mod : forall inp off end_ t n es, 0 <= n -> At inp off end_ ((t, nonneg n) :: es) ->
  d_readNonNegativeIntegerTlv t inp off = Ok (n mod 2 ^ 64, off + zlen (tlv t (nonneg n))).
Proof.
  intros inp off end_ t n es Hn H. unfold d_readNonNegativeIntegerTlv, dbind.
  rewrite (At_readTL _ _ _ _ _ _ H).
  destruct H as (S & pre & post & E & O & F). subst.
  rewrite elems_cons. unfold tlv at 1.
  replace (pre ++ ((varnum t ++ varnum (zlen (nonneg n)) ++ nonneg n) ++ elems es) ++ post)
    with ((pre ++ varnum t ++ varnum (zlen (nonneg n))) ++ nonneg n ++ elems es ++ post) by (rewrite <- !app_assoc; reflexivity).
  replace (zlen pre + hdr t (nonneg n)) with (zlen (pre ++ varnum t ++ varnum (zlen (nonneg n)))) by (unfold hdr; zlia).
  rewrite readNonNeg_app by assumption. f_equal. f_equal. rewrite tlv_len. unfold hdr. zlia.
Qed.

Lemma At_nnTlv : forall inp off end_ t n es, u64 n -> At inp off end_ ((t, nonneg n) :: es) ->
  d_readNonNegativeIntegerTlv t inp off = Ok (n, off + zlen (tlv t (nonneg n))).
Proof.
  intros. unfold u64 in *. rewrite (At_nnTlv_mod inp off end_ t n es) by (auto; lia). rewrite Z.mod_small by lia. reflexivity.
Qed.

(** ** Optional elements *)
Definition optel (t : Z) (o : option bytes) : list (Z * bytes) :=
  match o with None => [] | Some v => [(t, v)] end.

Definition hdne (t : Z) (es : list (Z * bytes)) : Prop :=
  match es with [] => True | (t', _) :: _ => t' <> t end.

Lemma hdne_optel : forall t t' o es, t' <> t -> hdne t es -> hdne t (optel t' o ++ es).
Proof. intros t t' [v|] es H H'; cbn; auto. Qed.
Lemma hdne_cons : forall t t' v es, t' <> t -> hdne t ((t', v) :: es).
Proof. intros; cbn; auto. Qed.
Lemma hdne_nil : forall t, hdne t [].
Proof. intros; exact I. Qed.

Lemma At_optBlob : forall inp off end_ t o es, At inp off end_ (optel t o ++ es) -> hdne t es ->
  d_readOptionalBlobTlv t end_ inp off = Ok (o, off + zlen (elems (optel t o)))
  /\ At inp (off + zlen (elems (optel t o))) end_ es.
Proof.
  intros inp off end_ t o es H N. split; [|now apply At_app].
  unfold d_readOptionalBlobTlv, dbind. rewrite (At_peek _ _ _ _ t H).
  destruct o as [v|]; cbn [optel app] in *.
  - rewrite Z.eqb_refl. rewrite (At_blob _ _ _ _ _ _ H). unfold dret. rewrite elems_cons, elems_nil, app_nil_r. reflexivity.
  - rewrite elems_nil, zlen_nil, Z.add_0_r. destruct es as [|[t' v'] es]; [reflexivity|].
    cbn [hdne] in N. replace (t' =? t) with false by lia. reflexivity.
Qed.

Definition optnn (t : Z) (o : option Z) : list (Z * bytes) :=
  match o with None => [] | Some n => [(t, nonneg n)] end.
Lemma optnn_optel : forall t o, optnn t o = optel t (option_map nonneg o).
Proof. intros t [n|]; reflexivity. Qed.

Definition ou64 (o : option Z) : Prop := match o with None => True | Some n => u64 n end.

Lemma At_optNN : forall inp off end_ t o es, At inp off end_ (optnn t o ++ es) -> hdne t es -> ou64 o ->
  d_readOptionalNonNegativeIntegerTlv t end_ inp off = Ok (o, off + zlen (elems (optnn t o)))
  /\ At inp (off + zlen (elems (optnn t o))) end_ es.
Proof.
  intros inp off end_ t o es H N U. split; [|now apply At_app].
  unfold d_readOptionalNonNegativeIntegerTlv, dbind. rewrite (At_peek _ _ _ _ t H).
  destruct o as [v|]; cbn [optnn app ou64] in *.
  - rewrite Z.eqb_refl. rewrite (At_nnTlv _ _ _ _ _ _ U H). unfold dret. rewrite elems_cons, elems_nil, app_nil_r. reflexivity.
  - rewrite elems_nil, zlen_nil, Z.add_0_r. destruct es as [|[t' v'] es]; [reflexivity|].
    cbn [hdne] in N. replace (t' =? t) with false by lia. reflexivity.
Qed.

Lemma At_bool : forall inp off end_ t (b : bool) es, At inp off end_ ((if b then [(t, [])] else []) ++ es) -> hdne t es ->
  d_readBooleanTlv t end_ inp off = Ok (b, off + zlen (elems (if b then [(t, [])] else [])))
  /\ At inp (off + zlen (elems (if b then [(t, [])] else []))) end_ es.
Proof.
  intros inp off end_ t b es H N. split; [|now apply At_app].
  unfold d_readBooleanTlv, dbind. rewrite (At_peek _ _ _ _ t H).
  destruct b; cbn [app] in *.
  - rewrite Z.eqb_refl. rewrite (At_readTL _ _ _ _ _ _ H). unfold d_skip, dret.
    replace (zlen (elems [(t, [])])) with (zlen (tlv t [])) by (unfold elems; cbn [map concat fst snd]; now rewrite app_nil_r).
    rewrite tlv_len. f_equal. f_equal. lia.
  - rewrite elems_nil, zlen_nil, Z.add_0_r. destruct es as [|[t' v'] es]; [reflexivity|].
    cbn [hdne] in N. replace (t' =? t) with false by lia. reflexivity.
Qed.

(** ** Encoder pieces as grammar *)
Local Open Scope res_scope.
Lemma e_TL_tlv : forall t v out, 0 <= t -> e_writeTypeAndLength t (zlen v) (v ++ out) = tlv t v ++ out.
Proof.
  intros. unfold e_writeTypeAndLength, e_writeVarNumber, tlv.
  rewrite !varNumber_bytes_varnum by zlia. rewrite <- !app_assoc. reflexivity.
Qed.
Lemma e_TL_tlv' : forall t v out n, 0 <= t -> n = zlen (v ++ out) - zlen out ->
  e_writeTypeAndLength t n (v ++ out) = tlv t v ++ out.
Proof. intros; subst. rewrite <- e_TL_tlv by assumption. f_equal. zlia. Qed.
Lemma e_blobTlv_tlv : forall t v out, 0 <= t ->
  e_writeBlobTlv t v out = tlv t (match v with Some b => b | None => [] end) ++ out.
Proof.
  intros t [v|] out H; cbn [e_writeBlobTlv e_writeBuffer].
  - now apply e_TL_tlv.
  - rewrite <- e_TL_tlv by assumption. reflexivity.
Qed.
Lemma e_nnTlv_tlv : forall t n out, 0 <= t -> 0 <= n ->
  e_writeNonNegativeIntegerTlv t n out = Ok (tlv t (nonneg n) ++ out).
Proof.
  intros. unfold e_writeNonNegativeIntegerTlv, e_writeNonNegativeInteger.
  replace (n <? 0) with false by lia. cbn [rbind]. rewrite nonNegativeInteger_bytes_nonneg by assumption.
  f_equal. now apply e_TL_tlv'.
Qed.
Definition onn (o : option Z) : Prop := match o with None => True | Some n => 0 <= n end.
Lemma e_optnn_elems : forall t o out, 0 <= t -> onn o ->
  e_writeOptionalNonNegativeIntegerTlv t o out = Ok (elems (optnn t o) ++ out).
Proof.
  intros t [n|] out H U; cbn [e_writeOptionalNonNegativeIntegerTlv optnn onn] in *; [|reflexivity].
  replace (0 <=? n) with true by lia. rewrite e_nnTlv_tlv by assumption.
  rewrite elems_cons, elems_nil, app_nil_r. reflexivity.
Qed.
(** A null or empty blob is omitted. *)
Definition nonempty_blob (o : option bytes) : option bytes :=
  match o with Some [] => None | o => o end.
Lemma e_optblob_elems : forall t o out, 0 <= t ->
  e_writeOptionalBlobTlv t o out = elems (optel t (nonempty_blob o)) ++ out.
Proof.
  intros t [[|x v]|] out H; cbn [e_writeOptionalBlobTlv nonempty_blob optel]; try reflexivity.
  replace (0 <? zlen (x :: v)) with true by zlia.
  rewrite e_blobTlv_tlv by assumption. rewrite elems_cons, elems_nil, app_nil_r. reflexivity.
Qed.

(** ** Safety on arbitrary input *)
Definition decode_error (e : exn) : Prop := e = ValueError \/ e = RuntimeError.

(** A decoding step from any offset inside any input either succeeds without
    moving backwards or beyond the end, with [Q] of the result, or raises a
    decoding error. *)
Definition dsafe {A} (m : dec A) (Q : bytes -> Z -> A -> Z -> Prop) : Prop :=
  forall inp off, bytes_ok inp -> 0 <= off <= zlen inp ->
  match m inp off with
  | Ok (a, off') => off <= off' <= zlen inp /\ Q inp off a off'
  | Err e => decode_error e
  end.
Definition anyQ {A} : bytes -> Z -> A -> Z -> Prop := fun _ _ _ _ => True.

Lemma dsafe_weaken : forall A (m : dec A) (Q Q' : bytes -> Z -> A -> Z -> Prop), dsafe m Q ->
  (forall inp off a off', bytes_ok inp -> 0 <= off <= off' -> off' <= zlen inp -> Q inp off a off' -> Q' inp off a off') -> dsafe m Q'.
Proof.
  intros A m Q Q' H HQ inp off B O. specialize (H inp off B O). destruct (m inp off) as [[a off']|e]; [|exact H].
  destruct H. split; [assumption|]. apply HQ; auto; lia.
Qed.

Lemma dsafe_bind : forall A B (m : dec A) (k : A -> dec B) (Q : bytes -> Z -> A -> Z -> Prop) (R : bytes -> Z -> B -> Z -> Prop),
  dsafe m Q ->
  (forall inp off a off', bytes_ok inp -> 0 <= off <= off' -> off' <= zlen inp -> Q inp off a off' ->
     match k a inp off' with
     | Ok (b, off'') => off' <= off'' <= zlen inp /\ R inp off b off''
     | Err e => decode_error e
     end) ->
  dsafe (dbind m k) R.
Proof.
  intros A B m k Q R Hm Hk inp off Bi Ho. unfold dbind. specialize (Hm inp off Bi Ho).
  destruct (m inp off) as [[a off']|e]; [|exact Hm]. destruct Hm as [H1 H2].
  specialize (Hk inp off a off' Bi ltac:(lia) ltac:(lia) H2). destruct (k a inp off') as [[b off'']|e]; [|exact Hk].
  destruct Hk. split; [lia|assumption].
Qed.

(** Simple composition when only the offsets matter. *)
Lemma dsafe_bind_any : forall A B (m : dec A) (k : A -> dec B),
  dsafe m anyQ -> (forall a, dsafe (k a) anyQ) -> dsafe (dbind m k) anyQ.
Proof.
  intros A B m k Hm Hk. eapply dsafe_bind; [exact Hm|]. intros inp off a off' Bi O1 O2 _.
  specialize (Hk a inp off' Bi ltac:(lia)). destruct (k a inp off') as [[b o]|e]; auto.
Qed.
Lemma dsafe_ret : forall A (a : A), dsafe (dret a) anyQ.
Proof. intros A a inp off B O. cbn. split; [lia|exact I]. Qed.
Lemma dsafe_err : forall A e Q, decode_error e -> dsafe (@derr A e) Q.
Proof. intros A e Q H inp off B O. exact H. Qed.
Lemma dsafe_getOffset : dsafe d_getOffset anyQ.
Proof. intros inp off B O. cbn. split; [lia|exact I]. Qed.
Lemma dsafe_inputLength : dsafe d_inputLength anyQ.
Proof. intros inp off B O. cbn. split; [lia|exact I]. Qed.
Lemma dsafe_getSlice : forall a b, dsafe (d_getSlice a b) anyQ.
Proof. intros a b inp off B O. cbn. split; [lia|exact I]. Qed.

Lemma split_at : forall (inp : bytes) off, 0 <= off <= zlen inp ->
  exists pre rest, inp = pre ++ rest /\ off = zlen pre.
Proof.
  intros. exists (firstn (Z.to_nat off) inp), (skipn (Z.to_nat off) inp).
  split; [symmetry; apply firstn_skipn|]. rewrite zlen_firstn. lia.
Qed.

Lemma dsafe_readVar : dsafe d_readVarNumber (fun _ off n off' => off < off' /\ u64 n).
Proof.
  intros inp off B O. destruct (split_at inp off O) as (pre & rest & -> & ->).
  apply bytes_ok_app in B. destruct B as [_ B].
  destruct (readVar_cases pre rest B) as [(n & vb & rest' & E & V & R)|(_ & R)]; rewrite R.
  - pose proof (var_form_len _ _ V). pose proof (var_form_u64 _ _ V). subst. zl. split; [lia|]. split; [lia|assumption].
  - left; reflexivity.
Qed.

Lemma dsafe_readTL : forall t, dsafe (d_readTypeAndLength t) (fun inp off n off' => off + 2 <= off' /\ 0 <= n /\ off' + n <= zlen inp).
Proof.
  intros t. unfold d_readTypeAndLength. eapply dsafe_bind; [apply dsafe_readVar|].
  intros inp off a off' B O1 O2 [Q1 Q2].
  destruct (negb (a =? t)); [left; reflexivity|].
  pose proof (dsafe_readVar inp off' B ltac:(lia)) as R. unfold dbind.
  destruct (d_readVarNumber inp off') as [[n off'']|e]; [|exact R].
  destruct R as [R1 [R2 R3]]. unfold d_getOffset, d_inputLength, derr, dret.
  destruct (zlen inp <? off'' + n) eqn:E; [left; reflexivity|]. unfold u64 in *. lia.
Qed.

Lemma dsafe_readBlob : forall t, dsafe (d_readBlobTlv t)
  (fun inp off v off' => off + 2 <= off' /\ bytes_ok v /\ exists a, 0 <= a /\ v = zslice inp a off' /\ off + 2 <= a /\ a + zlen v = off').
Proof.
  intros t. unfold d_readBlobTlv. eapply dsafe_bind; [apply dsafe_readTL|].
  intros inp off n off' B O1 O2 (Q1 & Q2 & Q3). unfold dbind, d_getOffset, d_getSlice, d_skip, dret.
  split; [lia|]. split; [lia|]. split.
  - destruct (zslice_split _ inp off' (off' + n) ltac:(lia) ltac:(lia)) as (p & q & E & _).
    rewrite E in B. apply bytes_ok_app in B. destruct B as [_ B]. apply bytes_ok_app in B. tauto.
  - exists off'. rewrite zslice_length by lia. repeat split; try lia.
Qed.

Lemma dsafe_readNested : forall t, dsafe (d_readNestedTlvsStart t) (fun inp off e off' => off + 2 <= off' <= e /\ e <= zlen inp).
Proof.
  intros t. unfold d_readNestedTlvsStart. eapply dsafe_bind; [apply dsafe_readTL|].
  intros inp off n off' B O1 O2 (Q1 & Q2 & Q3). unfold dbind, d_getOffset, dret. lia.
Qed.

Lemma dsafe_peek : forall t e, dsafe (d_peekType t e) (fun inp off b off' => off' = off /\ (b = true -> off < e)).
Proof.
  intros t e inp off B O. unfold d_peekType, dbind, d_getOffset.
  destruct (e <=? off) eqn:E; [cbn; repeat split; try lia; discriminate|].
  pose proof (dsafe_readVar inp off B O) as R. destruct (d_readVarNumber inp off) as [[n off'']|x]; [|exact R].
  cbn. repeat split; try lia.
Qed.

Lemma read_be_err : forall k inp off e, read_be k inp off = Err e -> e = IndexError.
Proof.
  induction k; intros inp off e H; cbn [read_be] in H; [discriminate|].
  unfold byte_at in H. destruct (_ && _); cbn [rbind] in H; [|now inversion H].
  destruct (read_be k inp (off + 1)) eqn:E; cbn [rbind] in H; [discriminate|]. inversion H; subst. eauto.
Qed.
Lemma read_be_ok_len : forall k inp off r, 0 <= off <= zlen inp -> read_be k inp off = Ok r -> off + Z.of_nat k <= zlen inp.
Proof.
  intros k inp off r O H. destruct (split_at inp off O) as (pre & rest & -> & ->).
  destruct (Nat.le_gt_cases k (length rest)) as [L|L]; [zl; unfold zlen in *; lia|].
  rewrite read_be_short in H by assumption. discriminate.
Qed.
Lemma read_be_value : forall k inp off r, bytes_ok inp -> 0 <= off <= zlen inp -> read_be k inp off = Ok r -> 0 <= r < 256 ^ Z.of_nat k.
Proof.
  intros k inp off r B O H. pose proof (read_be_ok_len k inp off r O H) as L. destruct (split_at inp off O) as (pre & rest & -> & ->).
  rewrite <- (firstn_skipn k rest) in H.
  assert (length (firstn k rest) = k) by (rewrite firstn_length; zl; unfold zlen in *; lia).
  rewrite read_be_app in H by assumption. inversion H; subst.
  apply bytes_ok_app in B. destruct B as [_ B]. rewrite <- (firstn_skipn k rest) in B. apply bytes_ok_app in B.
  pose proof (be_value_bound (firstn k rest) ltac:(tauto)). unfold zlen in *. rewrite H0 in *. assumption.
Qed.

Lemma dsafe_readNonNeg : forall n, dsafe (d_readNonNegativeInteger n) (fun inp off v off' => off' = off + n /\ u64 v).
Proof.
  intros n inp off B O. unfold d_readNonNegativeInteger.
  set (r := if n =? 1 then _ else _).
  assert (Hr : match r with Ok v => 0 <= n /\ off + n <= zlen inp /\ u64 v | Err e => e = IndexError \/ e = ValueError end).
  { assert (G : forall k, n = Z.of_nat k -> (k <= 8)%nat -> match read_be k inp off with Ok v => 0 <= n /\ off + n <= zlen inp /\ u64 v | Err e => e = IndexError \/ e = ValueError end).
    { intros k -> Hk. destruct (read_be k inp off) eqn:E.
      - pose proof (read_be_ok_len _ _ _ _ O E). pose proof (read_be_value _ _ _ _ B O E).
        assert (256 ^ Z.of_nat k <= 256 ^ 8) by (apply Z.pow_le_mono_r; lia).
        change (256 ^ 8) with (2 ^ 64) in *. unfold u64. lia.
      - left. eapply read_be_err; eauto. }
    unfold r. destruct (n =? 1) eqn:E1; [apply G; lia|]. destruct (n =? 2) eqn:E2; [apply G; lia|].
    destruct (n =? 4) eqn:E4; [apply G; lia|]. destruct (n =? 8) eqn:E8; [apply G; lia|]. right; reflexivity. }
  destruct r as [v|e]; cbn [rbind index_to_value].
  - split; [lia|]. split; [reflexivity|tauto].
  - destruct Hr; subst; left; reflexivity.
Qed.

Lemma dsafe_nnTlv : forall t, dsafe (d_readNonNegativeIntegerTlv t) (fun _ off v off' => off + 2 <= off' /\ u64 v).
Proof.
  intros t. unfold d_readNonNegativeIntegerTlv. eapply dsafe_bind; [apply dsafe_readTL|].
  intros inp off n off' B O1 O2 (Q1 & Q2 & Q3).
  pose proof (dsafe_readNonNeg n inp off' B ltac:(lia)) as R.
  destruct (d_readNonNegativeInteger n inp off') as [[v o]|e]; [|exact R].
  destruct R as (R1 & R2 & R3). split; [lia|]. split; [lia|assumption].
Qed.

Lemma finishLoop_safe : forall fuel e b inp off, bytes_ok inp -> 0 <= off <= zlen inp ->
  zlen inp - off < Z.of_nat fuel ->
  match d_finishLoop fuel e b inp off with
  | Ok (_, off') => off <= off' <= zlen inp /\ e <= off'
  | Err x => x = ValueError
  end.
Proof.
  induction fuel as [|fuel IH]; intros e b inp off B O F; [lia|]. cbn [d_finishLoop]. unfold dbind, d_getOffset.
  destruct (off <? e) eqn:E; cbn [dret]; [|cbn; lia].
  pose proof (dsafe_readVar inp off B O) as R.
  assert (V : forall o x, 0 <= o <= zlen inp -> d_readVarNumber inp o = Err x -> x = ValueError).
  { clear -B. intros o x Ho H. destruct (split_at inp o Ho) as (pre & rest & -> & ->).
    apply bytes_ok_app in B. destruct B as [_ B].
    destruct (readVar_cases pre rest B) as [(n & vb & rest' & _ & _ & R)|(_ & R)]; rewrite R in H; congruence. }
  destruct (d_readVarNumber inp off) as [[t off1]|x] eqn:E1; [|eauto].
  destruct R as (R1 & R2 & R3).
  destruct (((t <=? 31) || (Z.land t 1 =? 1)) && negb b); [reflexivity|].
  pose proof (dsafe_readVar inp off1 B ltac:(lia)) as R'.
  destruct (d_readVarNumber inp off1) as [[n off2]|x] eqn:E2; [|apply (V off1); [lia|assumption]].
  destruct R' as (S1 & S2 & S3). unfold u64 in *.
  unfold d_skip, d_inputLength.
  destruct (zlen inp <? off2 + n) eqn:E3; [reflexivity|].
  specialize (IH e b inp (off2 + n) B ltac:(lia) ltac:(lia)).
  destruct (d_finishLoop fuel e b inp (off2 + n)) as [[u o]|x]; [lia|assumption].
Qed.

Lemma finish_safe : forall e b inp off, bytes_ok inp -> 0 <= off <= zlen inp ->
  match d_finishNestedTlvs e b inp off with
  | Ok (_, off') => off <= off' <= zlen inp /\ off' = e
  | Err x => x = ValueError
  end.
Proof.
  intros e b inp off B O. unfold d_finishNestedTlvs. destruct (off =? e) eqn:E; [lia|].
  unfold dbind. pose proof (finishLoop_safe (S (length inp)) e b inp off B O ltac:(unfold zlen in *; lia)) as R.
  destruct (d_finishLoop _ e b inp off) as [[u o]|x]; [|assumption].
  cbn [d_getOffset]. unfold derr, dret. destruct (o =? e) eqn:E'; cbn [negb]; [lia|reflexivity].
Qed.
Lemma dsafe_finish : forall e b, dsafe (d_finishNestedTlvs e b) (fun _ _ _ off' => off' = e).
Proof.
  intros e b inp off B O. pose proof (finish_safe e b inp off B O) as R.
  destruct (d_finishNestedTlvs e b inp off) as [[u o]|x]; [exact R|left; exact R].
Qed.

Lemma critical_test : forall t, u64 t -> ((t <=? 31) || (Z.land t 1 =? 1)) = true <-> critical t.
Proof.
  intros. unfold critical. rewrite orb_true_iff, Z.leb_le, Z.eqb_eq.
  change 1 with (Z.ones 1) at 1. rewrite Z.land_ones by lia. change (2 ^ 1) with 2.
  rewrite Zodd_mod. rewrite Zeq_is_eq_bool. reflexivity.
Qed.

(** ** The skip loop accepts exactly sequences of non-critical TLVs *)
Lemma finishLoop_spec : forall fuel b pre es bs post,
  tlv_seq es bs -> bytes_ok (pre ++ bs ++ post) -> zlen bs < Z.of_nat fuel ->
  b = true \/ Forall (fun e => ~ critical (fst e)) es ->
  d_finishLoop fuel (zlen pre + zlen bs) b (pre ++ bs ++ post) (zlen pre) = Ok (tt, zlen pre + zlen bs).
Proof.
  induction fuel as [|fuel IH]; intros b pre es bs post S B F C; [zlia|].
  cbn [d_finishLoop]. unfold dbind, d_getOffset. inversion S; subst.
  - rewrite zlen_nil. replace (zlen pre <? zlen pre + 0) with false by lia. unfold dret. f_equal. f_equal. lia.
  - pose proof (var_form_len _ _ H) as L1. pose proof (var_form_len _ _ H0) as L2.
    replace (zlen pre <? _) with true by zlia.
    replace (pre ++ (tb ++ lb ++ v ++ bs0) ++ post) with (pre ++ tb ++ lb ++ v ++ bs0 ++ post) in * by (rewrite <- !app_assoc; reflexivity).
    rewrite (readVar_form pre t tb _ H).
    assert (X : ((t <=? 31) || (Z.land t 1 =? 1)) && negb b = false).
    { destruct C as [->|C]; [apply andb_false_r|]. inversion C as [|? ? C1 C2]; subst. cbn [fst] in C1.
      pose proof (critical_test t (var_form_u64 _ _ H)). destruct ((t <=? 31) || (Z.land t 1 =? 1)); [exfalso; tauto|reflexivity]. }
    rewrite X.
    replace (pre ++ tb ++ lb ++ v ++ bs0 ++ post) with ((pre ++ tb) ++ lb ++ v ++ bs0 ++ post) in * by (rewrite <- !app_assoc; reflexivity).
    replace (zlen pre + zlen tb) with (zlen (pre ++ tb)) by zlia.
    rewrite (readVar_form (pre ++ tb) (zlen v) lb _ H0).
    unfold d_skip, d_inputLength.
    replace (zlen ((pre ++ tb) ++ lb ++ v ++ bs0 ++ post) <? _) with false by zlia.
    replace ((pre ++ tb) ++ lb ++ v ++ bs0 ++ post) with ((pre ++ tb ++ lb ++ v) ++ bs0 ++ post) in * by (rewrite <- !app_assoc; reflexivity).
    replace (zlen (pre ++ tb) + zlen lb + zlen v) with (zlen (pre ++ tb ++ lb ++ v)) by zlia.
    replace (zlen pre + zlen (tb ++ lb ++ v ++ bs0)) with (zlen (pre ++ tb ++ lb ++ v) + zlen bs0) by zlia.
    apply (IH b (pre ++ tb ++ lb ++ v) es0 bs0 post); auto; [zlia|].
    destruct C as [->|C]; [now left|right; now inversion C].
Qed.

Lemma finishLoop_inv : forall fuel e b inp off, bytes_ok inp -> 0 <= off <= zlen inp ->
  d_finishLoop fuel e b inp off = Ok (tt, e) ->
  exists es pre bs post, inp = pre ++ bs ++ post /\ off = zlen pre /\ e = zlen pre + zlen bs /\
    tlv_seq es bs /\ (b = true \/ Forall (fun x => ~ critical (fst x)) es).
Proof.
  induction fuel as [|fuel IH]; intros e b inp off B O H; cbn [d_finishLoop] in H; unfold dbind, d_getOffset in H.
  - destruct (off <? e) eqn:E; cbn in H; [discriminate|]. inversion H; subst.
    destruct (split_at inp e O) as (pre & rest & -> & ->). exists [], pre, [], rest. rewrite zlen_nil.
    repeat split; try lia; [constructor|right; constructor].
  - destruct (off <? e) eqn:E; [|cbn in H; inversion H; subst;
      destruct (split_at inp e O) as (pre & rest & -> & ->); exists [], pre, [], rest; rewrite zlen_nil;
      repeat split; try lia; [constructor|right; constructor]].
    destruct (split_at inp off O) as (pre & rest & -> & ->).
    pose proof B as B'. apply bytes_ok_app in B'. destruct B' as [_ B1].
    destruct (readVar_cases pre rest B1) as [(t & tb & rest1 & -> & V1 & R1)|(_ & R1)]; rewrite R1 in H; [|discriminate].
    destruct (((t <=? 31) || (Z.land t 1 =? 1)) && negb b) eqn:C; [discriminate|].
    replace (pre ++ tb ++ rest1) with ((pre ++ tb) ++ rest1) in * by (rewrite <- !app_assoc; reflexivity).
    replace (zlen pre + zlen tb) with (zlen (pre ++ tb)) in H by zlia.
    apply bytes_ok_app in B1. destruct B1 as [_ B2].
    destruct (readVar_cases (pre ++ tb) rest1 B2) as [(n & lb & rest2 & -> & V2 & R2)|(_ & R2)]; rewrite R2 in H; [|discriminate].
    unfold d_skip, d_inputLength in H.
    destruct (zlen ((pre ++ tb) ++ lb ++ rest2) <? zlen (pre ++ tb) + zlen lb + n) eqn:E3; [discriminate|].
    pose proof (var_form_len _ _ V1). pose proof (var_form_len _ _ V2). pose proof (var_form_u64 _ _ V2) as U2. unfold u64 in U2.
    assert (Hn : n <= zlen rest2) by zlia.
    set (v := firstn (Z.to_nat n) rest2). set (rest3 := skipn (Z.to_nat n) rest2).
    assert (Ev : rest2 = v ++ rest3) by (symmetry; apply firstn_skipn).
    assert (Lv : zlen v = n) by (unfold v; rewrite zlen_firstn; lia).
    clearbody v rest3. subst rest2 n.
    replace ((pre ++ tb) ++ lb ++ v ++ rest3) with ((pre ++ tb ++ lb ++ v) ++ rest3) in * by (rewrite <- !app_assoc; reflexivity).
    replace (zlen (pre ++ tb) + zlen lb + zlen v) with (zlen (pre ++ tb ++ lb ++ v)) in H by zlia.
    assert (O' : 0 <= zlen (pre ++ tb ++ lb ++ v) <= zlen ((pre ++ tb ++ lb ++ v) ++ rest3)) by zlia.
    destruct (IH e b _ _ B O' H) as (es & pre' & bs & post & E1 & E2 & E4 & S & C').
    destruct (app_eq_len _ _ _ _ _ E1 E2) as [<- ->].
    exists ((t, v) :: es), pre, (tb ++ lb ++ v ++ bs), post. repeat split.
    + rewrite <- !app_assoc. reflexivity.
    + zlia.
    + constructor; assumption.
    + destruct C' as [->|C']; [now left|]. destruct b; [now left|]. right. constructor; [|assumption]. cbn [fst].
      intros K. apply critical_test in K; [|eapply var_form_u64; eauto]. rewrite K in C. discriminate.
Qed.

Lemma finish_iff : forall inp off e b, bytes_ok inp -> 0 <= off <= zlen inp ->
  (d_finishNestedTlvs e b inp off = Ok (tt, e) <->
   off <= e <= zlen inp /\
   exists es, tlv_seq es (zslice inp off e) /\ (b = true \/ Forall (fun x => ~ critical (fst x)) es)).
Proof.
  intros inp off e b B O. split.
  - intros H. unfold d_finishNestedTlvs in H. destruct (off =? e) eqn:E.
    + assert (off = e) by lia. subst. split; [lia|]. exists [].
      replace (zslice inp e e) with (@nil Z). { split; [constructor|right; constructor]. }
      unfold zslice. replace (Z.to_nat _) with 0%nat by lia. reflexivity.
    + unfold dbind in H. destruct (d_finishLoop _ e b inp off) as [[[] o]|x] eqn:L; [|discriminate].
      cbn [d_getOffset] in H. unfold derr, dret in H. destruct (o =? e) eqn:E'; cbn [negb] in H; [|discriminate].
      assert (o = e) by lia. subst o.
      destruct (finishLoop_inv _ _ _ _ _ B O L) as (es & pre & bs & post & -> & -> & -> & S & C).
      split; [zlia|]. exists es. rewrite zslice_app. auto.
  - intros (R & es & S & C). unfold d_finishNestedTlvs. destruct (off =? e) eqn:E.
    { assert (off = e) by lia. subst. reflexivity. }
    destruct (zslice_split _ inp off e ltac:(lia) ltac:(lia)) as (pre & post & Ei & Ep).
    assert (Le : e = zlen pre + zlen (zslice inp off e)) by (rewrite zslice_length by lia; lia).
    remember (zslice inp off e) as bs. clear Heqbs. subst. unfold dbind.
    rewrite (finishLoop_spec _ b pre es bs post); auto.
    + cbn [d_getOffset]. rewrite Z.eqb_refl. reflexivity.
    + zl. unfold zlen in *. rewrite !app_length. lia.
Qed.
