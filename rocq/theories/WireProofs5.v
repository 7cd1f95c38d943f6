(** * Lemmas: Interest v0.3, Data. *)
From Verif Require Import Base BaseLemmas TlvModel TlvSpec TlvProofs TlvDecProofs NameModel NameSpec NameProofs UriModel CalModel CalProofs WireModel WireSpec WireProofs WireProofs2 WireProofs3 WireProofs4.
From Coq Require Import ZifyBool.
Local Open Scope dec_scope.

(** ** Interest v0.3 *)
Definition els03 (i : interest) (nonce : bytes) : list el :=
  name_el (i_name i) :: flag_el 33 (i_canBePrefix i) ++ flag_el 18 (i_mustBeFresh i) ++
                hint_els (i_hint i) ++ [(10, nonce)] ++ opt_nn 12 (i_lifetime i) ++ [(36, blob_bytes (i_params i))].
Lemma els03_types : forall i n, types_ok (els03 i n).
Proof.
  intros. unfold els03. apply Forall_cons; [u64c|]. apply types_app; [apply flag_types; u64c|]. apply types_app; [apply flag_types; u64c|].
  apply types_app; [apply hint_types|]. apply types_app; [apply types_one; u64c|].
  apply types_app; [apply opt_nn_types; u64c|apply types_one; u64c].
Qed.
Lemma enc_flag : forall t (b : bool) out, 0 <= t -> (if b then e_writeTypeAndLength t 0 out else out) = elems (flag_el t b) ++ out.
Proof. intros t [|] out H; cbn [flag_el]; [|reflexivity]. rewrite elems_one. apply (e_TL_tlv t [] out). exact H. Qed.

Lemma encodeV03_ok : forall rnd i, interest_ok i -> 0 < blob_size (i_params i) ->
  let body := elems (els03 i (nonce4 rnd (i_nonce i))) in
  encodeInterestV03 rnd i = Ok (tlv 5 body, (ibegin body i, iend body i)).
Proof.
  intros rnd i H Pz body. pose proof H as (Nm & _ & _ & _ & _ & _ & Fl & Hi & Us & _ & Hx & _). unfold encodeInterestV03. cbn zeta.
  rewrite e_optblob_elems by lia.
  replace (optel 36 (nonempty_blob (i_params i))) with [(36, blob_bytes (i_params i))].
  2:{ destruct (i_params i) as [[|x v]|]; cbn [blob_size] in Pz; [zlia|reflexivity|lia]. }
  unfold e_writeOptionalNonNegativeIntegerTlvFromFloat. rewrite enc_optnn by (lia || apply float_u64, Fl). cbn [rbind].
  rewrite e_blobTlv_tlv by lia. rewrite enc_hint_ok by assumption. cbn [rbind]. rewrite !enc_flag by lia.
  rewrite enc_name_ok by exact Nm. cbn [fst snd].
  match goal with |- context [elems [name_el (i_name i)] ++ ?r] => set (rest := r) end.
  assert (B : elems [name_el (i_name i)] ++ rest = body).
  { unfold rest, body, els03. rewrite (elems_one' (name_el (i_name i))), (elems_cons' (name_el (i_name i))), !elems_app, !elems_one, !app_nil_r. reflexivity. }
  rewrite B. clear B rest.
  pose proof (e_TL_tlv 5 body [] ltac:(lia)) as E. rewrite !app_nil_r in E. rewrite E. rewrite tlv_len. unfold ibegin, iend.
  f_equal. f_equal. f_equal; lia.
Qed.

Lemma At_readTL_ne : forall inp off end_ t t' v es, At inp off end_ ((t', v) :: es) -> t' <> t ->
  d_readTypeAndLength t inp off = Err ValueError.
Proof.
  intros inp off end_ t t' v es A N. unfold d_readTypeAndLength. dstep (At_readVar _ _ _ _ _ _ A). replace (t' =? t) with false by lia. reflexivity.
Qed.
Lemma At_blob_ne : forall inp off end_ t t' v es, At inp off end_ ((t', v) :: es) -> t' <> t ->
  d_readBlobTlv t inp off = Err ValueError.
Proof. intros. unfold d_readBlobTlv, dbind. rewrite (At_readTL_ne _ _ _ t _ _ _ H H0). reflexivity. Qed.
Lemma dbind_err : forall A B (m : dec A) (k : A -> dec B) inp off e, m inp off = Err e -> dbind m k inp off = Err e.
Proof. intros. unfold dbind. rewrite H. reflexivity. Qed.

(** v0.2 decoding of a v0.3 Interest *)
Definition plain03 (i : interest) : Prop := i_canBePrefix i = false /\ i_mustBeFresh i = false /\ i_hint i = [].
Lemma decV02_of_03_fails : forall prev i nonce, interest_ok i -> ~ plain03 i ->
  let body := elems (els03 i nonce) in zlen (tlv 5 body) < 2 ^ 64 ->
  dec_interestV02 prev (tlv 5 body) 0 = Err ValueError.
Proof.
  intros prev i nonce H P body Sz. pose proof H as (Nm & _). unfold dec_interestV02.
  assert (A : At (tlv 5 body) 0 (zlen (tlv 5 body)) [(5, body)]) by (apply At_top; [u64c|exact Sz]).
  destruct (At_enter _ _ _ _ _ _ A (els03_types i nonce)) as [E A1]. dstep E. clear E A. fold body in A1 |- *. rewrite !Z.add_0_l in *.
  unfold els03 in A1. destruct (dec_name_ok _ _ _ _ _ Nm A1) as [E A2]. dstep E. clear E A1. dstep (At_peek _ _ _ _ 9 A2).
  unfold plain03 in P.
  destruct (i_canBePrefix i); [|destruct (i_mustBeFresh i); [|destruct (i_hint i) as [|d ds]; [tauto|]]]; cbn [flag_el hint_els app] in *;
    cbn [Z.eqb Pos.eqb]; rewrite dbind_ret; apply dbind_err; apply (At_blob_ne _ _ _ 10 _ _ _ A2); lia.
Qed.
Definition lost (prev i : interest) (nonce : bytes) : interest :=
  Interest (i_name i) None None kl_empty [] None false (Some nonce) (i_lifetime i) (i_hint prev) None None None.
Lemma decV02_of_03_plain : forall prev i nonce, interest_ok i -> plain03 i ->
  let body := elems (els03 i nonce) in zlen (tlv 5 body) < 2 ^ 64 ->
  dec_interestV02 prev (tlv 5 body) 0 = Ok ((lost prev i nonce, (ibegin body i, iend body i)), zlen (tlv 5 body)).
Proof.
  intros prev i nonce H (P1 & P2 & P3) body Sz. pose proof H as (Nm & _ & _ & _ & _ & _ & Fl & _). unfold dec_interestV02.
  assert (A : At (tlv 5 body) 0 (zlen (tlv 5 body)) [(5, body)]) by (apply At_top; [u64c|exact Sz]).
  destruct (At_enter _ _ _ _ _ _ A (els03_types i nonce)) as [E A1]. dstep E. clear E A. fold body in A1 |- *. rewrite !Z.add_0_l in *.
  unfold els03 in A1. rewrite P1, P2, P3 in A1. cbn [flag_el hint_els app] in A1.
  destruct (dec_name_ok _ _ _ _ _ Nm A1) as [E A2]. dstep E. clear E A1. dstep (At_peek _ _ _ _ 9 A2). cbn [Z.eqb Pos.eqb]. rewrite dbind_ret.
  dstep (At_blob _ _ _ _ _ _ A2). apply At_next in A2.
  destruct (At_optNN _ _ _ _ _ _ A2) as [E A3]; [hd|apply float_u64, Fl|].
  unfold d_readOptionalNonNegativeIntegerTlvAsFloat. dstep E. clear E A2.
  dstep (dec_hint_none _ (i_hint prev) _ _ _ A3 ltac:(hd)). destruct (dec_link_ok None _ _ _ [(36, blob_bytes (i_params i))] A3 ltac:(hd)) as [E _]. dstep E. clear E. cbn [opt_el option_map]. rewrite elems_nil, zlen_nil, Z.add_0_r.
  match type of A3 with At _ ?o _ _ => set (o3 := o) in * end. set (inp := tlv 5 body) in *.
  destruct (At_optNN inp o3 (zlen inp) 32 None [(36, blob_bytes (i_params i))] A3 ltac:(hd) I) as [E A4]. dstep E. clear E.
  cbn [optnn] in *. rewrite elems_nil, zlen_nil, Z.add_0_r in *.
  assert (NC : ~ critical 36) by (unfold critical; intros [K|K]; [lia|discriminate K]).
  dstep (At_finish_skip _ _ _ _ false A4 (or_intror (Forall_cons (36, blob_bytes (i_params i)) NC (Forall_nil _)))). reflexivity.
Qed.

Lemma flag_eq : forall t b, flag_el t b = (if b then [(t, [])] else []).
Proof. reflexivity. Qed.
Lemma decV03_ok : forall i nonce, interest_ok i -> 0 < blob_size (i_params i) ->
  let body := elems (els03 i nonce) in zlen (tlv 5 body) < 2 ^ 64 ->
  dec_interestV03 (tlv 5 body) 0 = Ok ((interest_seen03 i nonce, (ibegin body i, iend body i)), zlen (tlv 5 body)).
Proof.
  intros i nonce H Pz body Sz. pose proof H as (Nm & _ & _ & _ & _ & _ & Fl & Hi & _). unfold dec_interestV03.
  assert (A : At (tlv 5 body) 0 (zlen (tlv 5 body)) [(5, body)]) by (apply At_top; [u64c|exact Sz]).
  destruct (At_enter _ _ _ _ _ _ A (els03_types i nonce)) as [E A1]. dstep E. clear E A. fold body in A1 |- *. rewrite !Z.add_0_l in *.
  set (inp := tlv 5 body) in *. set (end_ := zlen inp) in *. unfold els03 in A1.
  destruct (dec_name_ok _ _ _ _ _ Nm A1) as [E A2]. dstep E. clear E A1.
  destruct (At_bool _ _ _ _ _ _ A2) as [E A3]; [apply hdne_app_flag; [lia|]; apply hdne_hint'; [lia|]; hd|]. dstep E. clear E A2.
  destruct (At_bool _ _ _ _ _ _ A3) as [E A4]; [apply hdne_hint'; [lia|]; hd|]. dstep E. clear E A3.
  destruct (dec_hint_ok _ [] _ _ _ _ Hi A4 ltac:(hd)) as [E A5]. dstep E. clear E A4.
  destruct (At_optBlob _ _ _ 10 (Some nonce) _ A5) as [E A6]; [hd|]. dstep E. clear E A5.
  destruct (At_optNN _ _ _ _ _ _ A6) as [E A7]; [hd|apply float_u64, Fl|].
  unfold d_readOptionalNonNegativeIntegerTlvAsFloat. dstep E. clear E A6.
  destruct (At_optBlob _ _ _ 34 None _ A7) as [E A8]; [hd|]. dstep E. clear E A7.
  destruct (At_optBlob _ _ _ 36 (Some (blob_bytes (i_params i))) [] A8) as [E A9]; [hd|]. dstep E. clear E A8.
  dstep (At_finish _ _ _ false A9). unfold interest_seen03, dret. f_equal. f_equal. f_equal.
  replace (match i_hint i with [] => [] | _ => i_hint i end) with (i_hint i) by (destruct (i_hint i); reflexivity).
  destruct (i_params i) as [p|]; cbn [blob_size blob_bytes] in *; [reflexivity|lia].
Qed.

(** ** Data *)
Lemma encodeData_ok : forall d, data_ok d ->
  encodeData d = Ok (data_bytes d,
    let body := data_signed d ++ elems [(23, blob_bytes (sig_bits (d_sig d)))] in (hdr 6 body, hdr 6 body + zlen (data_signed d))).
Proof.
  intros d (Nm & Mi & Sg). unfold encodeData. cbn zeta. rewrite e_blobTlv_tlv by lia.
  destruct (sig_ok_el _ Sg) as (v & Ev & Enc & _). rewrite Enc. cbn [rbind].
  rewrite e_blobTlv_tlv by lia. rewrite enc_meta_ok by exact Mi. cbn [rbind]. rewrite enc_name_ok by exact Nm. cbn [fst].
  match goal with |- context [elems [name_el (d_name d)] ++ ?r] => set (rest := r) end.
  assert (B : elems [name_el (d_name d)] ++ rest = data_signed d ++ elems [(23, blob_bytes (sig_bits (d_sig d)))]).
  { unfold rest, data_signed. rewrite Ev. rewrite !elems_one. rewrite (elems_one' (name_el (d_name d))), (elems_one' (mi_el (d_meta d))).
    rewrite (elems_cons' (name_el (d_name d))), (elems_cons' (mi_el (d_meta d))), elems_one, <- !app_assoc. rewrite !app_nil_r. reflexivity. }
  rewrite B. clear B rest. set (body := data_signed d ++ elems [(23, blob_bytes (sig_bits (d_sig d)))]).
  pose proof (e_TL_tlv 6 body [] ltac:(lia)) as E. rewrite !app_nil_r in E. rewrite E. rewrite tlv_len. unfold data_bytes. fold body.
  f_equal. f_equal. f_equal; [lia|].
  assert (Lb : zlen body = zlen (data_signed d) + zlen (tlv 23 (blob_bytes (sig_bits (d_sig d))))) by (unfold body; rewrite zlen_app, elems_one; reflexivity).
  rewrite app_nil_r. unfold blob_bytes in Lb. lia.
Qed.

Lemma decodeData_ok : forall prev d, data_ok d -> zlen (data_bytes d) < 2 ^ 64 ->
  decodeData prev (data_bytes d) = Ok (data_seen prev d,
    let body := data_signed d ++ elems [(23, blob_bytes (sig_bits (d_sig d)))] in (hdr 6 body, hdr 6 body + zlen (data_signed d))).
Proof.
  intros prev d (Nm & Mi & Sg) Sz. destruct (sig_ok_el _ Sg) as (v & Ev & _ & Dec).
  set (es := [name_el (d_name d); mi_el (d_meta d); (21, blob_bytes (d_content d)); (22, v); (23, blob_bytes (sig_bits (d_sig d)))]).
  assert (B : data_signed d ++ elems [(23, blob_bytes (sig_bits (d_sig d)))] = elems es).
  { unfold data_signed. rewrite Ev. unfold es. rewrite <- (elems_one 22 v), <- !elems_app. reflexivity. }
  cbn zeta. assert (Hs : hdr 6 (elems es) + zlen (data_signed d) = hdr 6 (elems es) + zlen (elems [name_el (d_name d)]) + zlen (elems [mi_el (d_meta d)]) + zlen (tlv 21 (blob_bytes (d_content d))) + zlen (elems [(22, v)])).
  { unfold data_signed. rewrite Ev. rewrite (elems_one' (name_el (d_name d))), (elems_one' (mi_el (d_meta d))).
    rewrite (elems_cons' (name_el (d_name d))), (elems_cons' (mi_el (d_meta d))), !elems_one, !zlen_app. lia. }
  unfold data_bytes in *. rewrite B in *. rewrite Hs. unfold decodeData, dec_data.
  assert (T : types_ok es) by (unfold es; repeat (apply Forall_cons; [u64c|]); apply Forall_nil).
  assert (A : At (tlv 6 (elems es)) 0 (zlen (tlv 6 (elems es))) [(6, elems es)]) by (apply At_top; [u64c|exact Sz]).
  set (inp := tlv 6 (elems es)) in *.
  destruct (At_enter _ _ _ _ _ _ A T) as [E A1]. fold inp in E, A1. rewrite !Z.add_0_l in *.
  match goal with |- (r <-- ?m ;; _)%res = _ => assert (M : m = Ok ((data_seen prev d, (hdr 6 (elems es), hdr 6 (elems es) + zlen (elems [name_el (d_name d)]) + zlen (elems [mi_el (d_meta d)]) + zlen (tlv 21 (blob_bytes (d_content d))) + zlen (elems [(22, v)]))), zlen inp)) end.
  2:{ rewrite M. reflexivity. }
  dstep E. clear E A. dstep (eq_refl : d_getOffset inp (hdr 6 (elems es)) = Ok (_, _)). unfold es in A1 at 2.
  destruct (dec_name_ok _ _ _ _ _ Nm A1) as [E A2]. dstep E. clear E A1.
  dstep (At_peek _ _ _ _ 20 A2). cbn [mi_el Z.eqb Pos.eqb]. destruct (dec_meta_ok (d_meta prev) _ _ _ _ _ Mi A2) as [E A3]. dstep E. clear E A2.
  destruct (At_optBlob _ _ _ 21 (Some (blob_bytes (d_content d))) _ A3) as [E A4]; [hd|]. dstep E. clear E A3. cbn [optel] in *. rewrite elems_one in *.
  dstep (Dec _ _ _ _ A4). apply At_next in A4. rewrite elems_one.
  match type of A4 with At _ ?o _ _ => dstep (eq_refl : d_getOffset inp o = Ok (o, o)) end.
  dstep (At_blob _ _ _ _ _ _ A4). apply At_next in A4. dstep (At_finish _ _ _ false A4).
  unfold dret. f_equal. f_equal. f_equal. unfold data_seen. f_equal.
  destruct (d_sig d); reflexivity.
Qed.
