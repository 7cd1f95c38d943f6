(** * Property C72: SafeBag encoding *)
From Verif Require Import Base BaseLemmas TlvModel TlvSpec TlvProofs TlvDecProofs NameModel NameSpec NameProofs CalModel CalProofs WireModel WireSpec WireProofs WireProofs2 WireProofs3 WireProofs4 WireProofs5 WireSafety WireProps BagModel.
From Coq Require Import ZifyBool.

(** Specification: the element 128 with the Data packet and the element 129 *)
Definition bag_bytes (b : safeBag) : bytes := tlv 128 (data_bytes (sb_certificate b) ++ tlv 129 (blob_bytes (sb_key b))).

Lemma encode_bag : forall b, data_ok (sb_certificate b) -> sb_wireEncode b = Ok (bag_bytes b).
Proof.
  intros [c k] H. cbn [sb_certificate sb_key] in *. unfold sb_wireEncode, bag_bytes. cbn [sb_certificate sb_key]. pose proof (encodeData_ok c H) as E. rewrite E. cbn [rbind fst e_writeBuffer]. f_equal.
  assert (K : e_writeBlobTlv 129 k [] = tlv 129 (blob_bytes k)). { rewrite e_blobTlv_tlv by lia. apply app_nil_r. }
  rewrite K. pose proof (e_TL_tlv 128 (data_bytes c ++ tlv 129 (blob_bytes k)) [] ltac:(lia)) as X. rewrite !app_nil_r in X. exact X.
Qed.
Theorem C72_round_trip : forall b rest, data_ok (sb_certificate b) -> zlen (bag_bytes b) < 2 ^ 64 ->
  sb_wireEncode b = Ok (bag_bytes b) /\ sb_wireDecode (bag_bytes b ++ rest) = Ok (SafeBag (data_seen data_new (sb_certificate b)) (Some (blob_bytes (sb_key b)))).
Proof.
  intros b rest H L. split; [apply encode_bag, H|]. destruct b as [c k]. cbn [sb_certificate sb_key] in *. unfold bag_bytes in *. cbn [sb_certificate sb_key] in *.
  set (body := data_signed c ++ elems [(23, blob_bytes (sig_bits (d_sig c)))]). assert (Ed : data_bytes c = tlv 6 body) by reflexivity. set (kv := blob_bytes k) in *.
  set (es := [(6, body); (129, kv)]). assert (Ee : data_bytes c ++ tlv 129 kv = elems es) by (unfold es; rewrite elems_cons, elems_one; reflexivity). rewrite Ee in *.
  assert (E1 : tlv 128 (elems es) = elems [(128, elems es)]) by (rewrite elems_one; reflexivity). rewrite E1 in *.
  assert (S0 : small [(128, elems es)]) by (apply small_of_len; [constructor; [cbn [fst]; unfold u64; lia|constructor]|exact L]).
  assert (T : types_ok es) by (unfold es; repeat (apply Forall_cons; [u64c|]); apply Forall_nil).
  assert (Sl : zlen (elems es) < 2 ^ 64) by (inversion S0 as [|? ? [_ K] _]; exact K).
  assert (Ld : zlen (data_bytes c) < 2 ^ 64) by (rewrite <- Ee, zlen_app in Sl; pose proof (zlen_nonneg _ (tlv 129 kv)); lia).
  set (inp := elems [(128, elems es)] ++ rest).
  assert (A : At inp 0 (zlen (elems [(128, elems es)])) [(128, elems es)]) by (split; [exact S0|]; exists [], rest; split; [reflexivity|]; split; reflexivity).
  destruct (At_enter _ _ _ _ _ _ A T) as [R A1]. rewrite !Z.add_0_l in *. unfold sb_wireDecode, dec_sb.
  set (h := hdr 128 (elems es)) in *. unfold es in A1 at 2.
  match goal with |- (r <-- ?m ;; _)%res = _ => assert (M : exists o, m = Ok (SafeBag (data_seen data_new c) (Some kv), o)) end.
  2:{ destruct M as (o & ->). reflexivity. }
  dstep R. dstep (eq_refl : d_getOffset inp h = Ok (h, h)).
  pose proof (At_readTL _ _ _ _ _ _ A1) as E.
  assert (E6 : d_readNestedTlvsStart 6 inp h = Ok (h + zlen (tlv 6 body), h + hdr 6 body)). { unfold d_readNestedTlvsStart. dstep E. unfold dbind, d_getOffset, dret. f_equal. f_equal. rewrite tlv_len. lia. }
  dstep E6. unfold d_seek at 1. unfold dbind at 1. unfold d_getSlice at 1. unfold dbind at 1.
  assert (Sl6 : zslice inp h (h + zlen (tlv 6 body)) = tlv 6 body). { destruct A1 as (_ & pre & post & Ei & Eh & _). rewrite Ei, elems_cons, <- !app_assoc. apply zslice_app'; lia. }
  rewrite Sl6. rewrite <- Ed in *. pose proof (decodeData_ok data_new c H Ld) as Dd. rewrite Dd. unfold dlift at 1. unfold dbind at 1. apply At_next in A1. rewrite <- Ed in A1.
  dstep (At_blob _ _ _ _ _ _ A1). apply At_next in A1. dstep (At_finish _ _ _ false A1). eexists. reflexivity.
Qed.
(** A certificate with all its fields comes back as it was, with the key. *)
Theorem C72_same : forall c k rest, data_ok c -> zlen (bag_bytes (SafeBag c (Some k))) < 2 ^ 64 -> data_seen data_new c = c -> sb_wireDecode (bag_bytes (SafeBag c (Some k)) ++ rest) = Ok (SafeBag c (Some k)).
Proof. intros c k rest H L E. destruct (C72_round_trip (SafeBag c (Some k)) rest H L) as [_ X]. rewrite X. cbn [sb_certificate sb_key blob_bytes]. rewrite E. reflexivity. Qed.
(** No two bags have the same encoding, nor is one the beginning of another. *)
Theorem C72_injective : forall a b x y, data_ok (sb_certificate a) -> data_ok (sb_certificate b) -> zlen (bag_bytes a) < 2 ^ 64 -> zlen (bag_bytes b) < 2 ^ 64 -> bag_bytes a ++ x = bag_bytes b ++ y ->
  data_seen data_new (sb_certificate a) = data_seen data_new (sb_certificate b) /\ blob_bytes (sb_key a) = blob_bytes (sb_key b).
Proof. intros a b x y Ha Hb La Lb E. destruct (C72_round_trip a x Ha La) as [_ X], (C72_round_trip b y Hb Lb) as [_ Y]. rewrite E, Y in X. split; [exact (f_equal (fun r => match r with Ok b => sb_certificate b | Err _ => data_new end) (eq_sym X))|congruence]. Qed.
(** On arbitrary bytes: a bag or a decoding error.  The certificate of the bag is what its own bytes
    in the bag decode to, and the key follows it. *)
Theorem C72_any_bytes : forall inp, bytes_ok inp -> match sb_wireDecode inp with
  | Ok b => exists pre cert hdr key post offs, inp = pre ++ cert ++ hdr ++ key ++ post /\ decodeData data_new cert = Ok (sb_certificate b, offs) /\ sb_key b = Some key
  | Err e => e = ValueError \/ e = RuntimeError end.
Proof.
  intros inp B. unfold sb_wireDecode, dec_sb. pose proof (zlen_nonneg _ inp) as Z0. unfold dbind at 1. pose proof (dsafe_readNested 128 inp 0 B ltac:(lia)) as P1. destruct (d_readNestedTlvsStart 128 inp 0) as [[e o1]|x]; [|exact P1].
  unfold dbind at 1, d_getOffset. unfold dbind at 1. pose proof (dsafe_readNested 6 inp o1 B ltac:(lia)) as P2. destruct (d_readNestedTlvsStart 6 inp o1) as [[ce o2]|x]; [|exact P2].
  unfold dbind at 1, d_seek. unfold dbind at 1, d_getSlice. unfold dbind at 1, dlift. destruct (zslice_split _ inp o1 ce ltac:(lia) ltac:(lia)) as (p & q & E & Ep).
  assert (Bc : bytes_ok (zslice inp o1 ce)) by (unfold bytes_ok in *; rewrite E in B; apply Forall_app in B; destruct B as [_ B]; apply Forall_app in B; apply B).
  destruct (decodeData data_new (zslice inp o1 ce)) as [[c offs]|x] eqn:Dc.
  2:{ unfold decodeData in Dc. pose proof (safe_data data_new (zslice inp o1 ce) 0 Bc ltac:(pose proof (zlen_nonneg _ (zslice inp o1 ce)); lia)) as S. destruct (dec_data data_new (zslice inp o1 ce) 0) as [[r o]|y]; [discriminate Dc|]. cbn in Dc. injection Dc as <-. exact S. }
  unfold dbind at 1. pose proof (dsafe_readBlob 129 inp ce B ltac:(lia)) as P3. destruct (d_readBlobTlv 129 inp ce) as [[k o3]|x]; [|exact P3]. destruct P3 as (P3 & P4 & _ & a & A1 & A2 & A3 & A4).
  unfold dbind at 1. pose proof (dsafe_finish e false inp o3 B ltac:(lia)) as P5. destruct (d_finishNestedTlvs e false inp o3) as [[u o4]|x]; [|exact P5]. cbn [rbind dret fst sb_certificate sb_key].
  pose proof (zlen_nonneg _ k) as Zk. destruct (zslice_split _ inp a o3 ltac:(lia) ltac:(lia)) as (p3 & q3 & E3 & Ep3). rewrite <- A2 in E3.
  assert (Lc : zlen (zslice inp o1 ce) = ce - o1) by (apply zslice_length; lia).
  assert (Ec : p3 = p ++ zslice inp o1 ce ++ zslice inp ce a).
  { destruct (zslice_split _ inp ce a ltac:(lia) ltac:(lia)) as (p5 & q5 & E5 & Ep5).
    assert (X : p5 = p ++ zslice inp o1 ce). { apply (app_eq_len _ p5 (zslice inp ce a ++ q5) (p ++ zslice inp o1 ce) q); [rewrite <- app_assoc; congruence|rewrite zlen_app; lia]. }
    rewrite app_assoc, <- X. apply (app_eq_len _ p3 (k ++ q3) (p5 ++ zslice inp ce a) q5); [rewrite <- app_assoc; congruence|rewrite zlen_app, zslice_length; lia]. }
  exists p, (zslice inp o1 ce), (zslice inp ce a), k, q3, offs. split; [|split; [exact Dc|reflexivity]]. rewrite E3 at 1. rewrite Ec, <- !app_assoc. reflexivity.
Qed.
Print Assumptions C72_round_trip.
Print Assumptions C72_same.
Print Assumptions C72_injective.
Print Assumptions C72_any_bytes.
