(** * Properties C08, C16, C17, C18, C19, C44: packet round trips *)
From Verif Require Import Base BaseLemmas TlvModel TlvSpec TlvProofs TlvDecProofs NameModel NameSpec NameProofs UriModel CalModel CalProofs WireModel WireSpec WireProofs WireProofs2 WireProofs3 WireProofs4 WireProofs5.
From Coq Require Import ZifyBool.

(** ** C08 Name wire round trip *)
Lemma comps_split : forall n, exists post, elems (map comp_el n) = elems (map comp_el (removelast n)) ++ post.
Proof.
  intros [|c n]; [exists []; reflexivity|]. exists (elems [comp_el (last (c :: n) c)]).
  change [comp_el (last (c :: n) c)] with (map comp_el [last (c :: n) c]). rewrite <- elems_app, <- map_app.
  rewrite <- (app_removelast_last c (l := c :: n)) by discriminate. reflexivity.
Qed.
Lemma name_slice : forall pre n post,
  zslice (pre ++ elems [name_el n] ++ post) (zlen pre + name_begin n) (zlen pre + name_end n) = elems (map comp_el (removelast n)).
Proof.
  intros pre n post. rewrite elems_one'. unfold name_el, name_end, name_begin. cbn [fst snd]. unfold hdr, tlv.
  destruct (comps_split n) as [rest S]. set (L := zlen (elems (map comp_el n))). rewrite S.
  rewrite <- !app_assoc. rewrite (app_assoc pre), (app_assoc (pre ++ varnum 7)). apply zslice_app'; zlia.
Qed.

Theorem C08_name_round_trip : forall n, name_ok n -> zlen (encodeName n) < 2 ^ 64 ->
  encodeName n = elems [name_el n] /\ decodeName (encodeName n) = Ok n.
Proof.
  intros n H L. unfold encodeName in *. rewrite enc_name_ok in * by exact H. cbn [fst] in *. rewrite app_nil_r in *.
  split; [reflexivity|]. unfold decodeName.
  assert (A : At (elems [name_el n]) 0 (zlen (elems [name_el n])) [name_el n]).
  { rewrite elems_one' in *. apply At_top; [unfold u64; cbn; lia|exact L]. }
  destruct (dec_name_ok _ _ _ _ _ H A) as [-> _]. reflexivity.
Qed.
(** The offsets reported by both sides delimit all components but the last. *)
Theorem C08_signed_portion : forall n, name_ok n -> zlen (encodeName n) < 2 ^ 64 ->
  exists b e off, enc_name n [] = (encodeName n, (b, e)) /\ dec_name (encodeName n) 0 = Ok (n, (b, e), off) /\
    zslice (encodeName n) b e = elems (map comp_el (removelast n)).
Proof.
  intros n H L. unfold encodeName in *. rewrite enc_name_ok in * by exact H. cbn [fst] in *. rewrite app_nil_r in *.
  exists (name_begin n), (name_end n), (zlen (elems [name_el n])). split; [reflexivity|]. split.
  - assert (A : At (elems [name_el n]) 0 (zlen (elems [name_el n])) [name_el n]).
    { rewrite elems_one' in *. apply At_top; [unfold u64; cbn; lia|exact L]. }
    destruct (dec_name_ok _ _ _ _ _ H A) as [-> _]. rewrite !Z.add_0_l. reflexivity.
  - pose proof (name_slice [] n []) as S. rewrite app_nil_r in S. exact S.
Qed.
(** Different names have different encodings. *)
Theorem C08_encoding_injective : forall a b, name_ok a -> name_ok b -> zlen (encodeName a) < 2 ^ 64 ->
  encodeName a = encodeName b -> a = b.
Proof.
  intros a b Ha Hb L E. destruct (C08_name_round_trip a Ha L) as [_ Da]. rewrite E in *.
  destruct (C08_name_round_trip b Hb L) as [_ Db]. congruence.
Qed.
(** A digest component that has not 32 bytes (a Component may be built with any value and
    type) is encoded but cannot be decoded. *)
Theorem C08_bad_digest_refuted : exists n, (forall c, In c n -> c_valid c) /\ decodeName (encodeName n) = Err RuntimeError.
Proof.
  exists [Comp CT_IMPLICIT (-1) [1; 2]]. split; [|vm_compute; reflexivity]. intros c [<-|[]].
  split; [apply Forall_cons; [unfold is_byte; lia|]; apply Forall_cons; [unfold is_byte; lia|]; apply Forall_nil|]. right. split; [left|]; reflexivity.
Qed.
(** OTHER_CODE with the code of a recognized type comes back with that type. *)
Theorem C08_other_code_refuted : exists n n', decodeName (encodeName n) = Ok n' /\ n' <> n /\
  c_new [65] (Some CT_OTHER) (Some 8) = Ok (Comp CT_OTHER 8 [65]) /\ n = [Comp CT_OTHER 8 [65]].
Proof.
  exists [Comp CT_OTHER 8 [65]], [c_generic [65]]. split; [vm_compute; reflexivity|]. split; [discriminate|]. split; reflexivity.
Qed.

Lemma gen_ok : forall v, bytes_okb v = true -> comp_ok (c_generic v).
Proof.
  intros v H. split; [split; [apply bytes_okb_ok, H|right; split; [right; right|]; reflexivity]|]. split; [reflexivity|].
  cbn. unfold CT_IMPLICIT, CT_PARAMS. intros [K|K]; discriminate K.
Qed.
Definition ex_name : name := [c_generic [65; 66]; Comp CT_OTHER 300 []; Comp CT_IMPLICIT (-1) (repeat 7 32)].
Example C08_example : name_ok ex_name /\ decodeName (encodeName ex_name) = Ok ex_name /\
  firstn 10 (encodeName ex_name) = [7; 42; 8; 2; 65; 66; 253; 1; 44; 0].
Proof.
  split; [|vm_compute; auto]. unfold ex_name. apply Forall_cons; [apply gen_ok; reflexivity|]. apply Forall_cons; [|apply Forall_cons; [|apply Forall_nil]].
  - split; [split; [apply Forall_nil|left]|split; [reflexivity|]]. { cbn. unfold CT_OTHER. lia. } cbn. unfold CT_OTHER, CT_IMPLICIT, CT_PARAMS. intros [K|K]; discriminate K.
  - split; [split; [apply bytes_okb_ok; reflexivity|right; split; [left|]; reflexivity]|]. split; reflexivity.
Qed.
Print Assumptions C08_name_round_trip.
Print Assumptions C08_signed_portion.
Print Assumptions C08_encoding_injective.

(** ** C16 Interest v0.2 *)
Lemma interest_slice : forall es i, let body := elems (name_el (i_name i) :: es) in
  zslice (tlv 5 body) (ibegin body i) (iend body i) = elems (map comp_el (removelast (i_name i))).
Proof.
  intros es i body. unfold ibegin, iend. pose proof (name_slice (varnum 5 ++ varnum (zlen body)) (i_name i) (elems es)) as S.
  assert (Hh : hdr 5 body = zlen (varnum 5 ++ varnum (zlen body))) by (unfold hdr; zlia). rewrite <- Hh in S.
  rewrite <- S. f_equal. unfold tlv. unfold body at 2. rewrite (elems_one' (name_el (i_name i))), (elems_cons' (name_el (i_name i)) es), <- !app_assoc. reflexivity.
Qed.

Theorem C16_interest_round_trip : forall rnd prev i, interest_ok i -> blob_size (i_params i) = 0 -> i_hint prev = [] ->
  let nonce := nonce4 rnd (i_nonce i) in
  zlen (interest02 i nonce) < 2 ^ 64 ->
  exists b e, encodeInterest rnd i = Ok (interest02 i nonce, (b, e)) /\
    decodeInterest prev (interest02 i nonce) = Ok (interest_seen i nonce, (b, e)) /\
    zslice (interest02 i nonce) b e = elems (map comp_el (removelast (i_name i))).
Proof.
  intros rnd prev i H P Hp nonce Sz. destruct (link_el i H) as [lv L]. pose proof (interest02_els i nonce lv L) as E. rewrite E in *.
  pose proof (encodeV02_ok rnd i lv H L) as Enc. cbn zeta in Enc. fold nonce in Enc.
  exists (ibegin (elems (els02 i nonce lv)) i), (iend (elems (els02 i nonce lv)) i). split; [|split].
  - unfold encodeInterest. rewrite P. exact Enc.
  - unfold decodeInterest. rewrite (decV02_ok prev i nonce lv H L Sz). f_equal. f_equal. unfold seen02, interest_seen.
    rewrite Hp. destruct (i_hint i); reflexivity.
  - apply interest_slice.
Qed.

(** What interest_seen keeps when every field is meaningful: everything. *)
Theorem C16_all_fields : forall rnd i, kl_seen (i_keyLocator i) = i_keyLocator i -> i_params i = None ->
  (exists n, i_nonce i = Some n /\ zlen n = 4) -> interest_seen i (nonce4 rnd (i_nonce i)) = i.
Proof.
  intros rnd [nm mn mx k ex ch f no lt h ps li se] K P (n & N & L). cbn in *. subst. unfold interest_seen. cbn. rewrite K.
  replace (zlen n =? 0) with false by lia. replace (zlen n <? 4) with false by lia. replace (zlen n =? 4) with true by lia. reflexivity.
Qed.

(** The nonce on the wire: always 4 bytes, the first ones of the interest's nonce,
    completed with random bytes. *)
Theorem C16_nonce : forall rnd o, length rnd = 4%nat ->
  let n := match o with Some n => n | None => [] end in
  length (nonce4 rnd o) = 4%nat /\
  (forall k, (k < 4)%nat -> nth k (nonce4 rnd o) 0 = if (k <? length n)%nat then nth k n 0 else nth k rnd 0).
Proof.
  intros rnd o L. destruct rnd as [|r0 [|r1 [|r2 [|r3 [|]]]]]; try discriminate. 
  assert (T : forall n, nonce4 [r0; r1; r2; r3] (Some n) = firstn 4 (n ++ skipn (length n) [r0; r1; r2; r3])).
  { intros n. unfold nonce4. unfold zlen. destruct n as [|a [|b [|c [|d [|e n]]]]]; try reflexivity.
    cbn [length]. rewrite !Nat2Z.inj_succ. replace (Z.succ _ =? 0) with false by lia. replace (Z.succ _ <? 4) with false by lia.
    replace (Z.succ _ =? 4) with false by lia. reflexivity. }
  destruct o as [n|]; cbn zeta.
  - rewrite T. destruct n as [|a [|b [|c [|d n]]]]; (split; [reflexivity|]); intros [|[|[|[|k]]]] Hk; try reflexivity; lia.
  - split; [reflexivity|]. intros [|[|[|[|k]]]] Hk; try reflexivity; lia.
Qed.

(** Decoding into an object that is used again: a forwarding hint of the previous
    packet stays when the new packet has none; everything else is replaced. *)
Theorem C16_reused_object : forall rnd prev i, interest_ok i -> blob_size (i_params i) = 0 ->
  let nonce := nonce4 rnd (i_nonce i) in zlen (interest02 i nonce) < 2 ^ 64 ->
  exists r offs, decodeInterest prev (interest02 i nonce) = Ok (r, offs) /\
    i_hint r = (match i_hint i with [] => i_hint prev | h => h end) /\
    Interest (i_name r) (i_min r) (i_max r) (i_keyLocator r) (i_exclude r) (i_child r) (i_mustBeFresh r) (i_nonce r) (i_lifetime r)
      (i_hint i) (i_params r) (i_link r) (i_selected r) = interest_seen i nonce.
Proof.
  intros rnd prev i H P nonce Sz. destruct (link_el i H) as [lv L]. pose proof (interest02_els i nonce lv L) as E. rewrite E in *.
  unfold decodeInterest. rewrite (decV02_ok prev i nonce lv H L Sz). eexists. eexists. split; [reflexivity|]. split; reflexivity.
Qed.
Theorem C16_reused_object_refuted : exists rnd prev i w offs r, interest_ok i /\ encodeInterest rnd i = Ok (w, offs) /\
  decodeInterest prev w = Ok (r, offs) /\ i_hint i = [] /\ i_hint r <> [].
Proof.
  exists [1; 2; 3; 4], (Interest [] None None kl_empty [] None false None None [(1, [c_generic [65]])] None None None),
    (Interest [c_generic [66]] None None kl_empty [] None false None None [] None None None).
  eexists. eexists. eexists. split; [|split; [vm_compute; reflexivity|split; [vm_compute; reflexivity|split; [reflexivity|discriminate]]]].
  unfold interest_ok. cbn. split; [apply Forall_cons; [apply gen_ok; reflexivity|apply Forall_nil]|]. 
  repeat (split; [first [exact I | apply Forall_nil]|]). split; [discriminate|]. split; [congruence|]. congruence.
Qed.

Definition ex_interest : interest :=
  Interest ex_name (Some 1) (Some 70000) (KL (Some 1) [c_generic [75]] None) [ExComp (c_generic [65]); ExAny; ExComp (c_generic [70])]
    (Some 1) true (Some [9; 8; 7; 6]) (Some 4000) [] None (Some (tlv 6 [7; 0])) (Some 2).
Lemma ex_interest_ok : interest_ok ex_interest.
Proof.
  unfold interest_ok, ex_interest. cbn [i_name i_min i_max i_keyLocator i_exclude i_child i_lifetime i_hint i_selected i_link].
  split; [apply C08_example|]. split; [unfold u64o, u64; lia|]. split; [unfold u64o, u64; lia|].
  split; [left; split; [reflexivity|apply Forall_cons; [apply gen_ok; reflexivity|apply Forall_nil]]|].
  split. { repeat (apply Forall_cons; [first [exact I | split; [apply gen_ok; reflexivity|discriminate]]|]). apply Forall_nil. }
  split; [unfold u64o, u64; lia|]. split; [cbn; lia|]. split; [apply Forall_nil|]. split; [unfold u64o, u64; lia|].
  split; [intros l E; injection E as <-; eauto|]. split; [congruence|]. discriminate.
Qed.
Example C16_example : interest_ok ex_interest /\
  exists w offs, encodeInterest [1; 2; 3; 4] ex_interest = Ok (w, offs) /\ decodeInterest i_empty w = Ok (ex_interest, offs).
Proof. split; [apply ex_interest_ok|]. eexists. eexists. split; [vm_compute; reflexivity|vm_compute; reflexivity]. Qed.
Print Assumptions C16_interest_round_trip.
Print Assumptions C16_all_fields.
Print Assumptions C16_nonce.
Print Assumptions C16_reused_object.
Print Assumptions C16_reused_object_refuted.

(** ** C17 Interest with ApplicationParameters *)
Theorem C17_v03_round_trip : forall rnd prev i, interest_ok i -> 0 < blob_size (i_params i) ->
  i_canBePrefix i = true \/ i_mustBeFresh i = true \/ i_hint i <> [] ->
  let nonce := nonce4 rnd (i_nonce i) in
  zlen (interest03 i nonce) < 2 ^ 64 ->
  exists b e, encodeInterest rnd i = Ok (interest03 i nonce, (b, e)) /\
    decodeInterest prev (interest03 i nonce) = Ok (interest_seen03 i nonce, (b, e)) /\
    zslice (interest03 i nonce) b e = elems (map comp_el (removelast (i_name i))).
Proof.
  intros rnd prev i H P V nonce Sz. change (interest03 i nonce) with (tlv 5 (elems (els03 i nonce))) in *.
  exists (ibegin (elems (els03 i nonce)) i), (iend (elems (els03 i nonce)) i). split; [|split].
  - unfold encodeInterest. replace (0 <? blob_size (i_params i)) with true by lia. exact (encodeV03_ok rnd i H P).
  - unfold decodeInterest. rewrite (decV02_of_03_fails prev i nonce H); [|intros (A & B & C); intuition congruence|exact Sz].
    rewrite (decV03_ok i nonce H P Sz). reflexivity.
  - apply interest_slice.
Qed.
(** Otherwise the parameters are always lost: the packet is taken for a v0.2 Interest,
    its parameters skipped as an unrecognized element, and CanBePrefix is set. *)
Theorem C17_params_lost : forall rnd prev i, interest_ok i -> 0 < blob_size (i_params i) ->
  i_canBePrefix i = false -> i_mustBeFresh i = false -> i_hint i = [] ->
  let nonce := nonce4 rnd (i_nonce i) in
  zlen (interest03 i nonce) < 2 ^ 64 ->
  exists offs r, encodeInterest rnd i = Ok (interest03 i nonce, offs) /\
    decodeInterest prev (interest03 i nonce) = Ok (r, offs) /\ i_params r = None /\ i_canBePrefix r = true.
Proof.
  intros rnd prev i H P P1 P2 P3 nonce Sz. change (interest03 i nonce) with (tlv 5 (elems (els03 i nonce))) in *.
  exists (ibegin (elems (els03 i nonce)) i, iend (elems (els03 i nonce)) i), (lost prev i nonce). split; [|split].
  - unfold encodeInterest. replace (0 <? blob_size (i_params i)) with true by lia. exact (encodeV03_ok rnd i H P).
  - unfold decodeInterest. rewrite (decV02_of_03_plain prev i nonce H (conj P1 (conj P2 P3)) Sz). reflexivity.
  - split; reflexivity.
Qed.
Definition ex_params (mx : option Z) : interest :=
  Interest [c_generic [65]] None mx kl_empty [] None false (Some [9; 8; 7; 6]) None [] (Some [1; 2; 3]) None None.
Lemma ex_params_ok : forall mx, u64o mx -> interest_ok (ex_params mx).
Proof.
  intros mx U. unfold interest_ok. cbn. split; [apply Forall_cons; [apply gen_ok; reflexivity|apply Forall_nil]|].
  split; [exact I|]. split; [exact U|]. repeat (split; [first [exact I | apply Forall_nil]|]). split; [discriminate|]. split; congruence.
Qed.
Theorem C17_round_trip_refuted : exists rnd i w offs r, interest_ok i /\ encodeInterest rnd i = Ok (w, offs) /\
  decodeInterest i_empty w = Ok (r, offs) /\ i_params i = Some [1; 2; 3] /\ i_params r = None /\ i_canBePrefix i = false /\ i_canBePrefix r = true.
Proof.
  exists [1; 2; 3; 4], (ex_params (Some 1)). eexists. eexists. eexists. split; [apply ex_params_ok; unfold u64o, u64; lia|].
  split; [vm_compute; reflexivity|]. split; [vm_compute; reflexivity|]. repeat (split; [reflexivity|]). reflexivity.
Qed.
Example C17_example : interest_ok (ex_params None) /\ i_canBePrefix (ex_params None) = true /\
  exists w offs, encodeInterest [1; 2; 3; 4] (ex_params None) = Ok (w, offs) /\ decodeInterest i_empty w = Ok (ex_params None, offs).
Proof. split; [apply ex_params_ok; exact I|]. split; [reflexivity|]. eexists. eexists. split; [vm_compute; reflexivity|vm_compute; reflexivity]. Qed.
Print Assumptions C17_v03_round_trip.
Print Assumptions C17_params_lost.
Print Assumptions C17_round_trip_refuted.

(** ** C18 Data round trip, C19 signed portion *)
Theorem C18_data_round_trip : forall prev d, data_ok d -> zlen (data_bytes d) < 2 ^ 64 ->
  exists offs, encodeData d = Ok (data_bytes d, offs) /\ decodeData prev (data_bytes d) = Ok (data_seen prev d, offs).
Proof.
  intros prev d H L. eexists. split; [exact (encodeData_ok d H)|]. exact (decodeData_ok prev d H L).
Qed.
(** What data_seen keeps when every field is meaningful: everything. *)
Theorem C18_all_fields : forall prev d,
  (exists c, d_content d = Some c) -> (exists b, sig_bits (d_sig d) = Some b) ->
  (mi_type (d_meta d) <> 32767 -> mi_other (d_meta d) = mi_other (d_meta prev)) ->
  (c_value (mi_final (d_meta d)) = [] -> mi_final (d_meta d) = c_generic []) ->
  (match d_sig d with SigRsa k _ _ | SigEcdsa k _ _ | SigHmac k _ => kl_seen k = k | _ => True end) ->
  data_seen prev d = d.
Proof.
  intros prev [n [t o f c] ct s] (cv & E1) (b & E2) E3 E4 E5. cbn in *. subst ct. unfold data_seen. cbn [d_name d_meta d_content d_sig]. f_equal.
  - unfold mi_seen. cbn [mi_type mi_other mi_freshness mi_final]. f_equal.
    + destruct (t =? 32767) eqn:Et; [reflexivity|]. symmetry. apply E3. lia.
    + destruct (c_value c); [symmetry; auto|reflexivity].
  - destruct s; cbn in *; subst; try rewrite E5; reflexivity.
Qed.
Theorem C19_signed_portion : forall prev d, data_ok d -> zlen (data_bytes d) < 2 ^ 64 ->
  exists w b e r, encodeData d = Ok (w, (b, e)) /\ decodeData prev w = Ok (r, (b, e)) /\
    zslice w b e = elems [name_el (d_name d); mi_el (d_meta d); (21, blob_bytes (d_content d))] ++ siginfo (d_sig d) /\
    zslice w e (zlen w) = tlv 23 (blob_bytes (sig_bits (d_sig d))).
Proof.
  intros prev d H L. eexists. eexists. eexists. eexists. split; [exact (encodeData_ok d H)|]. split; [exact (decodeData_ok prev d H L)|].
  fold (data_signed d). unfold data_bytes. cbn zeta. set (body := data_signed d ++ elems [(23, blob_bytes (sig_bits (d_sig d)))]).
  assert (Hh : hdr 6 body = zlen (varnum 6 ++ varnum (zlen body))) by (unfold hdr; zlia).
  assert (T : tlv 6 body = (varnum 6 ++ varnum (zlen body)) ++ data_signed d ++ tlv 23 (blob_bytes (sig_bits (d_sig d)))).
  { unfold tlv at 1. unfold body at 2. rewrite elems_one, <- app_assoc. reflexivity. }
  rewrite T. split; [apply zslice_app'; lia|]. rewrite (app_assoc _ (data_signed d)).
  set (p := (varnum 6 ++ varnum (zlen body)) ++ data_signed d). rewrite <- (app_nil_r (p ++ _)) at 1. rewrite <- app_assoc.
  apply zslice_app'; [unfold p; rewrite zlen_app; lia|zlia].
Qed.
(** The bytes to sign do not depend on the signature value. *)
Theorem C19_independent_of_signature_value : forall d v1 v2 w1 b1 e1 w2 b2 e2,
  let d1 := Data (d_name d) (d_meta d) (d_content d) (sig_setBits (d_sig d) v1) in
  let d2 := Data (d_name d) (d_meta d) (d_content d) (sig_setBits (d_sig d) v2) in
  data_ok d -> zlen (data_bytes d1) < 2 ^ 64 -> zlen (data_bytes d2) < 2 ^ 64 ->
  encodeData d1 = Ok (w1, (b1, e1)) -> encodeData d2 = Ok (w2, (b2, e2)) -> zslice w1 b1 e1 = zslice w2 b2 e2.
Proof.
  intros d v1 v2 w1 b1 e1 w2 b2 e2 d1 d2 (Nm & Mi & Sg) L1 L2 E1 E2.
  assert (K : forall v, data_ok (Data (d_name d) (d_meta d) (d_content d) (sig_setBits (d_sig d) v))).
  { intros v. split; [exact Nm|]. split; [exact Mi|]. cbn. destruct (d_sig d); exact Sg. }
  destruct (C19_signed_portion d1 d1 (K v1) L1) as (w & b & e & r & E & _ & S & _). rewrite E1 in E. injection E as <- <- <-.
  destruct (C19_signed_portion d2 d2 (K v2) L2) as (w & b & e & r' & E & _ & S' & _). rewrite E2 in E. injection E as <- <- <-.
  rewrite S, S'. unfold d1, d2. cbn. destruct (d_sig d); reflexivity.
Qed.

(** A null content comes back as an empty content. *)
Theorem C18_null_content_refuted : exists d w offs r, data_ok d /\ encodeData d = Ok (w, offs) /\ decodeData d w = Ok (r, offs) /\
  d_content d = None /\ d_content r = Some [].
Proof.
  exists (Data [c_generic [65]] mi_empty None (SigDigest (Some [1; 2]))). eexists. eexists. eexists. split.
  - split; [apply Forall_cons; [apply gen_ok; reflexivity|apply Forall_nil]|]. split; [|exact I].
    split; [left; cbn; lia|]. split; [exact I|]. apply gen_ok. reflexivity.
  - split; [vm_compute; reflexivity|]. split; [vm_compute; reflexivity|]. split; reflexivity.
Qed.
Definition ex_data : data :=
  Data [c_generic [65]; c_generic [1; 2]] (MI 32767 77 (Some 10000) (c_generic [0; 5])) (Some [1; 2; 3])
    (SigRsa (KL (Some 2) [] (Some [5; 6])) (VP (1700000000 * 1000) (1800000000 * 1000)) (Some [9; 9])).
Lemma ex_data_ok : data_ok ex_data.
Proof.
  split; [repeat (apply Forall_cons; [apply gen_ok; reflexivity|]); apply Forall_nil|]. split.
  - split; [right; cbn; lia|]. split; [cbn; lia|]. apply gen_ok. reflexivity.
  - split; [right; split; [reflexivity|]; cbn; eauto|]. right. split; [exists 1700000000|exists 1800000000]; split; try reflexivity; lia.
Qed.
Example C18_example : data_ok ex_data /\
  exists w offs, encodeData ex_data = Ok (w, offs) /\ decodeData ex_data w = Ok (ex_data, offs).
Proof. split; [apply ex_data_ok|]. eexists. eexists. split; [vm_compute; reflexivity|vm_compute; reflexivity]. Qed.
Print Assumptions C18_data_round_trip.
Print Assumptions C18_all_fields.
Print Assumptions C19_signed_portion.
Print Assumptions C19_independent_of_signature_value.
Print Assumptions C18_null_content_refuted.
