(** * Properties C20, C21, C23, C44, C46: management, link and encrypted formats *)
From Verif Require Import Base BaseLemmas TlvModel TlvSpec TlvProofs TlvDecProofs NameModel NameSpec NameProofs UriModel CalModel CalProofs WireModel WireSpec WireProofs WireProofs2 WireProofs3 WireProofs4 WireProofs5 WireProps BlobModel BlobProps CtlModel CtlSpec CtlProofs.
From Coq Require Import ZifyBool.
Local Open Scope dec_scope.

(** ** C20 ControlParameters and ControlResponse *)
Theorem C20_parameters_round_trip : forall c, cp_ok c -> zlen (tlv 104 (elems (cp_els c no_extra))) < 2 ^ 64 ->
  encodeControlParameters c = Ok (tlv 104 (elems (cp_els c no_extra))) /\
  decodeControlParameters (tlv 104 (elems (cp_els c no_extra))) = Ok c.
Proof.
  intros c H L. split.
  - unfold encodeControlParameters. rewrite enc_cp_ok by exact H. unfold cp_el. rewrite elems_one, app_nil_r. reflexivity.
  - unfold decodeControlParameters. assert (A := At_top 104 (elems (cp_els c no_extra)) ltac:(u64c) L).
    destruct (dec_cp_ok c no_extra _ _ _ [] H A) as [-> _]. reflexivity.
Qed.
(** The decoder reads the same parameters when the elements it does not use are present. *)
Theorem C20_unused_elements : forall c x, cp_ok c -> zlen (tlv 104 (elems (cp_els c x))) < 2 ^ 64 ->
  decodeControlParameters (tlv 104 (elems (cp_els c x))) = Ok c.
Proof.
  intros c x H L. unfold decodeControlParameters. assert (A := At_top 104 (elems (cp_els c x)) ltac:(u64c) L).
  destruct (dec_cp_ok c x _ _ _ [] H A) as [-> _]. reflexivity.
Qed.
Theorem C20_response_round_trip : forall r, cr_ok r -> zlen (cr_bytes r no_extra) < 2 ^ 64 ->
  encodeControlResponse r = Ok (cr_bytes r no_extra) /\ decodeControlResponse (cr_bytes r no_extra) = Ok r.
Proof.
  intros [co tx bo] ((c & Ec & U) & T & B) L. cbn [cr_code cr_text cr_body] in *. subst co. unfold cr_bytes in *. cbn [cr_code cr_text cr_body opt_nn app] in *. split.
  - unfold encodeControlResponse. cbn [cr_code cr_text cr_body].
    assert (Eb : match bo with Some b => enc_cp b [] | None => Ok [] end = Ok (elems (match bo with Some b => [cp_el b no_extra] | None => [] end))).
    { destruct bo as [b|]; [rewrite enc_cp_ok by exact B; rewrite app_nil_r; reflexivity|reflexivity]. }
    rewrite Eb. cbn [rbind]. destruct (utf8_ok tx T) as [-> _]. cbn [rbind]. rewrite e_blobTlv_tlv by lia.
    rewrite e_nnTlv_tlv by (unfold u64 in U; lia). cbn [rbind]. f_equal.
    set (es := match bo with Some b => [cp_el b no_extra] | None => [] end). rewrite !elems_cons.
    pose proof (e_TL_tlv' 101 (tlv 102 (nonneg c) ++ tlv 103 (utf8 tx) ++ elems es) [] (zlen (tlv 102 (nonneg c) ++ tlv 103 (utf8 tx) ++ elems es)) ltac:(lia)) as Q.
    rewrite !app_nil_r in Q. rewrite zlen_nil in Q. specialize (Q ltac:(lia)). exact Q.
  - unfold decodeControlResponse. set (es := match bo with Some b => [cp_el b no_extra] | None => [] end) in *.
    assert (A := At_top 101 _ ltac:(u64c) L). unfold dec_cr.
    assert (Ty : types_ok ((102, nonneg c) :: (103, utf8 tx) :: es)).
    { apply Forall_cons; [u64c|]. apply Forall_cons; [u64c|]. unfold es. destruct bo; [apply types_one; u64c|apply Forall_nil]. }
    destruct (At_enter _ _ _ _ _ _ A Ty) as [E A1]. rewrite (dbind_ok _ _ _ _ _ _ _ _ E). clear E.
    rewrite (dbind_ok _ _ _ _ _ _ _ _ (At_nnTlv _ _ _ _ _ _ U A1)). apply At_next in A1.
    rewrite (dbind_ok _ _ _ _ _ _ _ _ (At_blob _ _ _ _ _ _ A1)). apply At_next in A1.
    destruct (utf8_ok tx T) as [_ Et].
    match goal with |- context [dbind (dlift ?m) _ ?i ?o] => assert (El : dlift m i o = Ok (tx, o)) by (rewrite Et; reflexivity) end.
    rewrite (dbind_ok _ _ _ _ _ _ _ _ El). clear El.
    set (inp := tlv 101 _) in *. rewrite !Z.add_0_l in *. set (en := zlen inp) in *.
    match type of A1 with At _ ?o _ _ => set (o1 := o) in * end.
    rewrite (dbind_ok _ _ _ _ _ _ _ _ (At_peek _ _ _ _ 104 A1)). cbn beta.
    assert (K : (if match es with [] => false | (t', _) :: _ => t' =? 104 end then c <~ dec_cp ;; dret (Some c) else dret None) inp o1 = Ok (bo, en)).
    { unfold es in *. destruct bo as [b|].
      - unfold cp_el at 1. cbn [Z.eqb Pos.eqb]. destruct (dec_cp_ok b no_extra _ _ _ _ B A1) as [E A2].
        rewrite (dbind_ok _ _ _ _ _ _ _ _ E). apply At_nil in A2. unfold dret. f_equal. f_equal. exact A2.
      - apply At_nil in A1. unfold dret. f_equal. f_equal. exact A1. }
    rewrite (dbind_ok _ _ _ _ _ _ _ _ K). rewrite (dbind_ok _ _ _ _ _ _ _ _ (finish_at_end en false inp)). reflexivity.
Qed.
(** Registration options survive their flag encoding, and the flags are the bits of the
    NFD protocol. *)
Theorem C20_flags_round_trip : forall r, ro_setFlags (ro_getFlags r) = r.
Proof. exact flags_ok. Qed.
Theorem C20_flags_bits : forall n, 0 <= n -> ro_childInherit (ro_setFlags n) = Z.testbit n 0 /\ ro_capture (ro_setFlags n) = Z.testbit n 1.
Proof.
  intros n H. unfold ro_setFlags. cbn [ro_childInherit ro_capture]. split.
  - replace (Z.land n 1) with (n mod 2) by (change 1 with (Z.ones 1); rewrite Z.land_ones by lia; reflexivity).
    rewrite Z.bit0_odd. rewrite Zmod_odd. destruct (Z.odd n); reflexivity.
  - assert (E : Z.land n 2 = if Z.testbit n 1 then 2 else 0).
    { apply Z.bits_inj'. intros k Hk. rewrite Z.land_spec. change 2 with (2 ^ 1) at 1. rewrite Z.pow2_bits_eqb by lia.
      destruct (Z.eqb_spec 1 k) as [<-|Hne]; [destruct (Z.testbit n 1); reflexivity|].
      rewrite andb_false_r. destruct (Z.testbit n 1); [|now rewrite Z.bits_0]. change 2 with (2 ^ 1). rewrite Z.pow2_bits_false by lia. reflexivity. }
    rewrite E. destruct (Z.testbit n 1); reflexivity.
Qed.
(** A response without a status code cannot be encoded (TypeError). *)
Theorem C20_null_status_refuted : exists r, cr_text r = [79; 75] /\ encodeControlResponse r = Err TypeError.
Proof. exists (CR None [79; 75] None). split; reflexivity. Qed.
Definition ex_cp : controlParameters :=
  CP (Some [c_generic [65]]) (Some 300) [116; 99; 112; 58; 233] None (Some 65) (Some 10) (RegOpt false true) [c_generic [83]; c_generic [1; 2]] (Some 10000).
Lemma ex_cp_ok : cp_ok ex_cp.
Proof.
  unfold cp_ok, ex_cp. cbn [cp_name cp_faceId cp_uri cp_localControlFeature cp_origin cp_cost cp_strategy cp_expiration].
  split; [apply Forall_cons; [apply gen_ok; reflexivity|apply Forall_nil]|]. split; [unfold u64o, u64; lia|].
  split; [repeat (apply Forall_cons; [unfold scalar; lia|]); apply Forall_nil|]. split; [exact I|]. split; [unfold u64o, u64; lia|]. split; [unfold u64o, u64; lia|].
  split; [repeat (apply Forall_cons; [apply gen_ok; reflexivity|]); apply Forall_nil|]. cbn; lia.
Qed.
Example C20_example : cp_ok ex_cp /\ (exists w, encodeControlParameters ex_cp = Ok w /\ decodeControlParameters w = Ok ex_cp) /\
  (exists w, encodeControlResponse (CR (Some 200) [79; 75] (Some ex_cp)) = Ok w /\ decodeControlResponse w = Ok (CR (Some 200) [79; 75] (Some ex_cp))) /\
  cr_ok (CR (Some 200) [79; 75] (Some ex_cp)).
Proof.
  split; [apply ex_cp_ok|]. split; [eexists; split; [vm_compute; reflexivity|vm_compute; reflexivity]|]. split; [eexists; split; [vm_compute; reflexivity|vm_compute; reflexivity]|].
  split; [exists 200; split; [reflexivity|unfold u64; lia]|]. split; [repeat (apply Forall_cons; [unfold scalar; lia|]); apply Forall_nil|apply ex_cp_ok].
Qed.

(** ** C46 ControlParameters.equals *)
(** Two separate objects never compare as equal, and an object compared with itself, or
    sharing its flags object, raises AttributeError. *)
Theorem C46_never_equal : forall a b, cp_equals false a b = Ok false.
Proof. intros. unfold cp_equals. rewrite andb_false_r. reflexivity. Qed.
Theorem C46_equals_refuted : exists c, cp_ok c /\ cp_equals false c c = Ok false /\ cp_equals true c c = Err AttributeError.
Proof. exists ex_cp. split; [apply ex_cp_ok|]. split; vm_compute; reflexivity. Qed.

(** ** C21 LpPacket *)
Theorem C21_decode : forall hs frag, Forall header_ok hs -> zlen (lp_bytes hs frag) < 2 ^ 64 ->
  decodeLpPacket (lp_bytes hs frag) = Ok (LP (flat_map header_field hs) frag).
Proof.
  intros hs frag H L. unfold decodeLpPacket, lp_bytes in *. assert (A := At_top 100 _ ltac:(u64c) L). unfold dec_lp.
  destruct (At_enter _ _ _ _ _ _ A (header_types hs frag H)) as [E A1]. rewrite (dbind_ok _ _ _ _ _ _ _ _ E). clear E.
  rewrite !Z.add_0_l in *. set (inp := tlv 100 (elems (map header_el hs ++ opt_el 80 frag))) in *. set (o := hdr 100 _) in *.
  assert (F : (length hs < S (length inp))%nat) by (pose proof (At_fuel _ _ _ _ A1) as F; rewrite app_length, map_length in F; lia).
  pose proof (dec_lp_loop_ok hs (S (length inp)) inp o (zlen inp) [] frag H A1 F) as D. unfold rbind.
  rewrite (dbind_ok _ _ (dfuel _) _ inp o _ _ D). cbn [rev app].
  rewrite (dbind_ok _ _ _ _ _ _ _ _ (finish_at_end (zlen inp) false inp)). reflexivity.
Qed.
(** A field of a type that is neither recognized nor in the ignorable range is rejected,
    whatever follows it. *)
Theorem C21_reject_unknown : forall hs t v es, Forall header_ok hs -> u64 t -> ~ lp_known t -> ~ lp_ignorable t ->
  Forall (fun e => u64 (fst e)) es -> zlen (tlv 100 (elems (map header_el hs ++ (t, v) :: es))) < 2 ^ 64 ->
  decodeLpPacket (tlv 100 (elems (map header_el hs ++ (t, v) :: es))) = Err ValueError.
Proof.
  intros hs t v es H U K G T L. unfold decodeLpPacket. assert (A := At_top 100 _ ltac:(u64c) L). unfold dec_lp.
  assert (Ty : types_ok (map header_el hs ++ (t, v) :: es)).
  { apply types_app; [|apply Forall_cons; [exact U|exact T]]. pose proof (header_types hs None H) as Q. rewrite app_nil_r in Q. exact Q. }
  destruct (At_enter _ _ _ _ _ _ A Ty) as [E A1]. rewrite (dbind_ok _ _ _ _ _ _ _ _ E). clear E.
  rewrite !Z.add_0_l in *. set (inp := tlv 100 _) in *. set (o := hdr 100 _) in *.
  assert (F : (length hs < S (length inp))%nat) by (pose proof (At_fuel _ _ _ _ A1) as F; rewrite app_length, map_length in F; lia).
  pose proof (dec_lp_loop_bad hs (S (length inp)) inp o (zlen inp) [] t v es H A1 K G F) as D.
  rewrite (dbind_err _ _ (dfuel _) _ inp o _ D). reflexivity.
Qed.
(** A Nack sent by the library is read back with its reason and its Interest. *)
Theorem C21_nack_round_trip : forall w n, nack_ok n -> zlen w < 2 ^ 63 -> exists p, encodeLpNack w n = Ok p /\
  decodeLpPacket p = Ok (LP [LpNack n] (Some w)) /\ lp_firstNack (lp_fields (LP [LpNack n] (Some w))) = Some n.
Proof.
  intros w n H L. exists (lp_bytes [HField (LpNack n)] (Some w)). split; [|split; [|reflexivity]].
  - unfold encodeLpNack. rewrite e_blobTlv_tlv by lia. rewrite app_nil_r.
    assert (R : (if (nk_reason n =? 0) || (nk_reason n =? 50) || (nk_reason n =? 100) || (nk_reason n =? 150) then Ok (nk_reason n)
               else if nk_reason n =? 32767 then Ok (nk_other n) else Err RuntimeError) = Ok (nack_code n)).
    { unfold nack_ok, nack_code in *. destruct H as [([->|[->|[->| ->]]] & _)|(-> & _)]; reflexivity. }
    rewrite R. cbn [rbind]. destruct (nack_of_ok n H) as [U _]. rewrite e_nnTlv_tlv by (unfold u64 in U; lia). cbn [rbind]. f_equal.
    unfold lp_bytes. cbn [map header_el opt_el app]. rewrite elems_cons, !elems_one.
    rewrite (e_TL_tlv' 800 (tlv 801 (nonneg (nack_code n))) (tlv 80 w)) by (lia || reflexivity).
    pose proof (e_TL_tlv 100 (tlv 800 (tlv 801 (nonneg (nack_code n))) ++ tlv 80 w) [] ltac:(lia)) as Q. rewrite !app_nil_r in Q. exact Q.
  - apply C21_decode; [apply Forall_cons; [exact H|apply Forall_nil]|]. unfold lp_bytes. cbn [map header_el opt_el app].
    destruct (nack_of_ok n H) as [U _]. pose proof (nonneg_len (nack_code n) ltac:(unfold u64 in U; lia)) as Nl.
    assert (V : forall t v, 0 <= t -> 0 <= zlen v -> zlen (tlv t v) <= zlen v + 18).
    { intros t v Ht Hv. rewrite tlv_len. unfold hdr. assert (K : forall m, 0 <= m -> zlen (varnum m) <= 9).
      { intros m Hm. unfold varnum. repeat match goal with |- context [if ?b then _ else _] => destruct b end; unfold zlen; cbn; lia. }
      pose proof (K t Ht). pose proof (K (zlen v) Hv). lia. }
    pose proof (zlen_nonneg _ w). 
    pose proof (V 80 w ltac:(lia) ltac:(lia)). pose proof (V 801 (nonneg (nack_code n)) ltac:(lia) ltac:(lia)).
    pose proof (V 800 (tlv 801 (nonneg (nack_code n))) ltac:(lia) ltac:(apply zlen_nonneg)).
    match goal with |- zlen (tlv 100 ?b) < _ => pose proof (V 100 b ltac:(lia) ltac:(apply zlen_nonneg)) as Q; assert (zlen b = zlen (tlv 800 (tlv 801 (nonneg (nack_code n)))) + zlen (tlv 80 w)) end.
    { rewrite elems_cons, !elems_one, zlen_app. reflexivity. }
    lia.
Qed.
(** A Nack whose reason is omitted, which the NDNLPv2 protocol allows, raises TypeError. *)
Theorem C21_omitted_reason_refuted : decodeLpPacket (tlv 100 (elems [(800, []); (80, [5; 2; 7; 0])])) = Err TypeError.
Proof. vm_compute. reflexivity. Qed.
(** A Nack with OTHER_CODE and the number of a recognized reason comes back as that reason. *)
Theorem C21_other_code_refuted : exists n p r, encodeLpNack [5; 0] n = Ok p /\ decodeLpPacket p = Ok r /\ nk_reason n = 32767 /\
  lp_firstNack (lp_fields r) <> Some n.
Proof. exists (Nack 32767 50). eexists. eexists. split; [vm_compute; reflexivity|]. split; [vm_compute; reflexivity|]. split; [reflexivity|discriminate]. Qed.
Example C21_example : Forall header_ok [HField (LpFaceId 77); HUnknown 804 [1; 2]; HField (LpNack (Nack 150 (-1))); HField (LpCongestion 1)] /\
  decodeLpPacket (lp_bytes [HField (LpFaceId 77); HUnknown 804 [1; 2]; HField (LpNack (Nack 150 (-1))); HField (LpCongestion 1)] (Some [5; 2; 7; 0]))
   = Ok (LP [LpFaceId 77; LpNack (Nack 150 (-1)); LpCongestion 1] (Some [5; 2; 7; 0])) /\
  decodeLpPacket (tlv 100 (elems [(81, [0]); (80, [5; 0])])) = Err ValueError.
Proof.
  split; [|split; vm_compute; reflexivity]. apply Forall_cons; [cbn; unfold u64; lia|]. apply Forall_cons; [|apply Forall_cons; [|apply Forall_cons; [cbn; unfold u64; lia|apply Forall_nil]]].
  - split; [unfold lp_ignorable; split; [lia|reflexivity]|unfold lp_known; lia].
  - left. cbn. auto.
Qed.

(** ** C23 EncryptedContent *)
Lemma opt_blob_els : forall t o out, 0 <= t -> e_writeOptionalBlobTlv t o out = elems (opt_el t (blob_opt o)) ++ out.
Proof.
  intros t [[|b v]|] out H; [reflexivity| |reflexivity]. unfold e_writeOptionalBlobTlv. replace (0 <? zlen (b :: v)) with true by zlia.
  rewrite e_blobTlv_tlv by lia. cbn [blob_opt opt_el]. rewrite elems_one. reflexivity.
Qed.
Lemma blob_none : forall t out, 0 <= t -> e_writeTypeAndLength t 0 out = tlv t [] ++ out.
Proof. intros t out H. apply (e_TL_tlv t [] out H). Qed.
Lemma blob_els : forall t o out, 0 <= t -> e_writeBlobTlv t o out = elems [(t, blob_bytes o)] ++ out.
Proof. intros t [v|] out H; rewrite elems_one; [apply e_blobTlv_tlv; lia|apply blob_none; lia]. Qed.
Theorem C23_round_trip_v1 : forall e a, kl_ok (ec_keyLocator e) -> ec_algorithm e = Some a -> u64 a -> zlen (ec_bytes e) < 2 ^ 64 ->
  encodeEncryptedContent e = Ok (ec_bytes e) /\
  decodeEncryptedContent (ec_bytes e) = Ok (EC (Some a) (kl_seen (ec_keyLocator e)) (blob_opt (ec_iv e)) (Some (blob_bytes (ec_payload e))) None).
Proof.
  intros e a K Ea U L. unfold ec_bytes in *. rewrite Ea in *. cbn [opt_nn app] in *. split.
  - unfold encodeEncryptedContent. rewrite Ea. rewrite blob_els by lia. rewrite opt_blob_els by lia. rewrite e_nnTlv_tlv by (unfold u64 in U; lia). cbn [rbind].
    rewrite enc_kl_ok by (assumption || lia). cbn [rbind]. f_equal. rewrite app_nil_r.
    set (b := elems [kl_el 28 (ec_keyLocator e)] ++ tlv 131 (nonneg a) ++ elems (opt_el 133 (blob_opt (ec_iv e))) ++ elems [(132, blob_bytes (ec_payload e))]).
    pose proof (e_TL_tlv 130 b [] ltac:(lia)) as Q. rewrite !app_nil_r in Q. rewrite Q. f_equal. unfold b.
    rewrite (elems_one' (kl_el 28 _)), (elems_cons' (kl_el 28 _)), (elems_cons 131), elems_app. reflexivity.
  - unfold decodeEncryptedContent, dec_ec. assert (A := At_top 130 _ ltac:(u64c) L).
    assert (Ty : types_ok (kl_el 28 (ec_keyLocator e) :: (131, nonneg a) :: opt_el 133 (blob_opt (ec_iv e)) ++ [(132, blob_bytes (ec_payload e))])).
    { apply Forall_cons; [u64c|]. apply Forall_cons; [u64c|]. apply types_app; [apply opt_el_types; u64c|apply types_one; u64c]. }
    destruct (At_enter _ _ _ _ _ _ A Ty) as [E A1]. rewrite (dbind_ok _ _ _ _ _ _ _ _ E). clear E.
    destruct (dec_kl_ok _ _ _ _ _ _ K A1) as [E A2]. rewrite (dbind_ok _ _ _ _ _ _ _ _ E). clear E.
    rewrite (dbind_ok _ _ _ _ _ _ _ _ (At_nnTlv _ _ _ _ _ _ U A2)). apply At_next in A2.
    destruct (At_optBlob _ _ _ 133 (blob_opt (ec_iv e)) _ A2) as [E A3]; [apply hdne_cons; lia|]. rewrite (dbind_ok _ _ _ _ _ _ _ _ E). clear E.
    rewrite (dbind_ok _ _ _ _ _ _ _ _ (At_blob _ _ _ _ _ _ A3)). apply At_next in A3.
    rewrite (dbind_ok _ _ _ _ _ _ _ _ (At_finish _ _ _ false A3)). reflexivity.
Qed.
Theorem C23_round_trip_v2 : forall e, (forall n, kl_name_opt (ec_keyLocator e) = Some n -> name_ok n) -> zlen (ec2_bytes e) < 2 ^ 64 ->
  encodeEncryptedContentV2 e = ec2_bytes e /\
  decodeEncryptedContentV2 (ec2_bytes e) = Ok (EC None (match kl_name_opt (ec_keyLocator e) with Some n => KL (Some 1) n None | None => kl_empty end)
     (blob_opt (ec_iv e)) (Some (blob_bytes (ec_payload e))) (blob_opt (ec_payloadKey e))).
Proof.
  intros e K L. unfold ec2_bytes in *. set (no := kl_name_opt (ec_keyLocator e)) in *. split.
  - unfold encodeEncryptedContentV2.
    assert (N : match kl_type (ec_keyLocator e) with Some t => if t =? 1 then fst (enc_name (kl_name (ec_keyLocator e)) []) else [] | None => [] end
      = elems (opt_el 7 (option_map (fun n => snd (name_el n)) no))).
    { unfold no, kl_name_opt in *. destruct (kl_type (ec_keyLocator e)) as [t|]; [|reflexivity]. destruct (t =? 1); [|reflexivity].
      rewrite enc_name_ok by (apply K; reflexivity). cbn [fst]. rewrite app_nil_r. reflexivity. }
    rewrite N. rewrite !opt_blob_els by lia. rewrite blob_els by lia.
    match goal with |- e_writeTypeAndLength 130 (zlen ?b) _ = _ => pose proof (e_TL_tlv 130 b [] ltac:(lia)) as Q end. rewrite !app_nil_r in Q. rewrite Q. f_equal.
    rewrite elems_one, (elems_cons 132), !elems_app. reflexivity.
  - unfold decodeEncryptedContentV2, dec_ec2. assert (A := At_top 130 _ ltac:(u64c) L).
    match type of A with At _ _ _ [(_, elems ?es)] => assert (Ty : types_ok es) by (apply Forall_cons; [u64c|]; repeat (apply types_app; [apply opt_el_types; u64c|]); apply opt_el_types; u64c) end.
    destruct (At_enter _ _ _ _ _ _ A Ty) as [E A1]. rewrite (dbind_ok _ _ _ _ _ _ _ _ E). clear E.
    rewrite (dbind_ok _ _ _ _ _ _ _ _ (At_blob _ _ _ _ _ _ A1)). apply At_next in A1.
    destruct (At_optBlob _ _ _ 133 (blob_opt (ec_iv e)) _ A1) as [E A2]; [apply hdne_opt_el; [lia|]; destruct no; cbn; [lia|exact I]|]. rewrite (dbind_ok _ _ _ _ _ _ _ _ E). clear E.
    destruct (At_optBlob _ _ _ 134 (blob_opt (ec_payloadKey e)) _ A2) as [E A3]; [destruct no; cbn; [lia|exact I]|]. rewrite (dbind_ok _ _ _ _ _ _ _ _ E). clear E.
    match type of A3 with At ?i ?o ?e0 _ => set (i0 := i) in *; set (o0 := o) in *; set (en := e0) in * end. clearbody o0. rewrite <- (app_nil_r (opt_el 7 _)) in A3.
    match goal with |- context [dbind (d_peekType 7 ?en) (fun isName => dbind (if _ then ?rd else dret ?ab) ?k) ?i ?o] =>
      destruct (At_opt_sub _ _ rd ab 7 _ (match no with Some n => KL (Some 1) n None | None => kl_empty end) k _ _ _ _ A3) as [Eq0 A4] end.
    { exact I. } { intros v Ev Av. destruct no as [n|]; [|discriminate]. cbn [option_map] in Ev. apply (f_equal (fun o => match o with Some v => v | None => [] end)) in Ev. cbn beta iota in Ev. subst v.
      destruct (dec_name_opt n _ _ _ _ (K n eq_refl) Av) as [y Ey]. rewrite (dbind_ok _ _ _ _ _ _ _ _ Ey). reflexivity. }
    { destruct no; [discriminate|reflexivity]. }
    rewrite Eq0. rewrite (dbind_ok _ _ _ _ _ _ _ _ (At_finish _ _ _ false A4)). reflexivity.
Qed.
(** Everything is kept when every field is meaningful. *)
Theorem C23_v1_all_fields : forall e a p, ec_algorithm e = Some a -> ec_payload e = Some p -> ec_payloadKey e = None -> kl_seen (ec_keyLocator e) = ec_keyLocator e ->
  ec_iv e <> Some [] -> EC (Some a) (kl_seen (ec_keyLocator e)) (blob_opt (ec_iv e)) (Some (blob_bytes (ec_payload e))) None = e.
Proof. intros [al k iv p pk] a p' E1 E2 E3 E4 E5. cbn in *. subst. rewrite E4. destruct iv as [[|]|]; [exfalso; apply E5; reflexivity|reflexivity|reflexivity]. Qed.
(** v1 drops the payload key, v2 the algorithm and a digest key locator; an empty initial
    vector becomes null in both. *)
Theorem C23_lost_fields_refuted : (exists e w r, ec_payloadKey e = Some [1] /\ encodeEncryptedContent e = Ok w /\ decodeEncryptedContent w = Ok r /\ ec_payloadKey r = None) /\
  (exists e r, ec_algorithm e = Some 1 /\ kl_type (ec_keyLocator e) = Some 2 /\ decodeEncryptedContentV2 (encodeEncryptedContentV2 e) = Ok r /\ ec_algorithm r = None /\ kl_type (ec_keyLocator r) = None) /\
  (exists e r, ec_iv e = Some [] /\ decodeEncryptedContentV2 (encodeEncryptedContentV2 e) = Ok r /\ ec_iv r = None).
Proof.
  split; [|split].
  - exists (EC (Some 1) kl_empty None (Some [5]) (Some [1])). eexists. eexists. split; [reflexivity|]. split; [vm_compute; reflexivity|]. split; [vm_compute; reflexivity|reflexivity].
  - exists (EC (Some 1) (KL (Some 2) [] (Some [7])) None (Some [5]) None). eexists. split; [reflexivity|]. split; [reflexivity|]. split; [vm_compute; reflexivity|]. split; reflexivity.
  - exists (EC None kl_empty (Some []) (Some [5]) None). eexists. split; [reflexivity|]. split; [vm_compute; reflexivity|reflexivity].
Qed.
Example C23_example : let e := EC (Some 1) (KL (Some 1) [c_generic [75]] None) (Some [1; 2]) (Some [3; 4; 5]) (Some [6]) in
  kl_ok (ec_keyLocator e) /\ (exists w, encodeEncryptedContent e = Ok w /\ decodeEncryptedContent w = Ok (EC (Some 1) (ec_keyLocator e) (Some [1; 2]) (Some [3; 4; 5]) None)) /\
  decodeEncryptedContentV2 (encodeEncryptedContentV2 e) = Ok (EC None (ec_keyLocator e) (Some [1; 2]) (Some [3; 4; 5]) (Some [6])).
Proof.
  split; [left; split; [reflexivity|apply Forall_cons; [apply gen_ok; reflexivity|apply Forall_nil]]|]. split; [eexists; split; [vm_compute; reflexivity|vm_compute; reflexivity]|vm_compute; reflexivity].
Qed.

(** ** C44 ValidityPeriod *)
(** The period set is the largest period of whole seconds inside the one given. *)
Theorem C44_rounding : forall nb na, let v := vp_setPeriod nb na in
  (exists k, vp_notBefore v = k * 1000) /\ (exists k, vp_notAfter v = k * 1000) /\
  nb <= vp_notBefore v < nb + 1000 /\ na - 1000 < vp_notAfter v <= na.
Proof.
  intros nb na. unfold vp_setPeriod, ceil1000, floor1000. cbn [vp_notBefore vp_notAfter].
  pose proof (Z.div_mod (- nb) 1000 ltac:(lia)). pose proof (Z.mod_pos_bound (- nb) 1000 ltac:(lia)).
  pose proof (Z.div_mod na 1000 ltac:(lia)). pose proof (Z.mod_pos_bound na 1000 ltac:(lia)).
  split; [eauto|]. split; [eauto|]. lia.
Qed.
(** A whole second is valid in the rounded period iff it lies in the period given. *)
Theorem C44_is_valid : forall nb na s, vp_isValid (vp_setPeriod nb na) (s * 1000) = true <-> nb <= s * 1000 <= na.
Proof.
  intros nb na s. destruct (C44_rounding nb na) as ((k & Ek) & (j & Ej) & B & A). unfold vp_isValid. cbv zeta in *. rewrite Ek, Ej in *. lia.
Qed.
Theorem C44_is_valid_any : forall v t, vp_isValid v t = true <-> vp_notBefore v <= t <= vp_notAfter v.
Proof. intros. unfold vp_isValid. lia. Qed.
(** The rounded period survives encoding. *)
Theorem C44_round_trip : forall nb na w, -30610224000 <= - ((- nb) / 1000) < 253402300800 -> -30610224000 <= na / 1000 < 253402300800 ->
  enc_validity (vp_setPeriod nb na) [] = Ok w -> zlen w < 2 ^ 64 -> dec_validity w 0 = Ok (vp_setPeriod nb na, zlen w).
Proof.
  intros nb na w B A E L. set (v := vp_setPeriod nb na) in *.
  assert (Hb : iso_time (vp_notBefore v)) by (exists (- ((- nb) / 1000)); split; [reflexivity|exact B]).
  assert (Ha : iso_time (vp_notAfter v)) by (exists (na / 1000); split; [reflexivity|exact A]).
  rewrite (enc_vp_ok v [] Hb Ha) in E. injection E as <-. rewrite app_nil_r in *.
  pose proof (vp_has v Hb) as Hp. unfold vp_els in L. rewrite Hp in L. rewrite elems_one in L.
  pose proof (At_top 253 _ ltac:(u64c) L) as At0.
  assert (Ev : elems (vp_els v) = tlv 253 (elems [(254, iso_str (vp_notBefore v)); (255, iso_str (vp_notAfter v))])) by (unfold vp_els; rewrite Hp, elems_one; reflexivity).
  rewrite Ev. assert (At1 : At (elems (vp_els v)) 0 (zlen (elems (vp_els v))) (vp_els v ++ [])) by (rewrite app_nil_r; rewrite Ev at 1 2; unfold vp_els; rewrite Hp; exact At0).
  pose proof (dec_vp_ok v _ 0 _ [] Hb Ha At1) as D. rewrite Ev in D. rewrite Z.add_0_l in D. exact D.
Qed.
Example C44_example : vp_setPeriod 1500 3999 = VP 2000 3000 /\ vp_isValid (vp_setPeriod 1500 3999) 2000 = true /\ vp_isValid (vp_setPeriod 1500 3999) 3999 = false.
Proof. vm_compute. auto. Qed.

Print Assumptions C20_parameters_round_trip.
Print Assumptions C20_unused_elements.
Print Assumptions C20_response_round_trip.
Print Assumptions C20_flags_bits.
Print Assumptions C46_never_equal.
Print Assumptions C46_equals_refuted.
Print Assumptions C21_decode.
Print Assumptions C21_reject_unknown.
Print Assumptions C21_nack_round_trip.
Print Assumptions C21_omitted_reason_refuted.
Print Assumptions C23_round_trip_v1.
Print Assumptions C23_round_trip_v2.
Print Assumptions C23_lost_fields_refuted.
Print Assumptions C44_rounding.
Print Assumptions C44_is_valid.
Print Assumptions C44_round_trip.
