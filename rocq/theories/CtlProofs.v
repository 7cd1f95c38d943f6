(** * Lemmas for C20, C21, C23 *)
From Verif Require Import Base BaseLemmas TlvModel TlvSpec TlvProofs TlvDecProofs NameModel NameSpec NameProofs UriModel CalModel CalProofs WireModel WireSpec WireProofs WireProofs2 WireProofs3 WireProofs4 WireProofs5 BlobModel BlobProps CtlModel CtlSpec.
From Coq Require Import ZifyBool.
Local Open Scope dec_scope.

Lemma zlen_opt_none : forall t off, off + zlen (elems (opt_el t None)) = off.
Proof. intros. cbn [opt_el]. rewrite elems_nil, zlen_nil. lia. Qed.
(** Reading an optional nested part. *)
Lemma At_opt_sub : forall A B (rd : dec A) absent t o (val : A) (k : A -> dec B) inp off end_ es,
  At inp off end_ (opt_el t o ++ es) -> hdne t es ->
  (forall v, o = Some v -> At inp off end_ ((t, v) :: es) -> rd inp off = Ok (val, off + zlen (tlv t v))) ->
  (o = None -> val = absent) ->
  (b <~ d_peekType t end_ ;; x <~ (if b : bool then rd else dret absent) ;; k x) inp off = k val inp (off + zlen (elems (opt_el t o))) /\
  At inp (off + zlen (elems (opt_el t o))) end_ es.
Proof.
  intros A B rd absent t o val k inp off end_ es H N HS HN. split; [|apply At_app; exact H].
  dstep (At_peek _ _ _ _ t H). destruct o as [v|]; cbn [opt_el app] in *.
  - rewrite Z.eqb_refl. dstep (HS v eq_refl H). rewrite elems_one. reflexivity.
  - rewrite hdne_peek by exact N. rewrite dbind_ret, (HN eq_refl). rewrite elems_nil, zlen_nil, Z.add_0_r. reflexivity.
Qed.
Lemma At_skipOpt : forall t o inp off end_ es, At inp off end_ (opt_el t o ++ es) -> hdne t es ->
  d_skipOptionalTlv t end_ inp off = Ok (tt, off + zlen (elems (opt_el t o))) /\ At inp (off + zlen (elems (opt_el t o))) end_ es.
Proof.
  intros t o inp off end_ es H N. split; [|apply At_app; exact H]. unfold d_skipOptionalTlv.
  dstep (At_peek _ _ _ _ t H). destruct o as [v|]; cbn [opt_el app] in *.
  - rewrite Z.eqb_refl. unfold d_skipTlv. dstep (At_readTL _ _ _ _ _ _ H). unfold d_skip. rewrite elems_one, tlv_len. f_equal. f_equal. lia.
  - rewrite hdne_peek by exact N. rewrite elems_nil, zlen_nil, Z.add_0_r. reflexivity.
Qed.
Ltac hd2 := repeat first [apply hdne_app_nn; [lia|] | apply hdne_opt_el; [lia|] | apply hdne_nn; lia | apply hdne_nil | apply hdne_cons; lia].

Lemma utf8_ok : forall s, text s -> blob_of_str s = Ok (Some (utf8 s)) /\ blob_to_str (Some (utf8 s)) = Ok s.
Proof.
  intros s H. unfold utf8. destruct (C45_text_round_trip s H) as (b & E & D). rewrite E. unfold blob_of_str in E.
  destruct (utf8_encode s) as [v|]; [|discriminate]. injection E as <-. split; [reflexivity|exact D].
Qed.

(** ** ControlParameters *)
Lemma flags_ok : forall r, ro_setFlags (ro_getFlags r) = r.
Proof. intros [[|] [|]]; reflexivity. Qed.
Lemma cp_els_types : forall c x, types_ok (cp_els c x).
Proof.
  intros c x. unfold cp_els. repeat (apply types_app; [first [apply opt_nn_types; u64c | apply opt_el_types; u64c]|]). apply opt_nn_types. u64c.
Qed.
Lemma cp_els_plain : forall c, cp_els c no_extra =
  opt_el 7 (option_map (fun n => snd (name_el n)) (cp_name c)) ++ opt_nn 105 (cp_faceId c) ++
  opt_el 114 (match cp_uri c with [] => None | u => Some (utf8 u) end) ++
  opt_nn 110 (cp_localControlFeature c) ++ opt_nn 111 (cp_origin c) ++ opt_nn 106 (cp_cost c) ++ opt_nn 108 (cp_flagbits c) ++
  opt_el 107 (match cp_strategy c with [] => None | s => Some (elems [name_el s]) end) ++ opt_nn 109 (cp_expiration c).
Proof. reflexivity. Qed.
Lemma enc_cp_ok : forall c out, cp_ok c -> enc_cp c out = Ok (elems [cp_el c no_extra] ++ out).
Proof.
  intros c out (Hn & Hf & Hu & Hl & Ho & Hc & Hs & He). unfold enc_cp.
  unfold e_writeOptionalNonNegativeIntegerTlvFromFloat. rewrite enc_optnn by (lia || apply float_u64, He). cbn [rbind].
  assert (S : forall o, (if 0 <? zlen (cp_strategy c) then let o1 := fst (enc_name (cp_strategy c) o) in e_writeTypeAndLength 107 (zlen o1 - zlen o) o1 else o)
    = elems (opt_el 107 (match cp_strategy c with [] => None | s => Some (elems [name_el s]) end)) ++ o).
  { intros o. destruct (cp_strategy c) as [|a s] eqn:Es; [reflexivity|]. replace (0 <? zlen (a :: s)) with true by zlia.
    rewrite enc_name_ok by exact Hs. cbn [fst]. cbv zeta. cbn [opt_el]. rewrite elems_one. apply e_TL_tlv'; [lia|reflexivity]. }
  rewrite S. clear S.
  assert (F : forall o, (if negb (ro_getFlags (cp_flags c) =? ro_getFlags ro_default) then e_writeNonNegativeIntegerTlv 108 (ro_getFlags (cp_flags c)) o else Ok o)
    = Ok (elems (opt_nn 108 (cp_flagbits c)) ++ o)).
  { intros o. unfold cp_flagbits. destruct (cp_flags c) as [[|] [|]]; cbn [ro_childInherit ro_capture opt_nn]; try reflexivity;
      change (negb _) with true; cbv iota; (rewrite e_nnTlv_tlv; [rewrite elems_one; reflexivity|lia|cbv; discriminate]). }
  rewrite F. cbn [rbind]. clear F. rewrite !enc_optnn by (assumption || lia). cbn [rbind].
  rewrite !enc_optnn by (assumption || lia). cbn [rbind]. rewrite !enc_optnn by (assumption || lia). cbn [rbind].
  assert (U : forall o, (if negb (zlen (cp_uri c) =? 0) then (b <-- blob_of_str (cp_uri c) ;; Ok (e_writeBlobTlv 114 b o))%res else Ok o)
    = Ok (elems (opt_el 114 (match cp_uri c with [] => None | u => Some (utf8 u) end)) ++ o)).
  { intros o. destruct (cp_uri c) as [|a u] eqn:Eu; [reflexivity|]. replace (zlen (a :: u) =? 0) with false by zlia. cbn [negb].
    destruct (utf8_ok _ Hu) as [-> _]. cbn [rbind opt_el]. rewrite e_blobTlv_tlv by lia. rewrite elems_one. reflexivity. }
  rewrite U. cbn [rbind]. clear U. rewrite enc_optnn by (assumption || lia). cbn [rbind].
  assert (N : forall o, match cp_name c with Some n => fst (enc_name n o) | None => o end = elems (opt_el 7 (option_map (fun n => snd (name_el n)) (cp_name c))) ++ o).
  { intros o. destruct (cp_name c) as [n|]; [|reflexivity]. rewrite enc_name_ok by exact Hn. reflexivity. }
  rewrite N. clear N. f_equal. unfold cp_el. rewrite elems_one, cp_els_plain.
  rewrite !elems_app.
  rewrite <- (e_TL_tlv' 104 _ out _ ltac:(lia) eq_refl). rewrite <- !app_assoc. reflexivity.
Qed.
Lemma dec_name_opt : forall n inp off end_ es, name_ok n -> At inp off end_ ((7, snd (name_el n)) :: es) ->
  exists x, dec_name inp off = Ok ((n, x), off + zlen (tlv 7 (snd (name_el n)))).
Proof.
  intros n inp off end_ es H A. destruct (dec_name_ok n inp off end_ es H A) as [E _]. rewrite elems_one' in E. eexists. exact E.
Qed.
Lemma dec_cp_ok : forall c x inp off end_ es, cp_ok c -> At inp off end_ (cp_el c x :: es) ->
  dec_cp inp off = Ok (c, off + zlen (elems [cp_el c x])) /\ At inp (off + zlen (elems [cp_el c x])) end_ es.
Proof.
  intros c x inp off end_ es (Hn & Hf & Hu & Hl & Ho & Hc & Hs & He) A. split; [|apply At_after; exact A].
  unfold dec_cp. unfold cp_el in A. destruct (At_enter _ _ _ _ _ _ A (cp_els_types c x)) as [E A1]. dstep E. clear E A.
  rewrite elems_one'. unfold cp_el. cbn [fst snd]. set (en := off + zlen (tlv 104 (elems (cp_els c x)))) in *. unfold cp_els in A1 at 2.
  match goal with |- dbind (d_peekType 7 en) (fun isName => dbind (if _ then ?rd else dret ?ab) ?k) _ _ = _ =>
    destruct (At_opt_sub _ _ rd ab 7 _ (cp_name c) k _ _ _ _ A1) as [Eq0 A2]; [| | |refine (eq_trans Eq0 _); clear Eq0] end.
  { hd2. } { intros v Ev Av. destruct (cp_name c) as [n|]; [|discriminate]. cbn [option_map] in Ev. apply (f_equal (fun o => match o with Some v => v | None => [] end)) in Ev. cbn beta iota in Ev. subst v.
    destruct (dec_name_opt n _ _ _ _ Hn Av) as [y Ey]. dstep Ey. reflexivity. }
  { destruct (cp_name c); [discriminate|reflexivity]. } clear A1.
  destruct (At_optNN _ _ _ _ _ _ A2) as [E A3]; [hd2|exact Hf|]. dstep E. clear E A2.
  match goal with |- dbind (d_peekType 114 en) (fun isName => dbind (if _ then ?rd else dret ?ab) ?k) _ _ = _ =>
    destruct (At_opt_sub _ _ rd ab 114 _ (cp_uri c) k _ _ _ _ A3) as [Eq0 A4]; [| | |refine (eq_trans Eq0 _); clear Eq0] end.
  { hd2. } { intros v Ev Av. destruct (cp_uri c) as [|a u] eqn:Eu; [discriminate|]. injection Ev as <-.
    match type of Av with At _ _ _ (?e :: ?r) => change (e :: r) with (opt_el 114 (Some (utf8 (a :: u))) ++ r) in Av end.
    destruct (At_optBlob _ _ _ 114 (Some (utf8 (a :: u))) _ Av) as [Eb _]; [hd2|]. dstep Eb. unfold dlift. destruct (utf8_ok _ Hu) as [_ ->]. cbn [optel]. rewrite elems_one. reflexivity. }
  { destruct (cp_uri c); [reflexivity|discriminate]. } clear A3.
  destruct (At_skipOpt _ _ _ _ _ _ A4) as [E A5]; [hd2|]. dstep E. clear E A4.
  destruct (At_optNN _ _ _ _ _ _ A5) as [E A6]; [hd2|exact Hl|]. dstep E. clear E A5.
  destruct (At_optNN _ _ _ _ _ _ A6) as [E A7]; [hd2|exact Ho|]. dstep E. clear E A6.
  destruct (At_optNN _ _ _ _ _ _ A7) as [E A8]; [hd2|exact Hc|]. dstep E. clear E A7.
  destruct (At_skipOpt _ _ _ _ _ _ A8) as [E A9]; [hd2|]. dstep E. clear E A8.
  destruct (At_skipOpt _ _ _ _ _ _ A9) as [E A10]; [hd2|]. dstep E. clear E A9.
  destruct (At_skipOpt _ _ _ _ _ _ A10) as [E A11]; [hd2|]. dstep E. clear E A10.
  destruct (At_skipOpt _ _ _ _ _ _ A11) as [E A12]; [hd2|]. dstep E. clear E A11.
  destruct (At_skipOpt _ _ _ _ _ _ A12) as [E A13]; [hd2|]. dstep E. clear E A12.
  assert (On : forall t o, opt_nn t o = opt_el t (option_map nonneg o)) by (intros t [n|]; reflexivity). rewrite (On 108) in A13. clear On.
  match goal with |- dbind (d_peekType 108 en) (fun isName => dbind (if _ then ?rd else dret ?ab) ?k) _ _ = _ =>
    destruct (At_opt_sub _ _ rd ab 108 _ (cp_flags c) k _ _ _ _ A13) as [Eq0 A14]; [| | |refine (eq_trans Eq0 _); clear Eq0] end.
  { hd2. } { intros v Ev Av. unfold cp_flagbits in Ev. destruct (cp_flags c) as [[|] [|]]; cbn [ro_childInherit ro_capture option_map] in Ev; try discriminate; injection Ev as <-;
      [dstep (At_nnTlv _ _ _ _ _ _ (ltac:(u64c) : u64 3) Av)|dstep (At_nnTlv _ _ _ _ _ _ (ltac:(u64c) : u64 2) Av)|dstep (At_nnTlv _ _ _ _ _ _ (ltac:(u64c) : u64 0) Av)]; reflexivity. }
  { unfold cp_flagbits. destruct (cp_flags c) as [[|] [|]]; cbn; try discriminate. reflexivity. } clear A13.
  destruct (At_skipOpt _ _ _ _ _ _ A14) as [E A15]; [hd2|]. dstep E. clear E A14.
  match goal with |- dbind (d_peekType 107 en) (fun isName => dbind (if _ then ?rd else dret ?ab) ?k) _ _ = _ =>
    destruct (At_opt_sub _ _ rd ab 107 _ (cp_strategy c) k _ _ _ _ A15) as [Eq0 A16]; [| | |refine (eq_trans Eq0 _); clear Eq0] end.
  { hd2. } { intros v Ev Av. destruct (cp_strategy c) as [|a s] eqn:Es; [discriminate|].
    apply (f_equal (fun o => match o with Some v => v | None => [] end)) in Ev. cbn beta iota in Ev. subst v.
    destruct (At_enter _ _ _ _ _ _ Av (types_one 7 _ (ltac:(u64c) : u64 7))) as [E Ai]. dstep E.
    destruct (dec_name_ok _ _ _ _ _ Hs Ai) as [En Aj]. dstep En. dstep (At_finish _ _ _ false Aj). reflexivity. }
  { destruct (cp_strategy c); [reflexivity|discriminate]. } clear A15.
  rewrite <- (app_nil_r (opt_nn 109 _)) in A16.
  destruct (At_optNN _ _ _ _ _ _ A16) as [E A17]; [hd2|apply float_u64, He|]. dstep E. clear E A16.
  dstep (At_finish _ _ _ false A17). destruct c. reflexivity.
Qed.

(** ** LpPacket *)
Lemma header_types : forall hs f, Forall header_ok hs -> types_ok (map header_el hs ++ opt_el 80 f).
Proof.
  intros hs f H. apply types_app; [|apply opt_el_types; u64c]. apply Forall_map. eapply Forall_impl; [|exact H].
  intros [[n|v|v]|t v] Hh; cbn; try u64c. cbn in Hh. unfold lp_ignorable in Hh. unfold u64. lia.
Qed.
Lemma nack_of_ok : forall n, nack_ok n -> u64 (nack_code n) /\ nack_of_code (Some (nack_code n)) = Ok n.
Proof.
  intros [r o] H. unfold nack_ok, nack_code, nack_of_code, u64 in *. cbn [nk_reason nk_other] in *.
  destruct H as [([->|[->|[->| ->]]] & ->)|(-> & U & N1 & N2 & N3 & N4)]; cbn [Z.eqb Pos.eqb]; try (split; [lia|reflexivity]).
  split; [exact U|]. replace (o <? 0) with false by lia. replace (o =? 0) with false by lia. replace (o =? 50) with false by lia.
  replace (o =? 100) with false by lia. replace (o =? 150) with false by lia. reflexivity.
Qed.
Lemma land3 : forall t, Z.land t 3 = t mod 4.
Proof. intros. change 3 with (Z.ones 2). rewrite Z.land_ones by lia. reflexivity. Qed.
Lemma canIgnore_iff : forall t, lp_canIgnore t = true <-> lp_ignorable t.
Proof. intros. unfold lp_canIgnore, lp_ignorable. rewrite land3. lia. Qed.
Lemma At_nn_here : forall inp off end_ t n es, u64 n -> At inp off end_ ((t, nonneg n) :: es) ->
  d_readNonNegativeInteger (zlen (nonneg n)) inp (off + hdr t (nonneg n)) = Ok (n, off + zlen (tlv t (nonneg n))).
Proof.
  intros inp off end_ t n es U A. pose proof A as A0. pose proof (At_nnTlv _ _ _ _ _ _ U A) as R. unfold d_readNonNegativeIntegerTlv in R.
  rewrite (dbind_ok _ _ _ _ _ _ _ _ (At_readTL _ _ _ _ _ _ A)) in R. cbn beta in R. exact R.
Qed.
Lemma At_len_ok : forall inp off end_ t v es, At inp off end_ ((t, v) :: es) -> (zlen inp <? off + hdr t v + zlen v) = false.
Proof.
  intros inp off end_ t v es A. apply At_next in A. pose proof (At_bound _ _ _ _ A). pose proof (At_le _ _ _ _ A). rewrite tlv_len in *. lia.
Qed.
Lemma dec_lp_loop_ok : forall hs fuel inp off end_ acc frag, Forall header_ok hs ->
  At inp off end_ (map header_el hs ++ opt_el 80 frag) -> (length hs < fuel)%nat ->
  dec_lp_loop fuel end_ acc inp off = Ok (LP (rev acc ++ flat_map header_field hs) frag, end_).
Proof.
  induction hs as [|h hs IH]; intros fuel inp off end_ acc frag H A F.
  - cbn [map app flat_map] in *. rewrite app_nil_r. destruct fuel as [|fuel]; [lia|]. cbn [dec_lp_loop].
    dstep (eq_refl : d_getOffset inp off = Ok (off, off)). destruct frag as [v|]; cbn [opt_el] in A.
    + replace (off <? end_) with true by (apply At_pos in A; lia). dstep (At_readVar _ _ _ _ _ _ A). dstep (At_readVar2 _ _ _ _ _ _ A).
      dstep (eq_refl : d_getOffset inp (off + hdr 80 v) = Ok (_, _)). dstep (eq_refl : d_inputLength inp (off + hdr 80 v) = Ok (_, _)).
      rewrite (At_len_ok _ _ _ _ _ _ A). cbn [Z.eqb Pos.eqb].
      assert (S : d_getSlice (off + hdr 80 v) (off + hdr 80 v + zlen v) inp (off + hdr 80 v) = Ok (v, off + hdr 80 v)).
      { unfold d_getSlice. f_equal. f_equal. destruct A as (_ & pre & post & -> & -> & _). rewrite elems_one. unfold tlv, hdr.
        rewrite <- !app_assoc, (app_assoc pre), (app_assoc (pre ++ _)). apply zslice_app'; zlia. }
      dstep S. apply At_next, At_nil in A. rewrite tlv_len in A. unfold d_seek, dbind, dret. f_equal. f_equal. lia.
    + apply At_nil in A. subst. rewrite Z.ltb_irrefl. reflexivity.
  - destruct fuel as [|fuel]; [lia|]. pose proof (Forall_inv H) as Hh. apply Forall_inv_tail in H. cbn [map app] in A. cbn [length] in F. cbn [dec_lp_loop flat_map].
    dstep (eq_refl : d_getOffset inp off = Ok (off, off)). replace (off <? end_) with true by (apply At_pos in A; lia).
    assert (Fin : forall t v acc', header_el h = (t, v) -> rev acc' = rev acc ++ header_field h -> 
      dec_lp_loop fuel end_ acc' inp (off + zlen (tlv t v)) = Ok (LP (rev acc ++ header_field h ++ flat_map header_field hs) frag, end_)).
    { intros t v acc' E R. rewrite E in A. apply At_next in A. rewrite (IH fuel inp _ end_ acc' frag H A ltac:(lia)). rewrite R, app_assoc. reflexivity. }
    assert (Step : forall t v, header_el h = (t, v) -> (t =? 80) = false ->
      (d_readVarNumber inp off = Ok (t, off + zlen (varnum t)) /\ d_readVarNumber inp (off + zlen (varnum t)) = Ok (zlen v, off + hdr t v)) /\
      (zlen inp <? off + hdr t v + zlen v) = false /\ off + hdr t v + zlen v = off + zlen (tlv t v)).
    { intros t v E N. rewrite E in A. split; [split; [exact (At_readVar _ _ _ _ _ _ A)|exact (At_readVar2 _ _ _ _ _ _ A)]|]. split; [exact (At_len_ok _ _ _ _ _ _ A)|rewrite tlv_len; lia]. }
    destruct h as [[n|v|v]|t v]; cbn [header_el] in A.
    + destruct (Step _ _ eq_refl eq_refl) as ([S1 S2] & S3 & S4). dstep S1. dstep S2.
      dstep (eq_refl : d_getOffset inp (off + hdr 800 (elems [(801, nonneg (nack_code n))])) = Ok (_, _)).
      dstep (eq_refl : d_inputLength inp (off + hdr 800 (elems [(801, nonneg (nack_code n))])) = Ok (_, _)).
      rewrite S3, S4. cbn [Z.eqb Pos.eqb]. destruct (nack_of_ok n Hh) as [U E].
      destruct (At_enter _ _ _ _ _ _ A (types_one 801 _ (ltac:(u64c) : u64 801))) as [_ Ai].
      destruct (At_optNN _ _ _ 801 (Some (nack_code n)) [] Ai I U) as [Ec Aj]. dstep' Ec. rewrite dbind_assoc.
      match goal with |- dbind (dlift ?m) _ _ ?o = _ => assert (El : dlift m inp o = Ok (n, o)) by (rewrite E; reflexivity) end.
      dstep El. rewrite dbind_ret. dstep (At_finish _ _ _ false Aj). apply (Fin _ _ _ eq_refl). reflexivity.
    + destruct (Step _ _ eq_refl eq_refl) as ([S1 S2] & S3 & S4). dstep S1. dstep S2.
      dstep (eq_refl : d_getOffset inp (off + hdr 817 (nonneg v)) = Ok (_, _)). dstep (eq_refl : d_inputLength inp (off + hdr 817 (nonneg v)) = Ok (_, _)).
      rewrite S3, S4. cbn [Z.eqb Pos.eqb]. dstep' (At_nn_here _ _ _ _ _ _ Hh A). rewrite dbind_ret. dstep (finish_at_end (off + zlen (tlv 817 (nonneg v))) false inp).
      apply (Fin _ _ _ eq_refl). reflexivity.
    + destruct (Step _ _ eq_refl eq_refl) as ([S1 S2] & S3 & S4). dstep S1. dstep S2.
      dstep (eq_refl : d_getOffset inp (off + hdr 832 (nonneg v)) = Ok (_, _)). dstep (eq_refl : d_inputLength inp (off + hdr 832 (nonneg v)) = Ok (_, _)).
      rewrite S3, S4. cbn [Z.eqb Pos.eqb]. dstep' (At_nn_here _ _ _ _ _ _ Hh A). rewrite dbind_ret. dstep (finish_at_end (off + zlen (tlv 832 (nonneg v))) false inp).
      apply (Fin _ _ _ eq_refl). reflexivity.
    + destruct Hh as [Hi Hk]. unfold lp_known in Hk. destruct (Step _ _ eq_refl ltac:(lia)) as ([S1 S2] & S3 & S4). dstep S1. dstep S2.
      dstep (eq_refl : d_getOffset inp (off + hdr t v) = Ok (_, _)). dstep (eq_refl : d_inputLength inp (off + hdr t v) = Ok (_, _)).
      rewrite S3, S4. replace (t =? 80) with false by lia. replace (t =? 800) with false by lia. replace (t =? 817) with false by lia. replace (t =? 832) with false by lia.
      apply canIgnore_iff in Hi. rewrite Hi. dstep' (eq_refl : d_seek (off + zlen (tlv t v)) inp (off + hdr t v) = Ok (tt, _)). rewrite dbind_ret.
      dstep (finish_at_end (off + zlen (tlv t v)) false inp). apply (Fin _ _ _ eq_refl). cbn [header_field]. symmetry. apply app_nil_r.
Qed.
(** An element of another type after well-formed fields: ValueError. *)
Lemma dec_lp_loop_bad : forall hs fuel inp off end_ acc t v es, Forall header_ok hs ->
  At inp off end_ (map header_el hs ++ (t, v) :: es) -> ~ lp_known t -> ~ lp_ignorable t -> (length hs < fuel)%nat ->
  dec_lp_loop fuel end_ acc inp off = Err ValueError.
Proof.
  induction hs as [|h hs IH]; intros fuel inp off end_ acc t v es H A K G F.
  - destruct fuel as [|fuel]; [lia|]. cbn [map app] in A. cbn [dec_lp_loop]. unfold lp_known in K.
    dstep (eq_refl : d_getOffset inp off = Ok (off, off)). replace (off <? end_) with true by (apply At_pos in A; lia).
    dstep (At_readVar _ _ _ _ _ _ A). dstep (At_readVar2 _ _ _ _ _ _ A).
    dstep (eq_refl : d_getOffset inp (off + hdr t v) = Ok (_, _)). dstep (eq_refl : d_inputLength inp (off + hdr t v) = Ok (_, _)).
    rewrite (At_len_ok _ _ _ _ _ _ A). replace (t =? 80) with false by lia. replace (t =? 800) with false by lia. replace (t =? 817) with false by lia. replace (t =? 832) with false by lia.
    replace (lp_canIgnore t) with false by (pose proof (canIgnore_iff t); destruct (lp_canIgnore t); tauto). reflexivity.
  - destruct fuel as [|fuel]; [lia|]. pose proof (Forall_inv H) as Hh. apply Forall_inv_tail in H. cbn [map app] in A. cbn [length] in F. cbn [dec_lp_loop].
    dstep (eq_refl : d_getOffset inp off = Ok (off, off)). replace (off <? end_) with true by (apply At_pos in A; lia).
    assert (Fin : forall t' v' acc', header_el h = (t', v') -> dec_lp_loop fuel end_ acc' inp (off + zlen (tlv t' v')) = Err ValueError).
    { intros t' v' acc' E. rewrite E in A. apply At_next in A. exact (IH fuel inp _ end_ acc' t v es H A K G ltac:(lia)). }
    assert (Step : forall t v, header_el h = (t, v) -> (t =? 80) = false ->
      (d_readVarNumber inp off = Ok (t, off + zlen (varnum t)) /\ d_readVarNumber inp (off + zlen (varnum t)) = Ok (zlen v, off + hdr t v)) /\
      (zlen inp <? off + hdr t v + zlen v) = false /\ off + hdr t v + zlen v = off + zlen (tlv t v)).
    { intros t' v' E N. rewrite E in A. split; [split; [exact (At_readVar _ _ _ _ _ _ A)|exact (At_readVar2 _ _ _ _ _ _ A)]|]. split; [exact (At_len_ok _ _ _ _ _ _ A)|rewrite tlv_len; lia]. }
    destruct h as [[n|w|w]|t' w]; cbn [header_el] in A.
    + destruct (Step _ _ eq_refl eq_refl) as ([S1 S2] & S3 & S4). dstep S1. dstep S2.
      dstep (eq_refl : d_getOffset inp (off + hdr 800 (elems [(801, nonneg (nack_code n))])) = Ok (_, _)).
      dstep (eq_refl : d_inputLength inp (off + hdr 800 (elems [(801, nonneg (nack_code n))])) = Ok (_, _)).
      rewrite S3, S4. cbn [Z.eqb Pos.eqb]. destruct (nack_of_ok n Hh) as [U E].
      destruct (At_enter _ _ _ _ _ _ A (types_one 801 _ (ltac:(u64c) : u64 801))) as [_ Ai].
      destruct (At_optNN _ _ _ 801 (Some (nack_code n)) [] Ai I U) as [Ec Aj]. dstep' Ec. rewrite dbind_assoc.
      match goal with |- dbind (dlift ?m) _ _ ?o = _ => assert (El : dlift m inp o = Ok (n, o)) by (rewrite E; reflexivity) end.
      dstep El. rewrite dbind_ret. dstep (At_finish _ _ _ false Aj). apply (Fin _ _ _ eq_refl).
    + destruct (Step _ _ eq_refl eq_refl) as ([S1 S2] & S3 & S4). dstep S1. dstep S2.
      dstep (eq_refl : d_getOffset inp (off + hdr 817 (nonneg w)) = Ok (_, _)). dstep (eq_refl : d_inputLength inp (off + hdr 817 (nonneg w)) = Ok (_, _)).
      rewrite S3, S4. cbn [Z.eqb Pos.eqb]. dstep' (At_nn_here _ _ _ _ _ _ Hh A). rewrite dbind_ret. dstep (finish_at_end (off + zlen (tlv 817 (nonneg w))) false inp).
      apply (Fin _ _ _ eq_refl).
    + destruct (Step _ _ eq_refl eq_refl) as ([S1 S2] & S3 & S4). dstep S1. dstep S2.
      dstep (eq_refl : d_getOffset inp (off + hdr 832 (nonneg w)) = Ok (_, _)). dstep (eq_refl : d_inputLength inp (off + hdr 832 (nonneg w)) = Ok (_, _)).
      rewrite S3, S4. cbn [Z.eqb Pos.eqb]. dstep' (At_nn_here _ _ _ _ _ _ Hh A). rewrite dbind_ret. dstep (finish_at_end (off + zlen (tlv 832 (nonneg w))) false inp).
      apply (Fin _ _ _ eq_refl).
    + destruct Hh as [Hi Hk]. unfold lp_known in Hk. destruct (Step _ _ eq_refl ltac:(lia)) as ([S1 S2] & S3 & S4). dstep S1. dstep S2.
      dstep (eq_refl : d_getOffset inp (off + hdr t' w) = Ok (_, _)). dstep (eq_refl : d_inputLength inp (off + hdr t' w) = Ok (_, _)).
      rewrite S3, S4. replace (t' =? 80) with false by lia. replace (t' =? 800) with false by lia. replace (t' =? 817) with false by lia. replace (t' =? 832) with false by lia.
      apply canIgnore_iff in Hi. rewrite Hi. dstep' (eq_refl : d_seek (off + zlen (tlv t' w)) inp (off + hdr t' w) = Ok (tt, _)). rewrite dbind_ret.
      dstep (finish_at_end (off + zlen (tlv t' w)) false inp). apply (Fin _ _ _ eq_refl).
Qed.
