(** * Lemmas: Selectors, Interest, Data. *)
From Verif Require Import Base BaseLemmas TlvModel TlvSpec TlvProofs TlvDecProofs NameModel NameSpec NameProofs UriModel CalModel CalProofs WireModel WireSpec WireProofs WireProofs2 WireProofs3.
From Coq Require Import ZifyBool.
Local Open Scope dec_scope.

(** ** Selectors *)
Definition kl_els (k : keyLocator) : list el := match kl_type k with None => [] | Some _ => [kl_el 15 k] end.
Definition body_ex (i : interest) : list el := exclude_els (i_exclude i) ++ opt_nn 17 (i_child i) ++ flag_el 18 (i_mustBeFresh i).
Lemma elems_length_0 : forall es, zlen (elems es) = 0 -> es = [].
Proof. intros [|[t v] es] H; [reflexivity|]. rewrite elems_cons in H. pose proof (tlv_len_ge t v). zlia. Qed.
Lemma enc_selectors_ok : forall i out, interest_ok i -> enc_selectors i out = Ok (elems (sel_els i) ++ out).
Proof.
  intros i out (_ & Umin & Umax & Kl & Ex & Uch & _). unfold enc_selectors. cbn zeta.
  replace (if i_mustBeFresh i then e_writeTypeAndLength 18 0 out else out) with (elems (flag_el 18 (i_mustBeFresh i)) ++ out).
  2:{ destruct (i_mustBeFresh i); cbn [flag_el]; [|reflexivity]. rewrite elems_one. symmetry. apply (e_TL_tlv 18 [] out). lia. }
  rewrite enc_optnn by (lia || assumption). cbn [rbind].
  set (o1 := elems (opt_nn 17 (i_child i)) ++ elems (flag_el 18 (i_mustBeFresh i)) ++ out).
  replace (if 0 <? zlen (i_exclude i) then enc_exclude (i_exclude i) o1 else o1) with (elems (exclude_els (i_exclude i)) ++ o1).
  2:{ destruct (i_exclude i) as [|e ex] eqn:Ee; [reflexivity|]. replace (0 <? zlen (e :: ex)) with true by zlia.
      symmetry. apply enc_exclude_ok. assumption. }
  set (o2 := elems (exclude_els (i_exclude i)) ++ o1).
  assert (E : match kl_type (i_keyLocator i) with Some _ => enc_keyLocator 15 (i_keyLocator i) o2 | None => Ok o2 end = Ok (elems (kl_els (i_keyLocator i)) ++ o2)).
  { unfold kl_els. destruct (kl_type (i_keyLocator i)) eqn:Et; [|reflexivity]. apply enc_kl_ok; [lia|assumption]. }
  refine (eq_trans (f_equal (fun r => rbind r _) E) _). cbn [rbind]. rewrite enc_optnn by (lia || assumption). cbn [rbind]. rewrite enc_optnn by (lia || assumption). cbn [rbind].
  assert (B : elems (opt_nn 13 (i_min i)) ++ elems (opt_nn 14 (i_max i)) ++ elems (kl_els (i_keyLocator i)) ++ o2 = elems (sel_body i) ++ out).
  { unfold o2, o1, sel_body, kl_els. rewrite !elems_app, <- !app_assoc. reflexivity. }
  rewrite B. unfold sel_els. destruct (sel_body i) as [|e es] eqn:Es.
  - rewrite elems_nil, app_nil_l, Z.eqb_refl. reflexivity.
  - replace (zlen (elems (e :: es) ++ out) =? zlen out) with false.
    2:{ symmetry. apply Z.eqb_neq. intros K. rewrite zlen_app in K. assert (zlen (elems (e :: es)) = 0) by lia.
        apply elems_length_0 in H. discriminate. }
    cbn [negb]. f_equal. rewrite elems_one. apply e_TL_tlv'; [lia|reflexivity].
Qed.

Lemma kl_els_types : forall k, types_ok (kl_els k).
Proof. intros k. unfold kl_els. destruct (kl_type k); [apply types_one; u64c|apply Forall_nil]. Qed.
Lemma exclude_types : forall ex, types_ok (exclude_els ex).
Proof. intros [|e ex]; [apply Forall_nil|apply types_one; u64c]. Qed.
Lemma sel_body_eq : forall i, sel_body i = opt_nn 13 (i_min i) ++ opt_nn 14 (i_max i) ++ kl_els (i_keyLocator i) ++ exclude_els (i_exclude i) ++
  opt_nn 17 (i_child i) ++ flag_el 18 (i_mustBeFresh i).
Proof. reflexivity. Qed.
Lemma sel_body_types : forall i, types_ok (sel_body i).
Proof.
  intros i. rewrite sel_body_eq. apply types_app; [apply opt_nn_types; u64c|]. apply types_app; [apply opt_nn_types; u64c|].
  apply types_app; [apply kl_els_types|]. apply types_app; [apply exclude_types|]. apply types_app; [apply opt_nn_types; u64c|].
  apply flag_types; u64c.
Qed.
Lemma hdne_kl : forall t k es, t <> 15 -> hdne t es -> hdne t (kl_els k ++ es).
Proof. intros t k es H H'. unfold kl_els. destruct (kl_type k); cbn; auto. Qed.
Lemma hdne_ex : forall t ex es, t <> 16 -> hdne t es -> hdne t (exclude_els ex ++ es).
Proof. intros t [|e ex] es H H'; cbn; auto. Qed.
Lemma hdne_flag : forall t t' b, t' <> t -> hdne t (flag_el t' b).
Proof. intros t t' [|] H; cbn; auto. Qed.
Lemma hdne_nn : forall t t' o, t' <> t -> hdne t (opt_nn t' o).
Proof. intros t t' [|] H; cbn; auto. Qed.
Ltac hd := repeat first [apply hdne_app_nn; [lia|] | apply hdne_app_flag; [lia|] | apply hdne_kl; [lia|] | apply hdne_ex; [lia|]
  | apply hdne_flag; lia | apply hdne_nn; lia | apply hdne_nil | apply hdne_cons; lia].
Lemma peek_eq : forall (es : list el) t, match es with [] => false | (t', _) :: _ => t' =? t end = true -> exists v es', es = (t, v) :: es'.
Proof. intros [|[t' v] es] t H; [discriminate|]. apply Z.eqb_eq in H. subst. eauto. Qed.

Lemma hdne_peek : forall t es, hdne t es -> match es with [] => false | (t', _) :: _ => t' =? t end = false.
Proof. intros t [|[t' v] es] H; cbn in *; [reflexivity|]. lia. Qed.

Lemma dec_sel_ok : forall i inp off end_ es, interest_ok i -> At inp off end_ ((9, elems (sel_body i)) :: es) ->
  dec_selectors inp off = Ok ((i_min i, i_max i, kl_seen (i_keyLocator i), i_exclude i, i_child i, i_mustBeFresh i), off + zlen (tlv 9 (elems (sel_body i)))).
Proof.
  intros i inp off end_ es (_ & Umin & Umax & Kl & Ex & Uch & _) A. unfold dec_selectors.
  destruct (At_enter _ _ _ _ _ _ A (sel_body_types i)) as [E A1]. dstep E. clear E.
  set (en := off + zlen (tlv 9 (elems (sel_body i)))) in *. rewrite sel_body_eq in A1 at 2.
  destruct (At_optNN _ _ _ _ _ _ A1) as [E A2]; [hd|exact Umin|]. dstep E. clear E A1.
  destruct (At_optNN _ _ _ _ _ _ A2) as [E A3]; [hd|exact Umax|]. dstep E. clear E A2.
  dstep (At_peek _ _ _ _ 15 A3).
  match type of A3 with At _ ?o _ _ => set (o3 := o) in * end.
  assert (K : (if match kl_els (i_keyLocator i) ++ exclude_els (i_exclude i) ++ opt_nn 17 (i_child i) ++ flag_el 18 (i_mustBeFresh i) with [] => false | (t', _) :: _ => t' =? 15 end
     then dec_keyLocator 15 else dret kl_empty) inp o3 = Ok (kl_seen (i_keyLocator i), o3 + zlen (elems (kl_els (i_keyLocator i))))).
  { unfold kl_els in *. unfold kl_seen. destruct (kl_type (i_keyLocator i)) as [t|] eqn:Et.
    - cbn [app] in *. unfold kl_el at 1. cbn [Z.eqb Pos.eqb]. destruct (dec_kl_ok _ _ _ _ _ _ Kl A3) as [-> _].
      unfold kl_seen. rewrite Et. reflexivity.
    - cbn [app] in *. rewrite hdne_peek by hd. rewrite elems_nil, zlen_nil, Z.add_0_r. reflexivity. }
  dstep K. clear K. apply At_app in A3. match type of A3 with At _ ?o _ _ => set (o4 := o) in * end.
  dstep (At_peek _ _ _ _ 16 A3).
  assert (K : (if match exclude_els (i_exclude i) ++ opt_nn 17 (i_child i) ++ flag_el 18 (i_mustBeFresh i) with [] => false | (t', _) :: _ => t' =? 16 end
     then dec_exclude else dret []) inp o4 = Ok (i_exclude i, o4 + zlen (elems (exclude_els (i_exclude i))))).
  { destruct (i_exclude i) as [|e ex] eqn:Ee; cbn [exclude_els app] in *.
    - rewrite hdne_peek by hd. rewrite elems_nil, zlen_nil, Z.add_0_r. reflexivity.
    - cbn [Z.eqb Pos.eqb]. apply (dec_exclude_ok _ _ _ _ _ Ex A3). }
  dstep K. clear K. apply At_app in A3.
  destruct (At_optNN _ _ _ _ _ _ A3) as [E A4]; [hd|exact Uch|]. dstep E. clear E A3.
  rewrite <- (app_nil_r (flag_el 18 (i_mustBeFresh i))) in A4.
  destruct (At_bool _ _ _ _ _ _ A4) as [E A5]; [hd|]. dstep E. clear E A4. dstep (At_finish _ _ _ false A5). reflexivity.
Qed.

(** ** Interest v0.2 *)
Lemma At_top : forall t v, u64 t -> zlen (tlv t v) < 2 ^ 64 -> At (tlv t v) 0 (zlen (tlv t v)) [(t, v)].
Proof.
  intros t v U L. rewrite <- elems_one. apply At_whole. apply Forall_cons; [|apply Forall_nil]. cbn [fst snd].
  split; [exact U|]. pose proof (tlv_len_ge t v). lia.
Qed.
Lemma link_el : forall i, interest_ok i -> exists lv, i_link i = option_map (tlv 6) lv.
Proof.
  intros i (_ & _ & _ & _ & _ & _ & _ & _ & _ & L & _). destruct (i_link i) as [l|]; [|exists None; reflexivity].
  destruct (L l eq_refl) as [v ->]. exists (Some v). reflexivity.
Qed.
Lemma sel_types : forall i, types_ok (sel_els i).
Proof. intros i. unfold sel_els. destruct (sel_body i); [apply Forall_nil|apply types_one; u64c]. Qed.
Lemma hint_types : forall ds, types_ok (hint_els ds).
Proof. intros [|d ds]; [apply Forall_nil|apply types_one; u64c]. Qed.
Lemma opt_el_types : forall t o, u64 t -> types_ok (opt_el t o).
Proof. intros t [v|] H; [apply types_one; exact H|apply Forall_nil]. Qed.
Definition els02 (i : interest) (nonce : bytes) (lv : option bytes) : list el :=
  name_el (i_name i) :: sel_els i ++ [(10, nonce)] ++ opt_nn 12 (i_lifetime i) ++ opt_el 6 lv ++ opt_nn 32 (i_selected i) ++ hint_els (i_hint i).
Lemma els02_types : forall i n lv, types_ok (els02 i n lv).
Proof.
  intros. unfold els02. apply Forall_cons; [u64c|]. apply types_app; [apply sel_types|]. apply types_app; [apply types_one; u64c|].
  apply types_app; [apply opt_nn_types; u64c|]. apply types_app; [apply opt_el_types; u64c|].
  apply types_app; [apply opt_nn_types; u64c|apply hint_types].
Qed.
Lemma link_elems : forall i lv, i_link i = option_map (tlv 6) lv -> blob_bytes (i_link i) = elems (opt_el 6 lv).
Proof. intros i [v|] ->; cbn [option_map blob_bytes opt_el]; [rewrite elems_one|]; reflexivity. Qed.
Lemma interest02_els : forall i n lv, i_link i = option_map (tlv 6) lv -> interest02 i n = tlv 5 (elems (els02 i n lv)).
Proof.
  intros i n lv L. unfold interest02, els02. f_equal. rewrite (link_elems i lv L), <- elems_app, <- elems_app.
  f_equal. cbn [app]. f_equal. rewrite <- !app_assoc. reflexivity.
Qed.
(** The offsets of the signed portion of the name within an Interest. *)
Definition ibegin (body : bytes) (i : interest) : Z := hdr 5 body + name_begin (i_name i).
Definition iend (body : bytes) (i : interest) : Z := hdr 5 body + name_end (i_name i).

Lemma encodeV02_ok : forall rnd i lv, interest_ok i -> i_link i = option_map (tlv 6) lv ->
  let body := elems (els02 i (nonce4 rnd (i_nonce i)) lv) in
  encodeInterestV02 rnd i = Ok (tlv 5 body, (ibegin body i, iend body i)).
Proof.
  intros rnd i lv H L body. pose proof H as (Nm & _ & _ & _ & _ & _ & Fl & Hi & Us & _ & Hx & _). unfold encodeInterestV02.
  rewrite (enc_hint_ok i [] Hi Hx). cbn [rbind]. rewrite enc_optnn by (lia || exact Us). cbn [rbind].
  unfold e_writeOptionalNonNegativeIntegerTlvFromFloat. rewrite enc_optnn by (lia || apply float_u64, Fl). cbn [rbind].
  rewrite e_blobTlv_tlv by lia. rewrite enc_selectors_ok by exact H. cbn [rbind]. rewrite enc_name_ok by exact Nm. cbn [fst snd].
  match goal with |- context [elems [name_el (i_name i)] ++ ?r] => set (rest := r) end.
  assert (B : elems [name_el (i_name i)] ++ rest = body).
  { unfold rest, body, els02. rewrite elems_one', elems_cons', !elems_app, elems_one.
    replace (e_writeBuffer (i_link i) (elems (opt_nn 32 (i_selected i)) ++ elems (hint_els (i_hint i)) ++ []))
      with (elems (opt_el 6 lv) ++ elems (opt_nn 32 (i_selected i)) ++ elems (hint_els (i_hint i))); [reflexivity|].
    rewrite app_nil_r, L. destruct lv; cbn [option_map e_writeBuffer opt_el]; [rewrite elems_one|]; reflexivity. }
  rewrite B. clear B rest.
  pose proof (e_TL_tlv 5 body [] ltac:(lia)) as E. rewrite !app_nil_r in E. rewrite E. rewrite tlv_len. unfold ibegin, iend.
  f_equal. f_equal. f_equal; lia.
Qed.

Lemma dec_link_ok : forall lv inp off end_ es, At inp off end_ (opt_el 6 lv ++ es) -> hdne 6 es ->
  dec_link end_ inp off = Ok (option_map (tlv 6) lv, off + zlen (elems (opt_el 6 lv)))
  /\ At inp (off + zlen (elems (opt_el 6 lv))) end_ es.
Proof.
  intros lv inp off end_ es A N. split; [|apply At_app; exact A]. unfold dec_link. dstep (At_peek _ _ _ _ 6 A).
  destruct lv as [v|]; cbn [opt_el app option_map] in *.
  - cbn [Z.eqb Pos.eqb]. dstep (eq_refl : d_getOffset inp off = Ok (off, off)).
    assert (E : d_readNestedTlvsStart 6 inp off = Ok (off + zlen (tlv 6 v), off + hdr 6 v)).
    { unfold d_readNestedTlvsStart. dstep (At_readTL _ _ _ _ _ _ A). unfold dbind, d_getOffset, dret. rewrite tlv_len. f_equal. f_equal. lia. }
    dstep E. dstep (eq_refl : d_seek (off + zlen (tlv 6 v)) inp (off + hdr 6 v) = Ok (tt, off + zlen (tlv 6 v))).
    unfold dbind, d_getSlice, dret. rewrite elems_one. f_equal. f_equal. f_equal.
    destruct A as (_ & pre & post & -> & -> & _). rewrite elems_cons, <- app_assoc. apply zslice_app'; reflexivity.
  - rewrite hdne_peek by exact N. rewrite elems_nil, zlen_nil, Z.add_0_r. reflexivity.
Qed.

Lemma dbind_assoc : forall A B C (m : dec A) (f : A -> dec B) (k : B -> dec C) inp off,
  dbind (dbind m f) k inp off = dbind m (fun a => dbind (f a) k) inp off.
Proof. intros. unfold dbind. destruct (m inp off) as [[a o]|e]; reflexivity. Qed.

Definition seen02 (prev i : interest) (nonce : bytes) : interest :=
  Interest (i_name i) (i_min i) (i_max i) (kl_seen (i_keyLocator i)) (i_exclude i) (i_child i) (i_mustBeFresh i)
    (Some nonce) (i_lifetime i) (match i_hint i with [] => i_hint prev | h => h end) None (i_link i) (i_selected i).

Lemma hdne_opt_el : forall t t' o es, t' <> t -> hdne t es -> hdne t (opt_el t' o ++ es).
Proof. intros t t' [v|] es H H'; cbn; auto. Qed.
Lemma hdne_hint : forall t ds, t <> 30 -> hdne t (hint_els ds).
Proof. intros t [|d ds] H; cbn; auto. Qed.
Lemma hdne_hint' : forall t ds es, t <> 30 -> hdne t es -> hdne t (hint_els ds ++ es).
Proof. intros t [|d ds] es H H'; cbn; auto. Qed.

Lemma dec_hint_none : forall es absent inp off end_, At inp off end_ es -> hdne 30 es -> dec_hint end_ absent inp off = Ok (absent, off).
Proof. intros. unfold dec_hint. dstep (At_peek _ _ _ _ 30 H). rewrite hdne_peek by assumption. reflexivity. Qed.

Lemma decV02_ok : forall prev i nonce lv, interest_ok i -> i_link i = option_map (tlv 6) lv ->
  let body := elems (els02 i nonce lv) in
  zlen (tlv 5 body) < 2 ^ 64 ->
  dec_interestV02 prev (tlv 5 body) 0 = Ok ((seen02 prev i nonce, (ibegin body i, iend body i)), zlen (tlv 5 body)).
Proof.
  intros prev i nonce lv H L body Sz. pose proof H as (Nm & _ & _ & _ & _ & _ & Fl & Hi & Us & _ & Hx & Hs). unfold dec_interestV02.
  assert (A : At (tlv 5 body) 0 (zlen (tlv 5 body)) [(5, body)]) by (apply At_top; [u64c|exact Sz]).
  destruct (At_enter _ _ _ _ _ _ A (els02_types i nonce lv)) as [E A1]. dstep E. clear E A. fold body in A1 |- *. rewrite !Z.add_0_l in *.
  set (inp := tlv 5 body) in *. set (end_ := zlen inp) in *. unfold els02 in A1.
  destruct (dec_name_ok _ _ _ _ _ Nm A1) as [E A2]. dstep E. clear E A1.
  match type of A2 with At _ ?o _ _ => set (o2 := o) in * end. dstep (At_peek _ _ _ _ 9 A2).
  assert (K : (if match sel_els i ++ [(10, nonce)] ++ opt_nn 12 (i_lifetime i) ++ opt_el 6 lv ++ opt_nn 32 (i_selected i) ++ hint_els (i_hint i) with [] => false | (t', _) :: _ => t' =? 9 end
     then dec_selectors else dret no_selectors) inp o2 = Ok ((i_min i, i_max i, kl_seen (i_keyLocator i), i_exclude i, i_child i, i_mustBeFresh i), o2 + zlen (elems (sel_els i)))).
  { pose proof (dec_sel_ok i inp o2 end_) as D. unfold sel_els in *. destruct (sel_body i) as [|e es] eqn:Eb.
    - cbn [app Z.eqb Pos.eqb]. unfold dret, no_selectors. rewrite elems_nil, zlen_nil, Z.add_0_r. f_equal. f_equal.
      rewrite sel_body_eq in Eb. unfold kl_seen, kl_els in *. destruct (i_min i); [discriminate|]. destruct (i_max i); [discriminate|].
      destruct (kl_type (i_keyLocator i)); [discriminate|]. destruct (i_exclude i); [|discriminate]. destruct (i_child i); [discriminate|].
      destruct (i_mustBeFresh i); [discriminate|]. reflexivity.
    - cbn [app Z.eqb Pos.eqb]. rewrite (D _ H A2). rewrite elems_one. reflexivity. }
  dstep K. clear K. apply At_app in A2. match type of A2 with At _ ?o _ _ => set (o3 := o) in * end. cbn [app] in A2.
  dstep (At_blob _ _ _ _ _ _ A2). apply At_next in A2.
  destruct (At_optNN _ _ _ _ _ _ A2) as [E A3]; [apply hdne_opt_el; [lia|]; apply hdne_app_nn; [lia|apply hdne_hint; lia]|apply float_u64, Fl|].
  unfold d_readOptionalNonNegativeIntegerTlvAsFloat. dstep E. clear E A2.
  match type of A3 with At _ ?o _ _ => set (o4 := o) in * end.
  destruct (i_hint i) as [|d ds] eqn:Eh.
  - (* no forwarding hint *) cbn [hint_els] in A3. rewrite app_nil_r in A3.
    dstep (dec_hint_none _ (i_hint prev) _ _ _ A3 ltac:(apply hdne_opt_el; [lia|]; apply hdne_nn; lia)).
    destruct (dec_link_ok lv _ _ _ _ A3 ltac:(apply hdne_nn; lia)) as [E A4]. dstep E. clear E A3.
    rewrite <- (app_nil_r (opt_nn 32 (i_selected i))) in A4.
    destruct (At_optNN _ _ _ _ _ _ A4) as [E A5]; [hd|exact Us|]. dstep E. clear E A4.
    unfold seen02. rewrite Eh, L. rewrite L in Hs.
    destruct (i_selected i) as [sd|]; destruct lv as [l|]; cbn [option_map] in *; try (exfalso; apply Hs; [discriminate|reflexivity]);
      dstep (At_finish _ _ _ false A5); reflexivity.
  - destruct (Hx ltac:(discriminate)) as [Hl He]. rewrite He in *. rewrite Hl in L. destruct lv as [l|]; [discriminate|].
    cbn [opt_el opt_nn app] in A3. rewrite <- (app_nil_r (hint_els (d :: ds))) in A3.
    destruct (dec_hint_ok _ (i_hint prev) _ _ _ _ Hi A3 ltac:(hd)) as [E A4]. dstep E. clear E A3.
    match type of A4 with At _ ?o _ _ => set (o5 := o) in * end.
    destruct (dec_link_ok None _ _ _ [] A4 I) as [E _]. dstep E. clear E. cbn [opt_el]. rewrite elems_nil, zlen_nil, Z.add_0_r.
    destruct (At_optNN inp o5 end_ 32 None [] A4 I I) as [E A5]. dstep E. clear E. dstep (At_finish _ _ _ false A5).
    unfold seen02. rewrite Eh, Hl, He. reflexivity.
Qed.
