(** * Lemmas: encoders produce the format, decoders read it back. *)
From Verif Require Import Base BaseLemmas TlvModel TlvSpec TlvProofs TlvDecProofs NameModel NameSpec NameProofs UriModel CalModel CalProofs WireModel WireSpec.
From Coq Require Import ZifyBool.
Local Open Scope dec_scope.

Lemma dbind_ok : forall A B (m : dec A) (k : A -> dec B) inp off a off', m inp off = Ok (a, off') ->
  dbind m k inp off = k a inp off'.
Proof. intros. unfold dbind. rewrite H. reflexivity. Qed.
Lemma dbind_assoc_ok : forall A B C (m : dec A) (f : A -> dec B) (k : B -> dec C) inp off a off', m inp off = Ok (a, off') ->
  dbind (dbind m f) k inp off = dbind (f a) k inp off'.
Proof. intros. unfold dbind. rewrite H. reflexivity. Qed.
Ltac dstep' E := rewrite (dbind_assoc_ok _ _ _ _ _ _ _ _ _ _ E); cbn beta iota.
Lemma dbind_ret : forall A B (a : A) (k : A -> dec B) inp off, dbind (dret a) k inp off = k a inp off.
Proof. reflexivity. Qed.
Ltac dstep E := rewrite (dbind_ok _ _ _ _ _ _ _ _ E); cbn beta iota.

Lemma elems_one : forall t v, elems [(t, v)] = tlv t v.
Proof. intros. rewrite elems_cons, elems_nil, app_nil_r. reflexivity. Qed.
Lemma elems_cons' : forall e es, elems (e :: es) = tlv (fst e) (snd e) ++ elems es.
Proof. intros [t v] es. reflexivity. Qed.
Lemma elems_one' : forall e, elems [e] = tlv (fst e) (snd e).
Proof. intros [t v]. apply elems_one. Qed.

(** Entering a nested element whose types are representable. *)
Definition types_ok (es : list (Z * bytes)) : Prop := Forall (fun e => u64 (fst e)) es.
Lemma At_len : forall inp off end_ t v es, At inp off end_ ((t, v) :: es) -> zlen v < 2 ^ 64.
Proof. intros inp off end_ t v es (S & _). apply Forall_inv in S. tauto. Qed.
Lemma At_enter : forall inp off end_ t es1 es, At inp off end_ ((t, elems es1) :: es) -> types_ok es1 ->
  d_readNestedTlvsStart t inp off = Ok (off + zlen (tlv t (elems es1)), off + hdr t (elems es1))
  /\ At inp (off + hdr t (elems es1)) (off + zlen (tlv t (elems es1))) es1.
Proof.
  intros inp off end_ t es1 es H T. apply (At_nested inp off end_ t es1 es H).
  apply small_of_len; [exact T|]. eapply At_len; eauto.
Qed.
Lemma At_fuel : forall inp off end_ es, At inp off end_ es -> (length es <= length inp)%nat.
Proof.
  intros inp off end_ es (_ & pre & post & -> & _ & _). rewrite !app_length.
  assert (length es <= length (elems es))%nat; [|lia].
  clear. induction es as [|[t v] es IH]; [cbn; lia|]. rewrite elems_cons, app_length. cbn [length].
  pose proof (tlv_len_ge t v). unfold zlen in *. lia.
Qed.
Lemma At_pos : forall inp off end_ e es, At inp off end_ (e :: es) -> off < end_.
Proof.
  intros inp off end_ [t v] es (_ & pre & post & _ & _ & F). rewrite elems_cons in F. pose proof (tlv_len_ge t v). zlia.
Qed.

(** ** Components *)
Lemma comp_u64 : forall c, comp_ok c -> u64 (c_code c).
Proof.
  intros c ([_ [(T & O & _)|([T|[T|T]] & O)]] & L & _); unfold u64, c_code in *; rewrite T in *;
    unfold CT_OTHER, CT_IMPLICIT, CT_PARAMS, CT_GENERIC in *; cbn [Z.eqb Pos.eqb] in *; lia.
Qed.
Lemma enc_comp_tlv : forall c out, comp_ok c -> enc_comp c out = elems [comp_el c] ++ out.
Proof.
  intros c out H. unfold enc_comp. pose proof (comp_u64 c H) as U. unfold u64, c_code in U. unfold CT_OTHER.
  rewrite e_blobTlv_tlv by lia. rewrite elems_one'. reflexivity.
Qed.
Lemma comps_types : forall n, name_ok n -> types_ok (map comp_el n).
Proof. intros n H. apply Forall_map. eapply Forall_impl; [|exact H]. intros c. apply comp_u64. Qed.

Lemma dec_comp_ok : forall inp off end_ c es, comp_ok c -> At inp off end_ (comp_el c :: es) ->
  dec_comp inp off = Ok (c, off + zlen (elems [comp_el c])).
Proof.
  intros inp off end_ c es H A. unfold comp_el in A. unfold dec_comp.
  dstep (eq_refl : d_getOffset inp off = Ok (off, off)).
  dstep (At_readVar _ _ _ _ _ _ A). dstep (eq_refl : d_seek off inp (off + zlen (varnum (c_code c))) = Ok (tt, off)).
  dstep (At_blob _ _ _ _ _ _ A). rewrite elems_one'. cbn [comp_el fst snd].
  destruct H as ([Bv [(T & O & N1 & N2 & N8)|([T|[T|T]] & O)]] & L & D); unfold c_code in *; rewrite T in *;
    unfold CT_OTHER, CT_IMPLICIT, CT_PARAMS, CT_GENERIC in *; cbn [Z.eqb Pos.eqb] in *.
  - replace (c_other c =? 1) with false by lia. replace (c_other c =? 2) with false by lia. replace (c_other c =? 8) with false by lia.
    unfold dlift, c_new, CT_OTHER. cbn [Z.eqb Pos.eqb]. replace (c_other c <? 0) with false by lia. destruct c; cbn in *. subst. reflexivity.
  - unfold dlift, c_fromImplicitSha256Digest. rewrite D by auto. destruct c; cbn in *. subst. reflexivity.
  - unfold dlift, c_fromParametersSha256Digest. rewrite D by auto. destruct c; cbn in *. subst. reflexivity.
  - destruct c; cbn in *. subst. reflexivity.
Qed.

(** ** Names *)
Lemma enc_name_loop_elems : forall rn b e out, name_ok rn ->
  fst (enc_name_loop rn b e out) = elems (map comp_el (rev rn)) ++ out.
Proof.
  induction rn as [|c rn IH]; intros b e out H; [reflexivity|]. cbn [enc_name_loop rev].
  rewrite IH by (eapply Forall_inv_tail; eauto). rewrite map_app, elems_app, <- app_assoc. cbn [map].
  rewrite enc_comp_tlv by (eapply Forall_inv; eauto). reflexivity.
Qed.
Lemma enc_name_loop_end : forall rn e out, snd (enc_name_loop rn false e out) = e.
Proof. induction rn as [|c rn IH]; intros; [reflexivity|]. cbn [enc_name_loop]. apply IH. Qed.
Lemma name_ok_rev : forall n, name_ok n -> name_ok (rev n).
Proof. intros n H. apply Forall_rev, H. Qed.

(** Offsets of the signed portion: from after the Name header to before the last component. *)
Definition name_begin (n : name) : Z := hdr 7 (elems (map comp_el n)).
Definition name_end (n : name) : Z :=
  name_begin n + zlen (elems (map comp_el (removelast n))).

Lemma enc_name_ok : forall n out, name_ok n ->
  enc_name n out = (elems [name_el n] ++ out, (name_begin n, name_end n)).
Proof.
  intros n out H. unfold enc_name.
  pose proof (enc_name_loop_elems (rev n) true 0 out (name_ok_rev n H)) as E. rewrite rev_involutive in E.
  destruct (enc_name_loop (rev n) true 0 out) as [o1 eb] eqn:L. cbn [fst] in E. subst o1.
  rewrite e_TL_tlv' by lia. rewrite elems_one'. unfold name_el. cbn [fst snd].
  f_equal. f_equal.
  - unfold name_begin. rewrite !zlen_app, tlv_len. lia.
  - unfold name_end, name_begin. destruct n as [|c0 n0]; [cbn [map removelast]; change (elems []) with (@nil Z); rewrite !zlen_app, tlv_len, !zlen_nil; lia|].
    set (n := c0 :: n0) in *.
    assert (Hn : n = removelast n ++ [last n c0]) by (apply app_removelast_last; unfold n; discriminate).
    assert (Er : rev n = last n c0 :: rev (removelast n)) by (rewrite Hn at 1; rewrite rev_app_distr; reflexivity).
    rewrite Er in L. cbn [enc_name_loop] in L.
    pose proof (enc_name_loop_end (rev (removelast n)) (zlen (enc_comp (last n c0) out)) (enc_comp (last n c0) out)) as E2.
    rewrite L in E2. cbn [snd] in E2. subst eb.
    assert (Hl : comp_ok (last n c0)). { rewrite Hn in H. apply Forall_app in H. destruct H as [_ H]. eapply Forall_inv; eauto. }
    rewrite enc_comp_tlv by exact Hl.
    assert (Hm : elems (map comp_el n) = elems (map comp_el (removelast n)) ++ elems [comp_el (last n c0)]).
    { rewrite Hn at 1. rewrite map_app, elems_app. reflexivity. }
    rewrite !zlen_app, tlv_len. apply (f_equal zlen) in Hm. rewrite zlen_app in Hm. lia.
Qed.

Lemma dec_name_loop_ok : forall n fuel inp off end_ acc se, name_ok n -> At inp off end_ (map comp_el n) ->
  (length n <= fuel)%nat ->
  dec_name_loop fuel end_ acc se inp off =
  Ok ((rev acc ++ n, match n with [] => se | _ => off + zlen (elems (map comp_el (removelast n))) end), end_).
Proof.
  induction n as [|c n IH]; intros fuel inp off end_ acc se H A F.
  - apply At_nil in A. subst. destruct fuel; cbn [dec_name_loop]; dstep (eq_refl : d_getOffset inp end_ = Ok (end_, end_));
    rewrite Z.ltb_irrefl; rewrite app_nil_r; reflexivity.
  - destruct fuel as [|fuel]; [cbn [length] in F; lia|]. cbn [dec_name_loop map] in *.
    dstep (eq_refl : d_getOffset inp off = Ok (off, off)).
    replace (off <? end_) with true by (apply At_pos in A; lia).
    rewrite (dbind_ok _ _ _ _ _ _ _ _ (dec_comp_ok _ _ _ _ _ (Forall_inv H) A)).
    unfold comp_el at 1 in A. apply At_next in A.
    replace (off + zlen (elems [comp_el c])) with (off + zlen (tlv (c_code c) (c_value c))) by (rewrite elems_one'; reflexivity).
    rewrite IH; [|eapply Forall_inv_tail; eauto|exact A|cbn [length] in F; lia].
    cbn [rev]. rewrite <- app_assoc. cbn [app]. f_equal. f_equal. f_equal.
    destruct n as [|c' n']; [cbn [removelast map]; rewrite elems_nil, zlen_nil; lia|].
    cbn [removelast map]. rewrite elems_cons', zlen_app. cbn [comp_el fst snd]. lia.
Qed.

Lemma dec_name_ok : forall n inp off end_ es, name_ok n -> At inp off end_ (name_el n :: es) ->
  dec_name inp off = Ok ((n, (off + name_begin n, off + name_end n)), off + zlen (elems [name_el n]))
  /\ At inp (off + zlen (elems [name_el n])) end_ es.
Proof.
  intros n inp off end_ es H A. split; [|rewrite elems_one'; apply At_next; exact A].
  unfold dec_name. unfold name_el in A. destruct (At_enter _ _ _ _ _ _ A (comps_types n H)) as [E A1].
  dstep E. dstep (eq_refl : d_getOffset inp (off + hdr 7 (elems (map comp_el n))) = Ok (_, _)).
  pose proof (dec_name_loop_ok n (S (length inp)) inp _ _ [] (off + hdr 7 (elems (map comp_el n))) H A1) as L.
  specialize (L ltac:(apply At_fuel in A1; rewrite map_length in A1; lia)).
  rewrite (dbind_ok _ _ (dfuel _) _ inp _ _ _ L). dstep (finish_at_end (off + zlen (tlv 7 (elems (map comp_el n)))) false inp).
  unfold dret. cbn [fst snd rev app]. rewrite elems_one'. unfold name_el, name_begin, name_end, name_begin. cbn [fst snd].
  f_equal. f_equal. f_equal. f_equal. destruct n; [cbn [removelast map]; rewrite elems_nil, zlen_nil; lia|lia].
Qed.

(** ** Key locators *)
Lemma enc_kl_ok : forall t k out, 0 <= t -> kl_ok k -> enc_keyLocator t k out = Ok (elems [kl_el t k] ++ out).
Proof.
  intros t k out Ht H. unfold enc_keyLocator, kl_el. rewrite elems_one'. cbn [fst snd]. unfold kl_ok, kl_body in *.
  destruct (kl_type k) as [ty|].
  - destruct H as [[-> Hn]|(-> & b & d & Ed)]; cbn [Z.eqb Pos.eqb andb].
    + rewrite enc_name_ok by assumption. cbn [fst]. cbn [rbind]. f_equal. apply e_TL_tlv'; [lia|reflexivity].
    + rewrite Ed. replace (0 <? zlen (b :: d)) with true by zlia. cbn [rbind]. f_equal.
      rewrite e_blobTlv_tlv by lia. cbn [blob_bytes]. rewrite elems_one. apply e_TL_tlv'; [lia|reflexivity].
  - cbn [rbind]. f_equal. rewrite elems_nil. apply (e_TL_tlv' t [] out); [lia|reflexivity].
Qed.
Lemma kl_body_types : forall k, types_ok (kl_body k).
Proof.
  intros k. unfold kl_body. destruct (kl_type k) as [t|]; [|apply Forall_nil].
  destruct (t =? 1); (apply Forall_cons; [unfold u64; cbn; lia|apply Forall_nil]).
Qed.
Lemma dec_kl_ok : forall t k inp off end_ es, kl_ok k -> At inp off end_ (kl_el t k :: es) ->
  dec_keyLocator t inp off = Ok (kl_seen k, off + zlen (elems [kl_el t k]))
  /\ At inp (off + zlen (elems [kl_el t k])) end_ es.
Proof.
  intros t k inp off end_ es H A. split; [|rewrite elems_one'; apply At_next; exact A].
  unfold dec_keyLocator. unfold kl_el in A. destruct (At_enter _ _ _ _ _ _ A (kl_body_types k)) as [E A1].
  dstep E. dstep (eq_refl : d_getOffset inp (off + hdr t (elems (kl_body k))) = Ok (_, _)). clear E.
  rewrite elems_one'. unfold kl_el. cbn [fst snd].
  unfold kl_ok, kl_body, kl_seen in *. destruct (kl_type k) as [ty|].
  - destruct H as [[-> Hn]|(-> & b & d & Ed)]; cbn [Z.eqb Pos.eqb] in *.
    + replace (off + hdr t _ =? _) with false by (apply At_pos in A1; lia).
      rewrite (dbind_ok _ _ _ _ _ _ _ _ (At_peek _ _ _ _ 7 A1)). cbn [name_el Z.eqb Pos.eqb].
      destruct (dec_name_ok _ _ _ _ _ Hn A1) as [E1 A2]. dstep' E1. rewrite dbind_ret. dstep (At_finish _ _ _ false A2). reflexivity.
    + replace (off + hdr t _ =? _) with false by (apply At_pos in A1; lia).
      dstep (At_peek _ _ _ _ 7 A1). cbn [Z.eqb Pos.eqb].
      dstep' (At_peek _ _ _ _ 29 A1). cbn [Z.eqb Pos.eqb].
      dstep' (At_blob _ _ _ _ _ _ A1). rewrite dbind_ret. apply At_next in A1.
      dstep (At_finish _ _ _ false A1). rewrite Ed. reflexivity.
  - rewrite elems_nil in A1. apply At_nil in A1. rewrite elems_nil, A1, Z.eqb_refl. reflexivity.
Qed.
