(** * Proofs about the Protobuf TLV model: unfolding, encoding, decoding. *)
From Verif Require Import Base BaseLemmas NameModel TlvModel TlvSpec TlvProofs TlvDecProofs BlobModel BlobProps PtlvModel PtlvSpec.
From Coq Require Import ZifyBool.
Local Open Scope res_scope.

Scheme val_ok_m := Minimality for val_ok Sort Prop
with vals_ok_m := Minimality for vals_ok Sort Prop
with msg_ok_m := Minimality for msg_ok Sort Prop.
Combined Scheme ok_ind from val_ok_m, vals_ok_m, msg_ok_m.

Scheme val_plain_m := Minimality for val_plain Sort Prop
with vals_plain_m := Minimality for vals_plain Sort Prop
with msg_plain_m := Minimality for msg_plain Sort Prop.
Combined Scheme plain_ind from val_plain_m, vals_plain_m, msg_plain_m.

(** ** Unfolding *)
Lemma enc_msg : forall sch f t m out, f_type f = TMessage t ->
  enc_val sch f (VMsg m) out =
  (out1 <-- enc_fields sch (sch t) m out ;; Ok (e_writeTypeAndLength (f_number f) (zlen out1 - zlen out) out1)).
Proof.
  intros sch f t m out E. cbn [enc_val]. rewrite E. f_equal.
  generalize (sch t). intros fs. revert fs out. induction m as [|vs m IH]; intros fs out; [reflexivity|].
  destruct fs as [|g fs]; [reflexivity|]. cbn [enc_fields]. rewrite IH.
  destruct (enc_fields sch fs m out) as [o|]; [|reflexivity]. cbn [rbind].
  revert o. induction vs as [|v vs IHv]; intros o; [reflexivity|]. cbn [enc_values]. now rewrite IHv.
Qed.

Lemma elems_msg : forall sch f t m, f_type f = TMessage t ->
  val_elems sch f (VMsg m) = [(f_number f, elems (msg_elems sch (sch t) m))].
Proof.
  intros sch f t m E. cbn [val_elems]. rewrite E. do 3 f_equal.
  generalize (sch t). intros fs. revert fs. induction m as [|vs m IH]; intros fs; [reflexivity|].
  destruct fs as [|g fs]; [reflexivity|]. cbn [msg_elems]. rewrite IH. f_equal.
  induction vs as [|v vs IHv]; [reflexivity|]. cbn [vals_elems]. now rewrite IHv.
Qed.

Fixpoint init_fields (sch : schema) (fs : list field) (m : pmsg) {struct m} : bool :=
  match m with
  | [] => true
  | vs :: m' =>
      match fs with
      | [] => true
      | f :: fs' =>
          (match f_label f with LRequired => negb (is_nil vs) | _ => true end)
          && forallb (init_val sch f) vs && init_fields sch fs' m'
      end
  end.

Lemma init_msg : forall sch f t m, f_type f = TMessage t ->
  init_val sch f (VMsg m) = init_fields sch (sch t) m.
Proof.
  intros sch f t m E. cbn [init_val]. rewrite E.
  generalize (sch t). intros fs. revert fs. induction m as [|vs m IH]; intros fs; [reflexivity|].
  destruct fs as [|g fs]; [reflexivity|]. cbn [init_fields]. rewrite IH. do 2 f_equal.
  all: induction vs as [|v vs IHv]; [reflexivity|]; cbn [forallb]; now rewrite <- IHv.
Qed.

Lemma isInit : forall sch t m, isInitialized sch t m = init_fields sch (sch t) m.
Proof. intros. unfold isInitialized. now apply init_msg. Qed.

Lemma got_msg : forall com rd f t m had, f_type f = TMessage t ->
  got com rd f had (VMsg m) =
  match f_label f with
  | LRepeated => had ++ [VMsg (got_fields com rd (com t) (fresh (rd t)) m)]
  | _ => let r := got_fields com rd (com t) (current (rd t) had) m in
         if negb (is_nil had) || touched r then [VMsg r] else []
  end.
Proof.
  intros com rd f t m had E. cbn [got]. rewrite E.
  match goal with |- context [(fix go (fs : list field) (base : pmsg) (m : list (list pval)) {struct m} : pmsg := _)] =>
    set (G := (fix go (fs : list field) (base : pmsg) (m : list (list pval)) {struct m} : pmsg := _)) end.
  assert (X : forall m fs base, G fs base m = got_fields com rd fs base m).
  { clear. induction m as [|vs m IH]; intros fs base; [reflexivity|].
    destruct fs as [|g fs]; [reflexivity|]. cbn [got_fields].
    change (G (g :: fs) base (vs :: m)) with
      ((fix gov (had vs : list pval) {struct vs} : list pval :=
          match vs with [] => had | v :: vs' => gov (got com rd g had v) vs' end) (hd [] base) vs :: G fs (tl base) m).
    rewrite IH. f_equal. generalize (hd [] base). induction vs as [|v vs IHv]; intros h; [reflexivity|].
    cbn [got_values]. now rewrite IHv. }
  rewrite !X. unfold current. destruct (f_label f); try reflexivity; destruct had as [|[] had]; reflexivity.
Qed.

(** ** Initialised *)
Lemma init_strict : forall sch,
  (forall f v, val_ok true sch f v -> init_val sch f v = true) /\
  (forall f vs, vals_ok true sch f vs -> forallb (init_val sch f) vs = true) /\
  (forall fs m, msg_ok true sch fs m -> init_fields sch fs m = true).
Proof.
  intros sch. apply ok_ind.
  - intros f t m E _ IH. now rewrite (init_msg _ _ _ _ E).
  - intros f n E _. cbn [init_val]. now rewrite E.
  - intros f n E _. cbn [init_val]. now rewrite E.
  - intros f l n E _ _. cbn [init_val]. now rewrite E.
  - intros f b E _. cbn [init_val]. now rewrite E.
  - intros f s E _. cbn [init_val]. now rewrite E.
  - intros f b E. cbn [init_val]. now rewrite E.
  - reflexivity.
  - intros f v vs _ IH1 _ IH2. cbn [forallb]. now rewrite IH1, IH2.
  - reflexivity.
  - intros f vs fs m L _ IH1 _ IH2. cbn [init_fields]. rewrite IH1, IH2, !andb_true_r.
    unfold label_ok in L. destruct (f_label f); auto. destruct L as [_ L]. specialize (L eq_refl).
    destruct vs; [congruence|reflexivity].
Qed.

Lemma strict_init : forall sch,
  (forall f v, val_ok false sch f v -> init_val sch f v = true -> val_ok true sch f v) /\
  (forall f vs, vals_ok false sch f vs -> forallb (init_val sch f) vs = true -> vals_ok true sch f vs) /\
  (forall fs m, msg_ok false sch fs m -> init_fields sch fs m = true -> msg_ok true sch fs m).
Proof.
  intros sch. apply ok_ind.
  - intros f t m E _ IH H. rewrite (init_msg _ _ _ _ E) in H. eapply VO_msg; eauto.
  - intros. now apply VO_u32.
  - intros. now apply VO_u64.
  - intros f l n E H1 H2 _. now apply (VO_enum _ _ _ l).
  - intros. now apply VO_bytes.
  - intros. now apply VO_str.
  - intros. now apply VO_bool.
  - intros. constructor.
  - intros f v vs _ IH1 _ IH2 H. cbn [forallb] in H. apply andb_true_iff in H. destruct H. constructor; auto.
  - intros. constructor.
  - intros f vs fs m L _ IH1 _ IH2 H. cbn [init_fields] in H. apply andb_true_iff in H. destruct H as [H H3].
    apply andb_true_iff in H. destruct H as [H1 H2]. constructor; auto.
    unfold label_ok in *. destruct (f_label f); auto. split; [tauto|]. intros _ ->. discriminate H1.
Qed.

(** ** Encoding *)
Lemma wtl : forall t l out, 0 <= t -> 0 <= l -> e_writeTypeAndLength t l out = varnum t ++ varnum l ++ out.
Proof. intros. unfold e_writeTypeAndLength, e_writeVarNumber. now rewrite !varNumber_bytes_varnum. Qed.

Lemma known_pos : forall f, known f -> 0 <= f_number f.
Proof. intros f (_ & H & _). lia. Qed.

Lemma enc_ok : forall sch, (forall t, Forall known (sch t)) ->
  (forall f v, val_ok true sch f v -> known f -> forall out, enc_val sch f v out = Ok (elems (val_elems sch f v) ++ out)) /\
  (forall f vs, vals_ok true sch f vs -> known f -> forall out, enc_values sch f vs out = Ok (elems (vals_elems sch f vs) ++ out)) /\
  (forall fs m, msg_ok true sch fs m -> Forall known fs -> forall out, enc_fields sch fs m out = Ok (elems (msg_elems sch fs m) ++ out)).
Proof.
  intros sch K. 
  assert (NN : forall f n out, 0 <= n -> known f ->
    e_writeNonNegativeIntegerTlv (f_number f) n out = Ok (elems [(f_number f, nonneg n)] ++ out)).
  { intros f n out Hn Kf. unfold e_writeNonNegativeIntegerTlv, e_writeNonNegativeInteger. replace (n <? 0) with false by lia.
    cbn [rbind]. rewrite nonNegativeInteger_bytes_nonneg by lia. rewrite wtl by (try apply known_pos; auto; zlia).
    rewrite elems_cons, elems_nil, app_nil_r. unfold tlv. rewrite <- !app_assoc. do 3 f_equal. f_equal. zlia. }
  assert (BB : forall f b out, known f ->
    e_writeBlobTlv (f_number f) (Some b) out = elems [(f_number f, b)] ++ out).
  { intros f b out Kf. unfold e_writeBlobTlv, e_writeBuffer. rewrite wtl by (try apply known_pos; auto; zlia).
    rewrite elems_cons, elems_nil, app_nil_r. unfold tlv. rewrite <- !app_assoc. reflexivity. }
  apply ok_ind.
  - intros f t m E _ IH Kf out. rewrite (enc_msg _ _ _ _ _ E), (elems_msg _ _ _ _ E), IH by apply K. cbn [rbind].
    rewrite wtl by (try apply known_pos; auto; zlia). rewrite elems_cons, elems_nil, app_nil_r. unfold tlv. rewrite <- !app_assoc.
    do 3 f_equal. f_equal. zlia.
  - intros f n E H Kf out. cbn [enc_val val_elems]. rewrite E. apply NN; [lia|assumption].
  - intros f n E H Kf out. cbn [enc_val val_elems]. rewrite E. apply NN; [lia|assumption].
  - intros f l n E _ H Kf out. cbn [enc_val val_elems]. rewrite E. replace (n <? 0) with false by lia. apply NN; [lia|assumption].
  - intros f b E H Kf out. cbn [enc_val val_elems]. rewrite E. now rewrite BB.
  - intros f s E H Kf out. cbn [enc_val val_elems]. rewrite E. unfold utf8. destruct (utf8_encode_ok s H) as (b & -> & _). cbn [rbind]. now rewrite BB.
  - intros f b E Kf out. cbn [enc_val val_elems]. rewrite E. destruct b; [|reflexivity].
    rewrite wtl by (try apply known_pos; auto; lia). change (elems [(f_number f, [])]) with (tlv (f_number f) [] ++ []). rewrite app_nil_r. unfold tlv. rewrite zlen_nil, app_nil_r, <- app_assoc. reflexivity.
  - reflexivity.
  - intros f v vs _ IH1 _ IH2 Kf out. cbn [enc_values vals_elems]. rewrite IH2 by assumption. cbn [rbind]. rewrite IH1 by assumption.
    now rewrite elems_app, <- app_assoc.
  - reflexivity.
  - intros f vs fs m _ _ IH1 _ IH2 Kf out. cbn [enc_fields msg_elems]. rewrite IH2 by (now inversion Kf). cbn [rbind].
    rewrite IH1 by (now inversion Kf). now rewrite elems_app, <- app_assoc.
Qed.

(** ** The element types *)
Lemma val_types : forall sch f v e, In e (val_elems sch f v) -> fst e = f_number f.
Proof.
  intros sch f v e H. destruct v; cbn [val_elems] in H; destruct (f_type f); cbn [In] in H;
    try (destruct b; cbn [In] in H); try tauto; destruct H as [<-|[]]; reflexivity.
Qed.
Lemma vals_types : forall sch f vs e, In e (vals_elems sch f vs) -> fst e = f_number f.
Proof.
  induction vs as [|v vs IH]; intros e H; [destruct H|]. cbn [vals_elems] in H. apply in_app_or in H.
  destruct H as [H|H]; [eapply val_types; eauto|auto].
Qed.
Lemma msg_types : forall sch m fs e, In e (msg_elems sch fs m) -> In (fst e) (map f_number fs).
Proof.
  induction m as [|vs m IH]; intros fs e H; [destruct H|]. destruct fs as [|f fs]; [destruct H|]. cbn [msg_elems] in H.
  apply in_app_or in H. destruct H as [H|H]; [left; symmetry; eapply vals_types; eauto|right; auto].
Qed.
Lemma msg_small : forall sch fs m, Forall known fs -> zlen (elems (msg_elems sch fs m)) < 2 ^ 64 -> small (msg_elems sch fs m).
Proof.
  intros sch fs m K L. apply small_of_len; [|assumption]. rewrite Forall_forall in *. intros e He. apply msg_types in He.
  apply in_map_iff in He. destruct He as (f & <- & Hf). destruct (K f Hf) as (_ & N & _). unfold u64. lia.
Qed.

Lemma msg_elems_app : forall sch fs gs m, (length fs <= length m)%nat ->
  msg_elems sch (fs ++ gs) m = msg_elems sch fs m ++ msg_elems sch gs (skipn (length fs) m).
Proof.
  induction fs as [|f fs IH]; intros gs m L.
  - cbn [app length skipn]. destruct m; reflexivity.
  - destruct m as [|vs m]; cbn [length] in L; [lia|]. cbn [app length skipn msg_elems]. rewrite IH by lia. now rewrite app_assoc.
Qed.
Lemma msg_ok_len : forall st sch fs m, msg_ok st sch fs m -> length m = length fs.
Proof. induction 1; cbn [length]; congruence. Qed.
