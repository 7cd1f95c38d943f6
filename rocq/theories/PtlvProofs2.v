(** * Proofs about the Protobuf TLV model: decoding what was encoded. *)
From Verif Require Import Base BaseLemmas NameModel TlvModel TlvSpec TlvProofs TlvDecProofs BlobModel BlobProps PtlvModel PtlvSpec PtlvProofs.
From Coq Require Import ZifyBool.
Local Open Scope dec_scope.

Lemma elems_tlv_seq : forall es, small es -> tlv_seq es (elems es).
Proof.
  induction es as [|[t v] es IH]; intros S; [constructor|]. inversion S as [|? ? [U L] S']; subst. cbn [fst snd] in *.
  rewrite elems_cons. unfold tlv. rewrite <- !app_assoc. constructor; [now apply varnum_form| |now apply IH].
  apply varnum_form. unfold u64. pose proof (zlen_nonneg _ v). lia.
Qed.

Lemma At_finish_skip : forall inp off end_ es, bytes_ok inp -> At inp off end_ es ->
  Forall (fun e => ~ critical (fst e)) es -> d_finishNestedTlvs end_ false inp off = Ok (tt, end_).
Proof.
  intros inp off end_ es B (S & pre & post & E & O & F) C. apply finish_iff; [assumption|subst; zlia|].
  split; [subst; zlia|]. exists es. split; [|now right]. subst. rewrite zslice_app by reflexivity. now apply elems_tlv_seq.
Qed.

Lemma At_more : forall inp off end_ es, At inp off end_ es -> 0 <= off /\ zlen (elems es) <= zlen inp.
Proof. intros inp off end_ es (S & pre & post & E & O & F). subst. zlia. Qed.

Definition away (t : Z) (es : list (Z * bytes)) : Prop := Forall (fun e => fst e <> t) es.
Lemma away_peek : forall inp off end_ es t, At inp off end_ es -> away t es -> d_peekType t end_ inp off = Ok (false, off).
Proof.
  intros inp off end_ es t A W. rewrite (At_peek _ _ _ _ t A). destruct es as [|[t' v] es]; [reflexivity|].
  inversion W; subst. cbn [fst] in *. replace (t' =? t) with false by lia. reflexivity.
Qed.
Lemma here_peek : forall inp off end_ es t v, At inp off end_ ((t, v) :: es) -> d_peekType t end_ inp off = Ok (true, off).
Proof. intros. rewrite (At_peek _ _ _ _ t H). now rewrite Z.eqb_refl. Qed.

Lemma fresh_ok : forall sch fs, msg_ok false sch fs (fresh fs).
Proof.
  intros sch fs. unfold fresh. induction fs as [|f fs IH]; cbn [map]; constructor; [|constructor|assumption].
  unfold label_ok. destruct (f_label f); cbn [length]; auto with arith. split; [auto with arith|discriminate].
Qed.

Section Read.
Variables writer reader common : schema.
Hypothesis V : versions writer reader common.

Definition Pmsg (fs : list field) (m : pmsg) : Prop :=
  forall k newer older n inp off end_ extra base,
  fs = k ++ newer -> NoDup (map f_number (k ++ newer ++ older)) -> Forall known (k ++ newer ++ older) ->
  Forall (fun f => f_label f <> LRequired) older ->
  (forall f, In f (k ++ older) -> away (f_number f) extra) ->
  zlen (elems (msg_elems writer fs m)) <= Z.of_nat n -> bytes_ok inp ->
  At inp off end_ (msg_elems writer fs m ++ extra) -> msg_ok false reader (k ++ older) base ->
  exists off', dec_list (dec_fields n reader) reader (k ++ older) base end_ inp off
               = Ok (got_fields common reader k base m, off') /\
    At inp off' end_ (msg_elems writer newer (skipn (length k) m) ++ extra).

Definition Pval (f : field) (v : pval) : Prop :=
  val_ok true writer f v /\
  match v with VMsg m => forall t, f_type f = TMessage t -> Pmsg (writer t) m | _ => True end.

(** The reader's extra fields are absent. *)
Lemma older_absent : forall older base n inp off end_ es,
  Forall (fun f => f_label f <> LRequired) older -> (forall f, In f older -> away (f_number f) es) ->
  At inp off end_ es -> length base = length older ->
  dec_list (dec_fields n reader) reader older base end_ inp off = Ok (base, off).
Proof.
  induction older as [|f older IH]; intros base n inp off end_ es R W A L.
  - destruct base; [reflexivity|discriminate L].
  - destruct base as [|had base]; [discriminate L|]. cbn [dec_list]. unfold dbind at 1.
    assert (X : dec_field (dec_fields n reader) reader f (hd [] (had :: base)) end_ inp off = Ok (had, off)).
    { cbn [hd]. unfold dec_field. inversion R as [|? ? Rf _]; subst.
      assert (P : d_peekType (f_number f) end_ inp off = Ok (false, off)) by (eapply away_peek; [exact A|apply W; now left]).
      destruct (f_label f); [|congruence|].
      - unfold dbind. rewrite P. reflexivity.
      - cbn [dec_repeat]. unfold dbind. rewrite P. reflexivity. }
    rewrite X. unfold dbind. cbn [tl]. rewrite (IH base n inp off end_ es); auto.
    + now inversion R.
    + intros g Hg. apply W. now right.
Qed.

(** A nested message. *)
Lemma sub_step : forall A (K : pmsg -> dec A) f t m n inp off end_ rest base,
  f_type f = TMessage t -> known f -> Pmsg (writer t) m -> bytes_ok inp ->
  zlen (elems (val_elems writer f (VMsg m))) <= Z.of_nat n ->
  At inp off end_ (val_elems writer f (VMsg m) ++ rest) -> msg_ok false reader (reader t) base ->
  (inner <~ d_readNestedTlvsStart (f_number f) ;;
   r <~ dec_fields n reader (reader t) base inner ;;
   d_finishNestedTlvs inner false ;;;
   K r) inp off
  = K (got_fields common reader (common t) base m) inp (off + zlen (elems (val_elems writer f (VMsg m)))).
Proof.
  intros A K f t m n inp off end_ rest base E Kf P B L At0 MB. rewrite (elems_msg _ _ _ _ E) in *. cbn [app] in At0.
  destruct (V t) as (newer & older & EW & ER & ND & KN & CR & RQ).
  set (es := msg_elems writer (writer t) m) in *.
  assert (S : small es).
  { apply msg_small; [rewrite EW; apply Forall_app in KN; rewrite Forall_app in *; tauto|].
    destruct At0 as (S0 & _). inversion S0 as [|? ? [_ L0] _]. exact L0. }
  destruct (At_nested _ _ _ _ _ _ At0 S) as [R1 A1].
  unfold dbind at 1. rewrite R1.
  rewrite elems_cons, elems_nil, app_nil_r in L. rewrite elems_cons, elems_nil, app_nil_r.
  pose proof (tlv_len_ge (f_number f) (elems es)) as TL.
  destruct n as [|n]; [pose proof (zlen_nonneg _ (elems es)); lia|]. cbn [dec_fields]. unfold dbind at 1. rewrite ER in *.
  assert (A1' : At inp (off + hdr (f_number f) (elems es)) (off + zlen (tlv (f_number f) (elems es))) (es ++ [])) by (rewrite app_nil_r; exact A1).
  destruct (P (common t) newer older n inp (off + hdr (f_number f) (elems es)) (off + zlen (tlv (f_number f) (elems es))) [] base EW ND KN RQ) as (off' & D & A2); auto.
  { intros. constructor. }
  { unfold es in *. lia. }
  rewrite D. unfold dbind. rewrite app_nil_r in A2.
  rewrite (At_finish_skip _ _ _ _ B A2); [reflexivity|].
  rewrite Forall_forall in *. intros e He. apply msg_types in He. apply in_map_iff in He. destruct He as (g & <- & Hg). auto.
Qed.

(** A value that is not a message and leaves an element. *)
Lemma value_step : forall f v inp off end_ rest had,
  known f -> val_ok true writer f v -> (forall m, v <> VMsg m) -> v <> VBool false ->
  At inp off end_ (val_elems writer f v ++ rest) ->
  exists v', dec_value f end_ inp off = Ok (v', off + zlen (elems (val_elems writer f v)))
    /\ got common reader f had v = put (f_label f) had v'
    /\ (exists x, val_elems writer f v = [(f_number f, x)]).
Proof.
  intros f v inp off end_ rest had Kf O NM NB A. destruct O as [f t m E _|f n E H|f n E H|f l n E Hi H|f b E H|f s E H|f b E].
  - now specialize (NM m).
  - exists (VInt n). unfold dec_value. cbn [val_elems got] in *. rewrite E in *. cbn [app] in A. unfold dbind.
    rewrite (At_nnTlv _ _ _ _ n _ ltac:(unfold u64; lia) A). unfold dret, d_store. rewrite E.
    replace ((0 <=? n) && (n <? 2 ^ 32)) with true by lia. rewrite elems_cons, elems_nil, app_nil_r. split; [reflexivity|]. split; [reflexivity|eauto].
  - exists (VInt n). unfold dec_value. cbn [val_elems got] in *. rewrite E in *. cbn [app] in A. unfold dbind.
    rewrite (At_nnTlv _ _ _ _ n _ ltac:(unfold u64; lia) A). unfold dret, d_store. rewrite E.
    replace ((0 <=? n) && (n <? 2 ^ 64)) with true by lia. rewrite elems_cons, elems_nil, app_nil_r. split; [reflexivity|]. split; [reflexivity|eauto].
  - exists (VInt n). unfold dec_value. cbn [val_elems got] in *. rewrite E in *. cbn [app] in A. unfold dbind.
    rewrite (At_nnTlv _ _ _ _ n _ ltac:(unfold u64; lia) A). unfold dret, d_store. rewrite E.
    replace (existsb (Z.eqb n) l) with true by (symmetry; apply existsb_exists; exists n; split; [assumption|apply Z.eqb_refl]).
    rewrite elems_cons, elems_nil, app_nil_r. split; [reflexivity|]. split; [reflexivity|eauto].
  - exists (VBytes b). unfold dec_value. cbn [val_elems got] in *. rewrite E in *. cbn [app] in A. unfold dbind.
    rewrite (At_blob _ _ _ _ _ _ A). unfold dret, d_store. rewrite E.
    rewrite elems_cons, elems_nil, app_nil_r. split; [reflexivity|]. split; [reflexivity|eauto].
  - exists (VStr (utf8 s)). unfold dec_value. cbn [val_elems got] in *. rewrite E in *. cbn [app] in A. unfold dbind.
    rewrite (At_blob _ _ _ _ _ _ A). unfold dret, d_store. rewrite E.
    rewrite elems_cons, elems_nil, app_nil_r. split; [reflexivity|]. split; [reflexivity|eauto].
  - destruct b; [|congruence]. exists (VBool true). unfold dec_value. cbn [val_elems got] in *. rewrite E in *. cbn [app] in A. unfold dbind, d_readBooleanTlv, dbind.
    rewrite (here_peek _ _ _ _ _ _ A), (At_readTL _ _ _ _ _ _ A). unfold d_skip, dret, d_store. rewrite E.
    change (elems [(f_number f, [])]) with (tlv (f_number f) [] ++ []). rewrite app_nil_r.
    split; [|split; [reflexivity|eauto]]. unfold dret. f_equal. f_equal. rewrite tlv_len. lia.
Qed.

Lemma val_split : forall v, (exists m, v = VMsg m) \/ v = VBool false \/ ((forall m, v <> VMsg m) /\ v <> VBool false).
Proof. intros [m|n|b|s|[]]; [left; eauto|right; right|right; right|right; right|right; right|right; left; reflexivity]; (split; [intros|]; discriminate). Qed.

(** A repeated field. *)
Lemma repeat_step : forall f n vs, f_label f = LRepeated -> known f -> vals_ok true writer f vs -> Forall (Pval f) vs ->
  forall fuel inp off end_ rest had, bytes_ok inp -> At inp off end_ (vals_elems writer f vs ++ rest) -> away (f_number f) rest ->
  zlen (elems (vals_elems writer f vs)) <= Z.of_nat n -> zlen (elems (vals_elems writer f vs)) < Z.of_nat fuel ->
  dec_repeat fuel
    (match f_type f with
     | TMessage t =>
         inner <~ d_readNestedTlvsStart (f_number f) ;;
         m <~ dec_fields n reader (reader t) (fresh (reader t)) inner ;;
         d_finishNestedTlvs inner false ;;;
         dret (VMsg m)
     | _ => dec_value f end_
     end) (f_number f) end_ had inp off
  = Ok (got_values common reader f had vs, off + zlen (elems (vals_elems writer f vs))).
Proof.
  intros f n vs Lb Kf O P. induction vs as [|v vs IH]; intros fuel inp off end_ rest had B A W Ln Lf.
  - cbn [vals_elems app got_values] in *. destruct fuel; cbn [dec_repeat]; unfold dbind; rewrite (away_peek _ _ _ _ _ A W); unfold dret; rewrite elems_nil, zlen_nil, Z.add_0_r; reflexivity.
  - inversion O as [|? ? ? Ov Ovs]; subst. inversion P as [|? ? [_ Pv] Pvs]; subst. cbn [vals_elems got_values] in *.
    rewrite elems_app, zlen_app in Ln, Lf |- *. rewrite <- app_assoc in A.
    pose proof (At_app _ _ _ _ _ A) as A'.
    pose proof (zlen_nonneg _ (elems (val_elems writer f v))). pose proof (zlen_nonneg _ (elems (vals_elems writer f vs))).
    destruct (val_split v) as [(m & ->)|[->|[NM NB]]].
    + inversion Ov as [? t ? E _| | | | | |]; subst.
      assert (PK : d_peekType (f_number f) end_ inp off = Ok (true, off)).
      { rewrite (elems_msg _ _ _ _ E) in A. cbn [app] in A. eapply here_peek, A. }
      destruct fuel as [|fuel]; [lia|]. cbn [dec_repeat]. unfold dbind at 1. rewrite PK. rewrite E. unfold dbind at 1.
      rewrite (sub_step _ (fun r => dret (VMsg r)) f t m n inp off end_ _ _ E Kf (Pv t E) B ltac:(lia) A (fresh_ok _ _)). unfold dret at 1.
      specialize (IH Ovs Pvs fuel inp _ end_ rest (had ++ [VMsg (got_fields common reader (common t) (fresh (reader t)) m)]) B A' W ltac:(lia)). rewrite E in IH.
      assert (2 <= zlen (elems (val_elems writer f (VMsg m)))).
      { rewrite (elems_msg _ _ _ _ E), elems_cons, elems_nil, app_nil_r.
        pose proof (tlv_len_ge (f_number f) (elems (msg_elems writer (writer t) m))). pose proof (zlen_nonneg _ (elems (msg_elems writer (writer t) m))). lia. }
      rewrite IH by lia. rewrite (got_msg _ _ _ _ _ _ E), Lb. f_equal. f_equal. lia.
    + inversion Ov as [| | | | | |? ? E]; subst.
      assert (EE : val_elems writer f (VBool false) = []) by (cbn [val_elems]; now rewrite E).
      rewrite EE in *. rewrite elems_nil, zlen_nil in *.
      replace (got common reader f had (VBool false)) with had by (cbn [got]; rewrite E, Lb; reflexivity).
      cbn [app] in A. rewrite (IH Ovs Pvs fuel inp off end_ rest had B A W ltac:(lia) ltac:(lia)). f_equal.
    + destruct (value_step f v inp off end_ _ had Kf Ov NM NB A) as (v' & D & G & (x & EE)).
      assert (PK : d_peekType (f_number f) end_ inp off = Ok (true, off)).
      { rewrite EE in A. cbn [app] in A. eapply here_peek, A. }
      assert (2 <= zlen (elems (val_elems writer f v))).
      { rewrite EE, elems_cons, elems_nil, app_nil_r. pose proof (tlv_len_ge (f_number f) x). pose proof (zlen_nonneg _ x). lia. }
      destruct fuel as [|fuel]; [lia|]. cbn [dec_repeat]. unfold dbind at 1. rewrite PK.
      assert (X : match f_type f with
                  | TMessage t => inner <~ d_readNestedTlvsStart (f_number f) ;;
                      m <~ dec_fields n reader (reader t) (fresh (reader t)) inner ;;
                      d_finishNestedTlvs inner false ;;; dret (VMsg m)
                  | _ => dec_value f end_ end = dec_value f end_).
      { destruct Ov as [? ? m| | | | | |]; [now specialize (NM m)| | | | | |]; match goal with E : f_type _ = _ |- _ => rewrite E; reflexivity end. }
      rewrite X. unfold dbind at 1. rewrite D.
      pose proof (IH Ovs Pvs fuel inp _ end_ rest (had ++ [v']) B A' W ltac:(lia) ltac:(lia)) as IH'. rewrite X in IH'. rewrite IH'.
      rewrite G, Lb. cbn [put]. f_equal. f_equal. lia.
Qed.

(** Any field. *)
Lemma field_step : forall f n vs had, known f -> label_ok true f vs -> vals_ok true writer f vs -> Forall (Pval f) vs ->
  label_ok false f had -> vals_ok false reader f had ->
  forall inp off end_ rest, bytes_ok inp -> At inp off end_ (vals_elems writer f vs ++ rest) -> away (f_number f) rest ->
  zlen (elems (vals_elems writer f vs)) <= Z.of_nat n ->
  dec_field (dec_fields n reader) reader f had end_ inp off
  = Ok (got_values common reader f had vs, off + zlen (elems (vals_elems writer f vs))).
Proof.
  intros f n vs had Kf Lb O P Lh Oh inp off end_ rest B A W Ln. unfold dec_field.
  destruct (f_label f) eqn:Ef.
  3:{ apply (repeat_step f n vs Ef Kf O P) with (rest := rest); auto.
      pose proof (At_more _ _ _ _ A) as [_ X]. rewrite elems_app in X. zl. pose proof (zlen_nonneg _ (elems rest)). unfold zlen in *. lia. }
  (* optional *)
  - unfold label_ok in Lb. rewrite Ef in Lb. destruct vs as [|v vs].
    { cbn [vals_elems app got_values] in *. unfold dbind. rewrite (away_peek _ _ _ _ _ A W). unfold dret. now rewrite elems_nil, zlen_nil, Z.add_0_r. }
    destruct vs; [|cbn [length] in Lb; lia]. inversion O as [|? ? ? Ov _]; subst. inversion P as [|? ? [_ Pv] _]; subst.
    cbn [vals_elems got_values] in *. rewrite app_nil_r in *.
    destruct (val_split v) as [(m & ->)|[->|[NM NB]]].
    + inversion Ov as [? t ? E _| | | | | |]; subst. rewrite E.
      assert (PK : d_peekType (f_number f) end_ inp off = Ok (true, off)).
      { rewrite (elems_msg _ _ _ _ E) in A. cbn [app] in A. eapply here_peek, A. }
      unfold dbind at 1. rewrite PK.
      assert (MB : msg_ok false reader (reader t) (current (reader t) had)).
      { destruct had as [|h had]; [apply fresh_ok|]. inversion Oh as [|? ? ? Hh _]; subst. inversion Hh; subst; try congruence.
        cbn [current]. congruence. }
      rewrite (sub_step _ (fun r => dret (if negb (is_nil had) || touched r then [VMsg r] else [])) f t m n inp off end_ _ _ E Kf (Pv t E) B Ln A MB).
      unfold dret. rewrite (got_msg _ _ _ _ _ _ E), Ef. reflexivity.
    + inversion Ov as [| | | | | |? ? E]; subst.
      assert (EE : val_elems writer f (VBool false) = []) by (cbn [val_elems]; now rewrite E).
      rewrite EE in *. rewrite elems_nil, zlen_nil, Z.add_0_r in *. cbn [app] in A.
      unfold dbind. rewrite (away_peek _ _ _ _ _ A W). cbn [got]. rewrite E, Ef. reflexivity.
    + destruct (value_step f v inp off end_ _ had Kf Ov NM NB A) as (v' & D & G & (x & EE)).
      assert (PK : d_peekType (f_number f) end_ inp off = Ok (true, off)).
      { rewrite EE in A. cbn [app] in A. eapply here_peek, A. }
      unfold dbind at 1. rewrite PK.
      assert (X : forall Y, match f_type f with TMessage t => Y t | _ => v0 <~ dec_value f end_ ;; dret [v0] end = (v0 <~ dec_value f end_ ;; dret [v0])).
      { intros Y. destruct Ov as [? ? m| | | | | |]; [now specialize (NM m)| | | | | |]; match goal with E : f_type _ = _ |- _ => rewrite E; reflexivity end. }
      rewrite X. unfold dbind. rewrite D. unfold dret. rewrite G, Ef. reflexivity.
  (* required *)
  - unfold label_ok in Lb. rewrite Ef in Lb. destruct Lb as [Lb NE]. specialize (NE eq_refl). destruct vs as [|v vs]; [congruence|].
    destruct vs; [|cbn [length] in Lb; lia]. inversion O as [|? ? ? Ov _]; subst. inversion P as [|? ? [_ Pv] _]; subst.
    cbn [vals_elems got_values] in *. rewrite app_nil_r in *.
    unfold dbind at 1. unfold dret at 1.
    destruct (val_split v) as [(m & ->)|[->|[NM NB]]].
    + inversion Ov as [? t ? E _| | | | | |]; subst. rewrite E.
      assert (MB : msg_ok false reader (reader t) (current (reader t) had)).
      { destruct had as [|h had]; [apply fresh_ok|]. inversion Oh as [|? ? ? Hh _]; subst. inversion Hh; subst; try congruence.
        cbn [current]. congruence. }
      rewrite (sub_step _ (fun r => dret (if negb (is_nil had) || touched r then [VMsg r] else [])) f t m n inp off end_ _ _ E Kf (Pv t E) B Ln A MB).
      unfold dret. rewrite (got_msg _ _ _ _ _ _ E), Ef. reflexivity.
    + inversion Ov as [| | | | | |? ? E]; subst.
      assert (EE : val_elems writer f (VBool false) = []) by (cbn [val_elems]; now rewrite E).
      rewrite EE in *. rewrite elems_nil, zlen_nil, Z.add_0_r in *. cbn [app] in A. rewrite E.
      unfold dec_value. rewrite E. unfold dbind, d_readBooleanTlv, dbind. rewrite (away_peek _ _ _ _ _ A W). unfold dret, d_store. rewrite E.
      cbn [got]. rewrite E, Ef. reflexivity.
    + destruct (value_step f v inp off end_ _ had Kf Ov NM NB A) as (v' & D & G & (x & EE)).
      assert (X : forall Y, match f_type f with TMessage t => Y t | _ => v0 <~ dec_value f end_ ;; dret [v0] end = (v0 <~ dec_value f end_ ;; dret [v0])).
      { intros Y. destruct Ov as [? ? m| | | | | |]; [now specialize (NM m)| | | | | |]; match goal with E : f_type _ = _ |- _ => rewrite E; reflexivity end. }
      rewrite X. unfold dbind. rewrite D. unfold dret. rewrite G, Ef. reflexivity.
Qed.

Lemma away_of : forall f es, (forall e, In e es -> fst e <> f_number f) -> away (f_number f) es.
Proof. intros. now apply Forall_forall. Qed.

Lemma read_all :
  (forall f v, val_ok true writer f v -> Pval f v) /\
  (forall f vs, vals_ok true writer f vs -> Forall (Pval f) vs /\ vals_ok true writer f vs) /\
  (forall fs m, msg_ok true writer fs m -> Pmsg fs m /\ msg_ok true writer fs m).
Proof.
  apply ok_ind.
  - intros f t m E _ [IH O]. split; [now apply (VO_msg _ _ _ t)|]. intros t' E'. rewrite E in E'. now inversion E'; subst.
  - intros f n E H. split; [now apply VO_u32|exact Logic.I].
  - intros f n E H. split; [now apply VO_u64|exact Logic.I].
  - intros f l n E H1 H2. split; [now apply (VO_enum _ _ _ l)|exact Logic.I].
  - intros f b E H. split; [now apply VO_bytes|exact Logic.I].
  - intros f s E H. split; [now apply VO_str|exact Logic.I].
  - intros f b E. split; [now apply VO_bool|exact Logic.I].
  - intros f. split; constructor.
  - intros f v vs Ov IH1 Ovs [IH2 _]. split; constructor; auto.
  - split; [|constructor]. intros k newer older n inp off end_ extra base E ND KN RQ WX L B A MB.
    symmetry in E. apply app_eq_nil in E. destruct E as [-> ->]. cbn [app msg_elems skipn length got_fields] in *.
    exists off. split; [|assumption]. eapply older_absent; eauto. now apply msg_ok_len in MB.
  - intros f vs fs m Lb Ovs [IH1 _] Om [IH2 _]. split; [|now constructor].
    intros k newer older n inp off end_ extra base E ND KN RQ WX L B A MB.
    destruct k as [|g k].
    + cbn [app length skipn got_fields] in *. subst newer. exists off. split; [|assumption].
      apply (older_absent older base n inp off end_ (msg_elems writer (f :: fs) (vs :: m) ++ extra)); auto; [|now apply msg_ok_len in MB].
      intros g Hg. apply Forall_app. split; [|exact (WX g Hg)]. apply away_of. intros e He Eq. apply msg_types in He. rewrite Eq in He.
      change ((f :: fs) ++ older) with ([] ++ (f :: fs) ++ older) in ND. cbn [app] in ND.
      change (f :: fs ++ older) with ((f :: fs) ++ older) in ND.
      rewrite map_app in ND.
      apply in_split in He. destruct He as (l1 & l2 & El). rewrite El in ND.
      rewrite <- app_assoc in ND. cbn [app] in ND. apply NoDup_remove_2 in ND. apply ND.
      rewrite app_assoc. apply in_or_app. right. now apply in_map.
    + cbn [app] in E. inversion E; subst g fs. clear E. cbn [app] in ND, KN, WX. cbn [msg_elems] in L, A.
      inversion MB as [|? had ? base' Lh Oh MB']; subst. cbn [dec_list hd tl got_fields length skipn app].
      rewrite elems_app, zlen_app in L. rewrite <- app_assoc in A.
      pose proof (zlen_nonneg _ (elems (vals_elems writer f vs))). pose proof (zlen_nonneg _ (elems (msg_elems writer (k ++ newer) m))).
      inversion ND as [|? ? NI ND']; subst. inversion KN as [|? ? Kf KN']; subst.
      assert (W : away (f_number f) (msg_elems writer (k ++ newer) m ++ extra)).
      { apply Forall_app. split; [|apply WX; now left]. apply away_of. intros e He Eq. apply msg_types in He. rewrite Eq in He.
        apply NI. rewrite !map_app in *. rewrite !in_app_iff in *. tauto. }
      unfold dbind at 1. rewrite (field_step f n vs had Kf Lb Ovs IH1 Lh Oh inp off end_ _ B A W ltac:(lia)).
      pose proof (At_app _ _ _ _ _ A) as A'.
      destruct (IH2 k newer older n inp _ end_ extra base' eq_refl ND' KN' RQ (fun g Hg => WX g (or_intror Hg)) ltac:(lia) B A' MB') as (off' & D & A2).
      exists off'. split; [|assumption]. unfold dbind. rewrite D. reflexivity.
Qed.
End Read.
