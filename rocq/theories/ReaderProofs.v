(** * Lemmas about stream reassembly. *)
From Verif Require Import Base BaseLemmas TlvModel TlvSpec TlvProofs ReaderModel ReaderSpec.
From Coq Require Import ZifyBool.
Local Open Scope res_scope.

(** ** The grammar is prefix-free *)
Lemma var_form_prefix_free : forall n a m b r s, var_form n a -> var_form m b -> a ++ r = b ++ s -> a = b /\ r = s /\ n = m.
Proof.
  intros n a m b r s Ha Hb E.
  assert (K : zlen a = zlen b).
  { inversion Ha; subst; inversion Hb; subst; cbn [app] in E; inversion E; subst; try lia; zl; unfold zlen; try lia. }
  destruct (app_eq_len _ _ _ _ _ E K) as [-> ->]. split; [reflexivity|]. split; [reflexivity|].
  inversion Ha; subst; inversion Hb; subst; try reflexivity; try lia;
    repeat match goal with H : _ :: _ = _ :: _ |- _ => inversion H; subst; clear H end; try lia; try reflexivity; cbn [length] in *; try discriminate.
Qed.

Lemma element_prefix_free : forall a b r s, element a -> element b -> a ++ r = b ++ s -> a = b /\ r = s.
Proof.
  intros a b r s (t & tb & lb & v & Ht & Hl & ->) (t' & tb' & lb' & v' & Ht' & Hl' & ->) E.
  rewrite <- !app_assoc in E.
  destruct (var_form_prefix_free _ _ _ _ _ _ Ht Ht' E) as (-> & E2 & _).
  destruct (var_form_prefix_free _ _ _ _ _ _ Hl Hl' E2) as (-> & E3 & L).
  destruct (app_eq_len _ _ _ _ _ E3 L) as [-> ->]. auto.
Qed.

Lemma element_nonempty : forall e, element e -> e <> [].
Proof.
  intros e (t & tb & lb & v & Ht & Hl & ->) E. apply app_eq_nil in E. destruct E as [-> _]. inversion Ht.
Qed.

(** An incomplete text does not begin with an element. *)
Lemma incomplete_no_element : forall p e r, incomplete p -> element e -> p = e ++ r -> False.
Proof.
  intros p e r (s & N & H) He ->. rewrite <- app_assoc in H.
  destruct (element_prefix_free e (e ++ r ++ s) (r ++ s) [] He H) as [_ E]; [rewrite app_nil_r; reflexivity|].
  apply app_eq_nil in E. destruct E as [_ ->]. congruence.
Qed.

Lemma concat_unique : forall es es' p p', Forall element es -> Forall element es' -> incomplete p -> incomplete p' ->
  concat es ++ p = concat es' ++ p' -> es = es' /\ p = p'.
Proof.
  induction es as [|e es IH]; intros es' p p' H H' Hp Hp' E; destruct es' as [|e' es']; cbn [concat app] in E.
  - auto.
  - exfalso. rewrite <- app_assoc in E. exact (incomplete_no_element _ _ _ Hp (Forall_inv H') E).
  - exfalso. rewrite <- app_assoc in E. symmetry in E. exact (incomplete_no_element _ _ _ Hp' (Forall_inv H) E).
  - rewrite <- !app_assoc in E.
    destruct (element_prefix_free _ _ _ _ (Forall_inv H) (Forall_inv H') E) as [-> E2].
    destruct (IH es' p p' (Forall_inv_tail H) (Forall_inv_tail H') Hp Hp' E2) as [-> ->]. auto.
Qed.

(** Some of the elements delivered, then a pending part, inside a longer parse. *)
Lemma concat_split : forall es1 es p rest t, Forall element es1 -> Forall element es -> incomplete p -> incomplete t ->
  concat es1 ++ p ++ rest = concat es ++ t ->
  exists es2, es = es1 ++ es2 /\ p ++ rest = concat es2 ++ t.
Proof.
  induction es1 as [|e es1 IH]; intros es p rest t H1 H Hp Ht E.
  - exists es. auto.
  - cbn [concat app] in E. rewrite <- app_assoc in E. destruct es as [|e' es]; cbn [concat app] in E.
    + exfalso. symmetry in E. exact (incomplete_no_element _ _ _ Ht (Forall_inv H1) E).
    + rewrite <- app_assoc in E.
      destruct (element_prefix_free _ _ _ _ (Forall_inv H1) (Forall_inv H) E) as [-> E2].
      destruct (IH es p rest t (Forall_inv_tail H1) (Forall_inv_tail H) Hp Ht E2) as (es2 & -> & E3). exists es2. auto.
Qed.

Lemma pending_bound : forall es p rest t M, Forall element es -> Forall (fun e => zlen e <= M) es -> incomplete p ->
  zlen t <= M -> p ++ rest = concat es ++ t -> zlen p <= M.
Proof.
  intros es p rest t M H L Hp Ht E. destruct es as [|e es]; cbn [concat app] in E.
  - assert (zlen (p ++ rest) = zlen t) by now rewrite E. zlia.
  - pose proof (Forall_inv H) as He. pose proof (Forall_inv L) as Le. cbn beta in Le. destruct (Z_le_gt_dec (zlen p) (zlen e)) as [K|K]; [lia|]. exfalso.
    rewrite <- app_assoc in E.
    assert (F : firstn (length e) p = e).
    { transitivity (firstn (length e) (p ++ rest)).
      - rewrite firstn_app. replace (length e - length p)%nat with 0%nat by (unfold zlen in K; lia).
        cbn [firstn]. now rewrite app_nil_r.
      - rewrite E, firstn_app, firstn_all, Nat.sub_diag. cbn [firstn]. apply app_nil_r. }
    eapply (incomplete_no_element p e (skipn (length e) p)); [assumption|assumption|]. rewrite <- F at 1. symmetry. apply firstn_skipn.
Qed.

(** ** State of the structure decoder after consuming [c] bytes of an element *)
Definition ext_ok (fo : Z) (k : Z) : Prop := (fo = 253 /\ k = 2) \/ (fo = 254 /\ k = 4) \/ (fo = 255 /\ k = 8).

Lemma ext_form : forall fo k l, ext_ok fo k -> bytes_ok l -> zlen l = k -> var_form (be_value l) (fo :: l).
Proof.
  intros fo k l H B L. unfold zlen in L. destruct H as [[-> ->]|[[-> ->]|[-> ->]]]; constructor; auto; lia.
Qed.
Lemma extSize_ok : forall fo, is_byte fo -> 253 <= fo -> ext_ok fo (sd_extSize fo).
Proof.
  unfold is_byte, ext_ok, sd_extSize. intros. destruct (fo =? 253) eqn:?; [lia|]. destruct (fo =? 254) eqn:?; lia.
Qed.

Definition R (s : sdec) (c : bytes) : Prop :=
  sd_got s = false /\ zlen (sd_header s) = 8 /\
  (sd_state s < 3 -> sd_hlen s = 0 /\ sd_useHeader s = false) /\
  ((sd_state s = 0 /\ c = [])
  \/ (sd_state s = 1 /\ exists fo k l, ext_ok fo k /\ bytes_ok l /\ c = fo :: l /\ sd_n s = k - zlen l /\ 0 < sd_n s)
  \/ (sd_state s = 2 /\ exists t, var_form t c)
  \/ (sd_state s = 3 /\ exists t tb h, var_form t tb /\ bytes_ok h /\ c = tb ++ sd_first s :: h /\
        ext_ok (sd_first s) (sd_n s) /\ sd_hlen s = zlen h /\ zlen h < sd_n s /\
        (if sd_useHeader s then firstn (length h) (sd_header s) = h else h = []))
  \/ (sd_state s = 4 /\ exists t tb n lb v, var_form t tb /\ var_form n lb /\ c = tb ++ lb ++ v /\
        sd_n s = n - zlen v /\ 0 < sd_n s)).

Lemma bytes_ok_repeat0 : forall k, bytes_ok (repeat 0 k).
Proof. intros. apply Forall_forall. intros x H. apply repeat_spec in H. subst. unfold is_byte. lia. Qed.
Lemma zlen_repeat : forall A (x : A) k, zlen (repeat x k) = Z.of_nat k.
Proof. intros. unfold zlen. now rewrite repeat_length. Qed.

Lemma zero_form : var_form 0 [0].
Proof. constructor; unfold is_byte; lia. Qed.

Lemma R_incomplete : forall s c, R s c -> incomplete c.
Proof.
  intros s c (_ & _ & _ & [[_ ->]|[(_ & fo & k & l & X & B & -> & N & P)|[(_ & t & F)|[(_ & t & tb & h & F & B & -> & X & _ & L & _)|(_ & t & tb & n & lb & v & F & F2 & -> & N & P)]]]]).
  - exists [0; 0]. split; [discriminate|]. exists 0, [0], [0], []. split; [apply zero_form|]. split; [apply zero_form|reflexivity].
  - exists (repeat 0 (Z.to_nat (sd_n s)) ++ [0]). split; [destruct (repeat 0 (Z.to_nat (sd_n s))); discriminate|].
    exists (be_value (l ++ repeat 0 (Z.to_nat (sd_n s)))), (fo :: l ++ repeat 0 (Z.to_nat (sd_n s))), [0], []. split.
    + eapply ext_form; [exact X| |].
      * apply bytes_ok_app. split; [assumption|apply bytes_ok_repeat0].
      * zl. rewrite zlen_repeat. lia.
    + split; [apply zero_form|]. cbn [app]. now rewrite <- app_assoc.
  - exists [0]. split; [discriminate|]. exists t, c, [0], []. split; [assumption|]. split; [apply zero_form|reflexivity].
  - set (h2 := repeat 0 (Z.to_nat (sd_n s - zlen h))).
    assert (L2 : zlen (h ++ h2) = sd_n s) by (unfold h2; zl; rewrite zlen_repeat; lia).
    set (v := repeat 0 (Z.to_nat (be_value (h ++ h2)))).
    assert (F2 : var_form (be_value (h ++ h2)) (sd_first s :: h ++ h2)).
    { eapply ext_form; [exact X| |exact L2]. apply bytes_ok_app. split; [assumption|apply bytes_ok_repeat0]. }
    exists (h2 ++ v). split.
    + intros E. apply app_eq_nil in E. destruct E as [E _]. rewrite E, app_nil_r in L2. lia.
    + exists t, tb, (sd_first s :: h ++ h2), v. split; [assumption|]. split.
      * replace (zlen v) with (be_value (h ++ h2)); [assumption|].
        apply var_form_u64 in F2. unfold u64 in F2. unfold v. rewrite zlen_repeat. lia.
      * rewrite <- !app_assoc. cbn [app]. now rewrite <- app_assoc.
  - exists (repeat 0 (Z.to_nat (sd_n s))). split.
    + intros E. apply (f_equal zlen) in E. rewrite zlen_repeat in E. unfold zlen in E; cbn in E. lia.
    + exists t, tb, lb, (v ++ repeat 0 (Z.to_nat (sd_n s))). split; [assumption|]. split.
      * replace (zlen (v ++ _)) with n; [assumption|]. zl. rewrite zlen_repeat. lia.
      * now rewrite <- !app_assoc.
Qed.

(** ** One loop of findElementEnd *)
Lemma readExt : forall fo k pre l rest, ext_ok fo k -> zlen l = k ->
  d_readExtendedVarNumber fo (pre ++ l ++ rest) (zlen pre) = Ok (be_value l, zlen pre + k).
Proof.
  intros fo k pre l rest H L. unfold zlen in L.
  unfold d_readExtendedVarNumber. destruct H as [[-> ->]|[[-> ->]|[-> ->]]]; cbn [Z.eqb Pos.eqb]; rewrite read_be_app by lia; reflexivity.
Qed.

Lemma split_at : forall (l : bytes) k, 0 <= k <= zlen l -> exists a b, l = a ++ b /\ zlen a = k.
Proof.
  intros l k H. exists (firstn (Z.to_nat k) l), (skipn (Z.to_nat k) l). split; [symmetry; apply firstn_skipn|].
  rewrite zlen_firstn. lia.
Qed.

Lemma slice_assign_hdr : forall a i v, 0 <= i -> i + zlen v <= zlen a ->
  zlen (py_slice_assign a i (i + zlen v) v) = zlen a /\
  firstn (Z.to_nat (i + zlen v)) (py_slice_assign a i (i + zlen v) v) = firstn (Z.to_nat i) a ++ v.
Proof.
  intros a i v Hi Hv. unfold py_slice_assign, py_bound.
  replace (i <? 0) with false by lia. replace (i + zlen v <? 0) with false by zlia.
  replace (Z.max 0 (Z.min i (zlen a))) with i by zlia.
  replace (Z.max i (Z.max 0 (Z.min (i + zlen v) (zlen a)))) with (i + zlen v) by zlia.
  split.
  - zl. rewrite zlen_firstn, zlen_skipn. zlia.
  - rewrite app_assoc. rewrite firstn_app.
    replace (Z.to_nat (i + zlen v) - length (firstn (Z.to_nat i) a ++ v))%nat with 0%nat.
    2:{ rewrite app_length, firstn_length. unfold zlen in *. lia. }
    cbn [firstn]. rewrite app_nil_r. apply firstn_all2. rewrite app_length, firstn_length. unfold zlen in *. lia.
Qed.

Definition outcome (c0 input : bytes) (r : res (bool * sdec)) : Prop :=
  (exists s', r = Ok (false, s') /\ R s' (c0 ++ input))
  \/ (exists s' e rest, r = Ok (true, s') /\ input = e ++ rest /\ sd_offset s' = zlen e /\ element (c0 ++ e)).

Lemma app_cons_assoc : forall (a : bytes) x b, a ++ x :: b = (a ++ [x]) ++ b.
Proof. intros. rewrite <- app_assoc. reflexivity. Qed.

Lemma byte_at_zlen : forall pre x rest o, o = zlen pre -> byte_at (pre ++ x :: rest) o = Ok x.
Proof. intros. subst. apply byte_at_app. Qed.

Ltac sdc := unfold READ_TYPE, READ_TYPE_BYTES, READ_LENGTH, READ_LENGTH_BYTES, READ_VALUE_BYTES; cbn [sd_got sd_offset sd_state sd_hlen sd_useHeader sd_header sd_n sd_first sd_setOffset sd_setState sd_setN sd_setGot sd_setFirst sd_setHeader].

Lemma sd_loop_ok : forall fuel s c0 pre rest, bytes_ok (pre ++ rest) -> sd_offset s = zlen pre -> R s (c0 ++ pre) ->
  (Z.to_nat (5 - sd_state s) < fuel)%nat -> outcome c0 (pre ++ rest) (sd_loop fuel (pre ++ rest) s).
Proof.
  induction fuel as [|fuel IH]; intros s c0 pre rest B O HR F; [lia|].
  cbn [sd_loop]. rewrite O. destruct (zlen (pre ++ rest) <=? zlen pre) eqn:E.
  { assert (rest = []) by (apply zlen_zero; zlia). subst. rewrite app_nil_r. left. exists s. auto. }
  destruct rest as [|x rest]; [rewrite app_nil_r in E; lia|]. clear E.
  assert (Bx : is_byte x) by (apply bytes_ok_app in B; destruct B as [_ B]; inversion B; assumption).
  assert (Br : bytes_ok (x :: rest)) by (apply bytes_ok_app in B; tauto).
  destruct HR as (G & HL & HH & HR).
  assert (REM : zlen (pre ++ x :: rest) - zlen pre = zlen (x :: rest)) by zlia.
  unfold sd_step. rewrite O, REM.
  destruct HR as [[S C]|[(S & fo & k & l & X & BL & C & N & P)|[(S & t & VF)|[(S & t & tb & h & VF & BH & C & X & HLn & LT & UH)|(S & t & tb & n & lb & v & VF & VF2 & C & N & P)]]]];
    rewrite S; cbn [Z.eqb Pos.eqb READ_TYPE READ_TYPE_BYTES READ_LENGTH READ_LENGTH_BYTES READ_VALUE_BYTES].
  - (* READ_TYPE *)
    rewrite byte_at_app. cbn [rbind]. rewrite app_cons_assoc.
    assert (B' : bytes_ok ((pre ++ [x]) ++ rest)) by (rewrite <- app_cons_assoc; assumption).
    assert (C' : c0 ++ pre ++ [x] = [x]) by (rewrite app_assoc, C; reflexivity).
    destruct HH as [H1 H2]; [lia|].
    destruct (x <? 253) eqn:E.
    + apply IH; [exact B'|sdc; zlia| |sdc; lia]. rewrite C'.
      split; [exact G|]. split; [exact HL|]. split; [sdc; auto|]. right. right. left. split; [reflexivity|].
      exists x. constructor; [assumption|lia].
    + apply IH; [exact B'|sdc; zlia| |sdc; lia]. rewrite C'.
      split; [exact G|]. split; [exact HL|]. split; [sdc; auto|]. right. left. split; [reflexivity|].
      exists x, (sd_extSize x), []. split; [apply extSize_ok; [assumption|lia]|]. split; [constructor|]. split; [reflexivity|].
      sdc. split; [zlia|]. unfold sd_extSize. destruct (x =? 253); [sdc; lia|]. destruct (x =? 254); sdc; lia.
  - (* READ_TYPE_BYTES *)
    destruct (zlen (x :: rest) <? sd_n s) eqn:E; cbn [rbind].
    + left. eexists. split; [reflexivity|]. split; [exact G|]. split; [exact HL|]. split; [sdc; intros; apply HH; lia|].
      right. left. sdc. rewrite S. split; [reflexivity|]. exists fo, k, (l ++ x :: rest). split; [exact X|].
      split; [apply bytes_ok_app; auto|]. rewrite app_assoc, C. split; [reflexivity|]. zl. lia.
    + destruct (split_at (x :: rest) (sd_n s)) as (a & b & Eab & La); [zlia|]. rewrite Eab in *. rewrite app_assoc in *.
      apply IH; [exact B|sdc; zlia| |sdc; lia].
      split; [exact G|]. split; [exact HL|]. split; [sdc; intros; apply HH; lia|].
      right. right. left. split; [reflexivity|]. rewrite app_assoc, C. exists (be_value (l ++ a)). cbn [app].
      eapply ext_form; [exact X| |zlia]. apply bytes_ok_app. split; [assumption|]. apply bytes_ok_app in Br. tauto.
  - (* READ_LENGTH *)
    rewrite byte_at_app. cbn [rbind]. rewrite app_cons_assoc.
    assert (B' : bytes_ok ((pre ++ [x]) ++ rest)) by (rewrite <- app_cons_assoc; assumption).
    destruct HH as [H1 H2]; [lia|].
    destruct (x <? 253) eqn:E.
    + assert (VX : var_form x [x]) by (constructor; [assumption|lia]).
      unfold sd_afterLength. cbn [sd_n sd_setN]. destruct (x =? 0) eqn:E0; cbn [rbind].
      * right. eexists _, (pre ++ [x]), rest. split; [reflexivity|]. split; [reflexivity|]. split; [sdc; zlia|].
        rewrite app_assoc. exists t, (c0 ++ pre), [x], []. split; [assumption|]. split; [|reflexivity].
        rewrite zlen_nil. replace 0 with x by lia. exact VX.
      * apply IH; [exact B'|sdc; zlia| |sdc; lia]. split; [exact G|]. split; [exact HL|]. split; [sdc; intros; lia|].
        right. right. right. right. split; [reflexivity|]. exists t, (c0 ++ pre), x, [x], [].
        split; [assumption|]. split; [exact VX|]. split; [rewrite app_assoc; reflexivity|]. sdc. unfold is_byte in Bx. zlia.
    + cbn [rbind]. apply IH; [exact B'|sdc; zlia| |sdc; lia]. split; [exact G|]. split; [exact HL|]. split; [sdc; intros; lia|].
      right. right. right. left. split; [reflexivity|]. exists t, (c0 ++ pre), []. split; [assumption|]. split; [constructor|].
      split; [sdc; rewrite app_assoc; reflexivity|]. sdc. rewrite H1, H2.
      split; [apply extSize_ok; [assumption|lia]|]. split; [reflexivity|]. split; [|reflexivity].
      unfold sd_extSize. destruct (x =? 253); [zlia|]. destruct (x =? 254); zlia.
  - (* READ_LENGTH_BYTES *)
    assert (N8 : sd_n s <= 8) by (destruct X as [[_ ->]|[[_ ->]|[_ ->]]]; lia).
    assert (AFTER : forall a b n (s' : sdec), x :: rest = a ++ b -> zlen (h ++ a) = sd_n s -> n = be_value (h ++ a) ->
       sd_got s' = false -> zlen (sd_header s') = 8 -> sd_n s' = n -> sd_offset s' = zlen pre + zlen a ->
       outcome c0 (pre ++ x :: rest) (match sd_afterLength s' with inl y => Ok y | inr s'' => sd_loop fuel (pre ++ x :: rest) s'' end)).
    { intros a b n s' Eab La -> G' H8 Hn Ho.
      assert (Ba : bytes_ok a) by (rewrite Eab in Br; apply bytes_ok_app in Br; tauto).
      assert (VL : var_form (be_value (h ++ a)) (sd_first s :: h ++ a)) by (eapply ext_form; [exact X|apply bytes_ok_app; auto|exact La]).
      unfold sd_afterLength. rewrite Hn. destruct (be_value (h ++ a) =? 0) eqn:E0.
      - right. eexists _, (pre ++ a), b. split; [reflexivity|]. rewrite Eab. split; [now rewrite app_assoc|]. split; [sdc; zlia|].
        exists t, tb, (sd_first s :: h ++ a), []. split; [assumption|]. rewrite zlen_nil. replace 0 with (be_value (h ++ a)) by lia.
        split; [exact VL|]. rewrite app_assoc, C, app_nil_r, <- app_assoc. reflexivity.
      - rewrite Eab in *. rewrite (app_assoc pre) in *. apply IH; [exact B|sdc; zlia| |sdc; lia].
        split; [exact G'|]. split; [exact H8|]. split; [sdc; intros; lia|].
        right. right. right. right. split; [reflexivity|]. exists t, tb, (be_value (h ++ a)), (sd_first s :: h ++ a), [].
        split; [assumption|]. split; [exact VL|]. split; [rewrite app_assoc, C, app_nil_r, <- app_assoc; reflexivity|].
        sdc. rewrite Hn. apply var_form_u64 in VL. unfold u64 in VL. zlia. }
    destruct (negb (sd_useHeader s) && (sd_n s <=? zlen (x :: rest))) eqn:E.
    + apply andb_true_iff in E. destruct E as [E1 E2]. apply negb_true_iff in E1. rewrite E1 in UH. subst h.
      destruct (split_at (x :: rest) (sd_n s)) as (a & b & Eab & La); [rewrite zlen_nil in LT; lia|].
      pose proof (readExt _ _ pre a b X La) as RE. rewrite <- Eab in RE. rewrite RE. cbn [rbind].
      eapply (AFTER a b); [exact Eab|exact La|reflexivity|exact G|exact HL|reflexivity|sdc; lia].
    + assert (UH' : firstn (length h) (sd_header s) = h).
      { destruct (sd_useHeader s); [assumption|]. subst h. reflexivity. }
      clear UH E. rewrite HLn in *.
      destruct (zlen (x :: rest) <? sd_n s - zlen h) eqn:E.
      * replace (zlen (sd_header s) <? zlen h + zlen (x :: rest)) with false by lia.
        rewrite <- REM at 1 2 3. cbn [rbind].
        assert (SL : zslice (pre ++ x :: rest) (zlen pre) (zlen pre + zlen (x :: rest)) = x :: rest).
        { pose proof (zslice_app _ pre (x :: rest) []) as Q. rewrite app_nil_r in Q. exact Q. }
        rewrite REM, SL. left. eexists. split; [reflexivity|].
        destruct (slice_assign_hdr (sd_header s) (zlen h) (x :: rest)) as [HA HB]; [apply zlen_nonneg|lia|].
        split; [exact G|]. split; [cbn [sd_header sd_setHeader sd_setOffset]; rewrite HA; exact HL|]. split; [sdc; intros; lia|].
        right. right. right. left. cbn [sd_state sd_setHeader sd_setOffset]. split; [exact S|].
        exists t, tb, (h ++ x :: rest). split; [assumption|]. split; [apply bytes_ok_app; auto|].
        cbn [sd_first sd_n sd_hlen sd_useHeader sd_header sd_setHeader sd_setOffset].
        split; [rewrite app_assoc, C, <- app_assoc; reflexivity|]. split; [exact X|]. split; [zlia|]. split; [zlia|].
        replace (length (h ++ x :: rest)) with (Z.to_nat (zlen h + zlen (x :: rest))) by (rewrite app_length; unfold zlen; lia).
        rewrite HB. unfold zlen at 1. rewrite Nat2Z.id, UH'. reflexivity.
      * replace (zlen (sd_header s) <? zlen h + (sd_n s - zlen h)) with false by lia.
        destruct (split_at (x :: rest) (sd_n s - zlen h)) as (a & b & Eab & La); [lia|].
        assert (SL : zslice (pre ++ x :: rest) (zlen pre) (zlen pre + (sd_n s - zlen h)) = a).
        { rewrite Eab, <- La. apply zslice_app. }
        rewrite SL. replace (zlen h + (sd_n s - zlen h)) with (zlen h + zlen a) by lia.
        destruct (slice_assign_hdr (sd_header s) (zlen h) a) as [HA HB]; [apply zlen_nonneg|lia|].
        set (H' := py_slice_assign (sd_header s) (zlen h) (zlen h + zlen a) a) in *.
        assert (EH : H' = [] ++ (h ++ a) ++ skipn (Z.to_nat (zlen h + zlen a)) H').
        { rewrite <- (firstn_skipn (Z.to_nat (zlen h + zlen a)) H') at 1. rewrite HB. unfold zlen at 1. rewrite Nat2Z.id, UH'. reflexivity. }
        assert (La' : zlen (h ++ a) = sd_n s) by zlia. pose proof (readExt _ _ [] (h ++ a) (skipn (Z.to_nat (zlen h + zlen a)) H') X La') as RE.
        rewrite <- EH, zlen_nil in RE. rewrite RE. cbn [rbind].
        eapply (AFTER a b); [exact Eab|zlia|reflexivity|exact G| |reflexivity|sdc; lia].
        cbn [sd_header sd_setN sd_setHeader]. rewrite HA. exact HL.
  - (* READ_VALUE_BYTES *)
    destruct (zlen (x :: rest) <? sd_n s) eqn:E; cbn [rbind].
    + left. eexists. split; [reflexivity|]. split; [exact G|]. split; [exact HL|]. split; [sdc; intros; lia|].
      right. right. right. right. sdc. split; [exact S|]. exists t, tb, n, lb, (v ++ x :: rest).
      split; [assumption|]. split; [assumption|]. rewrite app_assoc, C, <- !app_assoc. split; [reflexivity|]. zl. lia.
    + destruct (split_at (x :: rest) (sd_n s)) as (a & b & Eab & La); [zlia|].
      right. eexists _, (pre ++ a), b. split; [reflexivity|]. rewrite Eab. split; [now rewrite app_assoc|].
      split; [sdc; zlia|]. rewrite app_assoc, C. exists t, tb, lb, (v ++ a). split; [assumption|].
      split; [replace (zlen (v ++ a)) with n by zlia; assumption|]. now rewrite <- !app_assoc.
Qed.

Lemma R_new : R (sd_setOffset 0 sd_new) [].
Proof. split; [reflexivity|]. split; [reflexivity|]. split; [cbn; auto|]. left. cbn. auto. Qed.

Lemma findEnd_ok : forall s c input, bytes_ok input -> R s c ->
  outcome c input (sd_findElementEnd input (sd_setOffset 0 s)).
Proof.
  intros s c input B HR. unfold sd_findElementEnd.
  assert (G : sd_got (sd_setOffset 0 s) = false) by (cbn; apply HR). rewrite G.
  change input with ([] ++ input). apply sd_loop_ok; [exact B|reflexivity| |].
  - rewrite app_nil_r. exact HR.
  - destruct HR as (_ & _ & _ & HR). sdc. assert (0 <= sd_state s) by (decompose [and or] HR; lia). lia.
Qed.

(** ** The element reader *)
Lemma dba_copy_prefix : forall a v len, 0 <= len <= zlen a ->
  zslice (dba_copy a v len) 0 (len + zlen v) = firstn (Z.to_nat len) a ++ v /\ len + zlen v <= zlen (dba_copy a v len).
Proof.
  intros a v len H. unfold dba_copy.
  assert (K : exists a', dba_ensureLength a (len + zlen v) = a ++ a' /\ len + zlen v <= zlen (a ++ a')).
  { unfold dba_ensureLength. destruct (len + zlen v <=? zlen a) eqn:E.
    - exists []. rewrite app_nil_r. split; [reflexivity|lia].
    - set (m := if zlen a * 2 <? len + zlen v then len + zlen v else zlen a * 2).
      assert (M : len + zlen v <= m /\ zlen a <= m) by (unfold m; destruct (zlen a * 2 <? len + zlen v) eqn:?; zlia).
      unfold py_slice_assign, py_bound, py_bytearray. rewrite zlen_repeat.
      replace (0 <? 0) with false by lia. replace (zlen a <? 0) with false by zlia.
      replace (Z.to_nat (Z.max 0 (Z.min 0 (Z.of_nat (Z.to_nat m))))) with 0%nat by zlia. cbn [firstn app].
      eexists. split; [reflexivity|]. zl. rewrite zlen_skipn, zlen_repeat. zlia. }
  destruct K as (a' & -> & L).
  destruct (slice_assign_hdr (a ++ a') len v) as [HA HB]; [lia|lia|].
  split; [|rewrite HA; exact L].
  unfold zslice. rewrite HA. rewrite Z.min_l by lia. replace (Z.to_nat (Z.min 0 _)) with 0%nat by zlia. cbn [skipn].
  rewrite Z.sub_0_r, HB. rewrite firstn_app. replace (Z.to_nat len - length a)%nat with 0%nat by (unfold zlen in *; lia).
  cbn [firstn]. now rewrite app_nil_r.
Qed.

(** The reader holds the pending bytes [p] (the array can hold anything when not in use). *)
Definition fresh (st : er) : Prop := er_use st = false /\ er_sd st = sd_new.
Definition I (st : er) (p : bytes) : Prop :=
  (fresh st /\ p = []) \/
  (er_use st = true /\ R (er_sd st) p /\ er_len st = zlen p /\ zlen p <= zlen (er_partial st) /\
   firstn (length p) (er_partial st) = p /\ zlen p <= MAX_NDN_PACKET_SIZE).

Lemma I_R : forall st p, I st p -> R (er_sd st) p.
Proof.
  intros st p [[[_ ->] ->]|(_ & H & _)]; [|exact H].
  split; [reflexivity|]. split; [reflexivity|]. split; [cbn; auto|]. left. cbn. auto.
Qed.

Section Run.
Variable listen : bytes -> option exn.
Hypothesis quiet : forall e, listen e = None.

(** One call, given the parse of pending bytes and data. *)
Lemma er_call : forall fuel st p data, bytes_ok data -> I st p -> (length data < fuel)%nat ->
  exists es p' st', p ++ data = concat es ++ p' /\ Forall element es /\ incomplete p' /\
    er_loop listen fuel st data =
      (st', es, if MAX_NDN_PACKET_SIZE <? zlen p' then Some ValueError else None) /\
    (if MAX_NDN_PACKET_SIZE <? zlen p' then fresh st' else I st' p').
Proof.
  induction fuel as [|fuel IH]; intros st p data B HI F; [lia|]. cbn [er_loop].
  destruct (negb (er_use st) && (zlen data <=? 0)) eqn:E0.
  { apply andb_true_iff in E0. destruct E0 as [E1 E2]. apply negb_true_iff in E1.
    assert (data = []) by (apply zlen_zero; zlia). subst data.
    destruct HI as [[Hf ->]|[H _]]; [|congruence].
    exists [], [], st. split; [reflexivity|]. split; [constructor|].
    split; [exact (R_incomplete _ _ R_new)|]. split; [reflexivity|]. left. auto. }
  pose proof (I_R _ _ HI) as HR.
  destruct (findEnd_ok _ _ _ B HR) as [(s' & Ef & HR')|(s' & e & rest & Ef & Ed & Eo & He)]; rewrite Ef.
  - (* not complete *)
    exists [], (p ++ data). set (len := if er_use st then er_len st else 0).
    assert (EL : len = zlen p).
    { unfold len. destruct HI as [[[-> _] ->]|(-> & _ & -> & _)]; reflexivity. }
    replace (len + zlen data) with (zlen (p ++ data)) by zlia.
    destruct (MAX_NDN_PACKET_SIZE <? zlen (p ++ data)) eqn:EM.
    + eexists. split; [reflexivity|]. split; [constructor|]. split; [exact (R_incomplete _ _ HR')|].
      split; [reflexivity|]. split; reflexivity.
    + eexists. split; [reflexivity|]. split; [constructor|]. split; [exact (R_incomplete _ _ HR')|].
      split; [reflexivity|]. right. cbn [er_use er_sd er_len er_partial].
      assert (LP : 0 <= len <= zlen (er_partial st)).
      { rewrite EL. destruct HI as [[_ ->]|(_ & _ & _ & L & _)]; zlia. }
      destruct (dba_copy_prefix (er_partial st) data len LP) as [HA HB].
      rewrite EL in *. split; [reflexivity|]. split; [exact HR'|]. split; [reflexivity|]. split; [zlia|]. split; [|lia].
      assert (FP : firstn (Z.to_nat (zlen p)) (er_partial st) = p).
      { unfold zlen. rewrite Nat2Z.id. destruct HI as [[_ ->]|(_ & _ & _ & _ & K & _)]; [reflexivity|exact K]. }
      rewrite FP in HA. rewrite <- HA at 2. unfold zslice. rewrite Z.min_l by lia.
      replace (Z.to_nat (Z.min 0 _)) with 0%nat by zlia. cbn [skipn]. f_equal. rewrite app_length. unfold zlen. lia.
  - (* an element *)
    set (pr := if er_use st then _ else _).
    assert (EPR : exists st1, pr = (p ++ e, st1) /\ fresh st1).
    { unfold pr. rewrite Eo.
      assert (SL : zslice data 0 (zlen e) = e) by (rewrite Ed; apply (zslice_app _ [] e rest)).
      rewrite SL. destruct HI as [[[-> Hs] ->]|(-> & _ & EL & LP & FP & _)].
      - eexists. split; [reflexivity|]. split; reflexivity.
      - destruct (dba_copy_prefix (er_partial st) e (er_len st)) as [HA HB]; [zlia|].
        rewrite HA, EL. unfold zlen at 1. rewrite Nat2Z.id, FP. eexists. split; [reflexivity|]. split; reflexivity. }
    destruct EPR as (st1 & -> & Hf). rewrite quiet.
    assert (SL2 : zslice data (sd_offset s') (zlen data) = rest).
    { rewrite Eo, Ed. pose proof (zslice_app _ e rest []) as Q. rewrite app_nil_r in Q. rewrite zlen_app. exact Q. }
    rewrite SL2. clear SL2. destruct (zlen rest =? 0) eqn:Er.
    + assert (rest = []) by (apply zlen_zero; lia). subst rest. exists [p ++ e], [], st1.
      split; [cbn [concat]; rewrite Ed, !app_nil_r; reflexivity|]. split; [constructor; [exact He|constructor]|].
      split; [exact (R_incomplete _ _ R_new)|]. split; [reflexivity|]. left. auto.
    + assert (NE : e <> []).
      { intros ->. rewrite app_nil_r in He. eapply incomplete_no_element; [exact (R_incomplete _ _ HR)|exact He|]. symmetry. apply app_nil_r. }
      destruct (IH st1 [] rest) as (es & p' & st' & E & Hes & Hp & El & HI').
      * rewrite Ed in B. apply bytes_ok_app in B. tauto.
      * left. auto.
      * rewrite Ed, app_length in F. destruct e; [congruence|]. cbn [length] in F. lia.
      * exists ((p ++ e) :: es), p', st'. split.
        { rewrite Ed. cbn [concat]. rewrite app_assoc. cbn [app] in E. rewrite E, app_assoc. reflexivity. }
        split; [constructor; assumption|]. split; [exact Hp|]. split; [|exact HI']. rewrite El. reflexivity.
Qed.

(** Any number of calls without an exception. *)
Lemma er_run_parse : forall chunks st p st' es xs, Forall bytes_ok chunks -> I st p ->
  er_run listen st chunks = (st', es, xs) -> Forall (fun x => x = None) xs ->
  exists p', p ++ concat chunks = concat es ++ p' /\ Forall element es /\ incomplete p' /\ I st' p'.
Proof.
  induction chunks as [|c cs IH]; intros st p st' es xs B HI H X; cbn [er_run] in H.
  - inversion H; subst. exists p. cbn [concat]. rewrite app_nil_r. split; [reflexivity|]. split; [constructor|].
    split; [exact (R_incomplete _ _ (I_R _ _ HI))|exact HI].
  - inversion B as [|? ? Bc Bcs]; subst. unfold er_onReceivedData in H.
    destruct (er_call (S (length c)) st p c Bc HI ltac:(lia)) as (es1 & p1 & st1 & E & He & Hp & El & HI1).
    rewrite El in H. destruct (er_run listen st1 cs) as [[st2 es2] xs2] eqn:Er.
    inversion H; subst. inversion X as [|? ? X1 X2]; subst.
    destruct (MAX_NDN_PACKET_SIZE <? zlen p1) eqn:EM; [discriminate|].
    destruct (IH st1 p1 st' es2 xs2 Bcs HI1 Er X2) as (p' & E' & He' & Hp' & HI').
    exists p'. split; [|split; [apply Forall_app; auto|auto]].
    cbn [concat]. rewrite app_assoc, E, <- app_assoc, E', concat_app, app_assoc. reflexivity.
Qed.

(** Elements of bounded size: no call raises. *)
Lemma er_run_quiet : forall chunks st p es t, Forall bytes_ok chunks -> I st p ->
  Forall element es -> Forall (fun e => zlen e <= MAX_NDN_PACKET_SIZE) es -> incomplete t -> zlen t <= MAX_NDN_PACKET_SIZE ->
  p ++ concat chunks = concat es ++ t ->
  exists st', er_run listen st chunks = (st', es, map (fun _ => None) chunks) /\ I st' t.
Proof.
  induction chunks as [|c cs IH]; intros st p es t B HI He Hm Ht Hl E; cbn [er_run map].
  - cbn [concat] in E. rewrite app_nil_r in E.
    destruct (concat_unique [] es p t) as [<- ->]; auto; [exact (R_incomplete _ _ (I_R _ _ HI))|].
    exists st. auto.
  - inversion B as [|? ? Bc Bcs]; subst. unfold er_onReceivedData.
    destruct (er_call (S (length c)) st p c Bc HI ltac:(lia)) as (es1 & p1 & st1 & E1 & He1 & Hp1 & El & HI1).
    rewrite El. cbn [concat] in E. rewrite app_assoc, E1, <- app_assoc in E.
    destruct (concat_split es1 es p1 (concat cs) t) as (es2 & -> & E2); auto.
    apply Forall_app in He. destruct He as [_ He2]. apply Forall_app in Hm. destruct Hm as [_ Hm2].
    pose proof (pending_bound es2 p1 (concat cs) t MAX_NDN_PACKET_SIZE He2 Hm2 Hp1 Hl E2) as PB.
    replace (MAX_NDN_PACKET_SIZE <? zlen p1) with false in * by lia.
    destruct (IH st1 p1 es2 t Bcs HI1 He2 Hm2 Ht Hl E2) as (st' & Er & HI'). rewrite Er. exists st'. auto.
Qed.
End Run.
