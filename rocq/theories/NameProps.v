(** * Properties C09, C10, C11, C13 *)
From Verif Require Import Base BaseLemmas TlvModel TlvSpec NameModel NameSpec NameProofs.
From Coq Require Import ZifyBool.

(** A string of ASCII bytes for the examples. *)
Definition ca (v : bytes) : comp := c_generic v.

(** ** C09 canonical order *)
Theorem C09_component_compare : forall a b,
  (c_compare a b < 0 <-> key_lt (c_key a) (c_key b)) /\
  (c_compare a b = 0 <-> c_key a = c_key b) /\
  (c_compare a b > 0 <-> key_lt (c_key b) (c_key a)).
Proof.
  intros a b. pose proof (key_lt_irr (c_key a)) as I.
  assert (S : forall x y, key_lt x y -> key_lt y x -> False) by (intros x y H H'; exact (key_lt_irr x (key_lt_tra _ _ _ H H'))).
  destruct (c_compare_cases a b) as [[-> H]|[[-> H]|[-> H]]]; repeat split; intros K; try lia; try assumption; exfalso; eauto.
  - rewrite K in *. auto.
  - rewrite H in *. auto.
  - rewrite H in *. auto.
  - rewrite K in *. auto.
Qed.

Theorem C09_name_compare : forall a b, exists r, n_compare a b = Ok r /\
  (r < 0 <-> name_lt (n_key a) (n_key b)) /\
  (r = 0 <-> n_key a = n_key b) /\
  (r > 0 <-> name_lt (n_key b) (n_key a)).
Proof.
  intros a b. exists (n_cmp a b). split; [apply n_compare_cmp|].
  pose proof (name_lt_irr (n_key a)) as I.
  assert (S : forall x y, name_lt x y -> name_lt y x -> False) by (intros x y H H'; exact (name_lt_irr x (name_lt_tra _ _ _ H H'))).
  destruct (n_cmp_cases a b) as [[-> H]|[[-> H]|[-> H]]]; repeat split; intros K; try lia; try assumption; exfalso; eauto.
  - rewrite K in *. auto.
  - rewrite H in *. auto.
  - rewrite H in *. auto.
  - rewrite K in *. auto.
Qed.

(** The order itself: strict, transitive, total. *)
Theorem C09_total_order :
  (forall a, ~ name_lt a a) /\
  (forall a b c, name_lt a b -> name_lt b c -> name_lt a c) /\
  (forall a b : name, name_lt (n_key a) (n_key b) \/ n_key a = n_key b \/ name_lt (n_key b) (n_key a)).
Proof.
  split; [apply name_lt_irr|]. split; [apply name_lt_tra|].
  intros a b. destruct (n_cmp_cases a b) as [[_ H]|[[_ H]|[_ H]]]; auto.
Qed.

Corollary C09_antisymmetric : forall a b r s, n_compare a b = Ok r -> n_compare b a = Ok s -> Z.sgn r = - Z.sgn s.
Proof.
  intros a b r s H1 H2.
  destruct (C09_name_compare a b) as (r' & E1 & A1 & A2 & A3). destruct (C09_name_compare b a) as (s' & E2 & B1 & B2 & B3).
  assert (r' = r) by congruence. assert (s' = s) by congruence. subst r' s'.
  destruct (Z.lt_trichotomy r 0) as [L|[L|L]].
  - apply A1 in L as L'. apply B3 in L'. lia.
  - subst. assert (n_key a = n_key b) by tauto. symmetry in H. apply B2 in H. subst. reflexivity.
  - assert (L' : r > 0) by lia. apply A3, B1 in L'. lia.
Qed.

(** compare == 0 agrees with equality, for components as the constructors build them. *)
Theorem C09_compare_zero_iff_equals : forall a b, Forall c_valid a -> Forall c_valid b ->
  (n_compare a b = Ok 0 <-> n_equals a b = true) /\ (n_equals a b = true <-> a = b).
Proof.
  intros a b Ha Hb. rewrite (n_equals_iff_key a b Ha Hb). split.
  - destruct (C09_name_compare a b) as (r & E & _ & A & _). rewrite E. rewrite <- A. split; congruence.
  - split; [now apply n_valid_key_inj|congruence].
Qed.

(** Without that restriction it does not: type OTHER_CODE with code 8 compares equal to GENERIC. *)
Theorem C09_compare_zero_iff_equals_refuted : exists a b : comp,
  c_new [97] (Some CT_OTHER) (Some 8) = Ok a /\ c_new [97] None None = Ok b /\
  c_compare a b = 0 /\ c_equals a b = false.
Proof. eexists. eexists. repeat split. Qed.

Example C09_example :
  n_compare [ca [97]; ca [98]] [ca [97]] = Ok 1 /\ n_compare [ca [98]] [ca [97; 97]] = Ok (-1) /\
  n_compare [Comp CT_IMPLICIT (-1) (repeat 255 32)] [ca []] = Ok (-1) /\
  c_valid (Comp CT_OTHER 99 [1; 2]).
Proof.
  split; [reflexivity|]. split; [reflexivity|]. split; [reflexivity|].
  split; [apply bytes_okb_ok; reflexivity|]. left. cbn. lia.
Qed.
Print Assumptions C09_component_compare.
Print Assumptions C09_name_compare.
Print Assumptions C09_total_order.
Print Assumptions C09_antisymmetric.
Print Assumptions C09_compare_zero_iff_equals.
Print Assumptions C09_compare_zero_iff_equals_refuted.

(** ** C10 prefixes and slices *)
Theorem C10_match_iff_value_prefix : forall a b,
  n_isPrefixOf a b = true <-> prefix (map c_value a) (map c_value b).
Proof. exact n_match_iff. Qed.

(** The component types are not compared: /8=x is reported as a prefix of /9=x/y. *)
Theorem C10_match_compares_types_refuted : exists a b,
  n_isPrefixOf a b = true /\ ~ prefix (n_key a) (n_key b).
Proof.
  exists [ca [120]], [Comp CT_OTHER 9 [120]; ca [121]]. split; [reflexivity|]. intros [s E]. discriminate.
Qed.

Theorem C10_getPrefix : forall n k, exists p, n_getPrefix n k = Ok p /\
  p = firstn (Z.to_nat (if k <? 0 then zlen n + k else k)) n /\ n_isPrefixOf p n = true.
Proof.
  intros n k. eexists. split; [apply n_getPrefix_ok|]. split; [reflexivity|].
  apply n_match_iff. set (m := Z.to_nat _). exists (map c_value (skipn m n)).
  rewrite <- map_app, firstn_skipn. reflexivity.
Qed.

(** getSubName(i, k) and getSubName(i), for i not before the beginning of the name. *)
Theorem C10_getSubName : forall n i k, - zlen n <= i -> 0 <= k ->
  let i' := if i <? 0 then zlen n + i else i in
  n_getSubName n i (Some k) = Ok (firstn (Z.to_nat k) (skipn (Z.to_nat i') n)).
Proof.
  intros n i k Hi Hk i'. rewrite n_getSubName_ok by assumption. cbn zeta. fold i'. f_equal.
  assert (0 <= i') by (unfold i'; destruct (i <? 0) eqn:?; lia). clearbody i'.
  unfold zslice. destruct (Z.le_gt_cases i' (zlen n)).
  - rewrite (Z.min_l i') by lia. destruct (Z.le_gt_cases (i' + k) (zlen n)).
    + f_equal. lia.
    + rewrite !firstn_all2; [reflexivity|..]; rewrite skipn_length; unfold zlen in *; lia.
  - rewrite (Z.min_r i') by lia. rewrite !skipn_all2 by (unfold zlen in *; lia). now rewrite !firstn_nil.
Qed.
Theorem C10_getSubName_rest : forall n i, - zlen n <= i <= zlen n ->
  let i' := if i <? 0 then zlen n + i else i in
  n_getSubName n i None = Ok (skipn (Z.to_nat i') n).
Proof.
  intros n i Hi i'.
  assert (0 <= i' <= zlen n) by (unfold i'; destruct (i <? 0) eqn:?; lia).
  replace (n_getSubName n i None) with (n_getSubName n i (Some (zlen n - i'))).
  2:{ unfold n_getSubName. replace (if i <? 0 then zlen n - - i else i) with i' by (unfold i'; destruct (i <? 0); lia). reflexivity. }
  rewrite C10_getSubName by lia. fold i'. cbn zeta. f_equal. apply firstn_all2. rewrite skipn_length. unfold zlen in *. lia.
Qed.

(** With a start further back than the name is long, components are repeated or IndexError is raised. *)
Theorem C10_getSubName_negative_refuted : exists n i,
  n_getSubName n i None = Ok [ca [98]; ca [97]; ca [98]] /\ n = [ca [97]; ca [98]] /\
  n_getSubName n (i - 2) None = Err IndexError.
Proof. exists [ca [97]; ca [98]], (-3). vm_compute. auto. Qed.

Example C10_example :
  n_getPrefix [ca [1]; ca [2]; ca [3]] (-1) = Ok [ca [1]; ca [2]] /\
  n_getSubName [ca [1]; ca [2]; ca [3]] (-2) (Some 1) = Ok [ca [2]] /\
  n_slice [ca [1]; ca [2]; ca [3]] (Some (-2)) None = Ok [ca [2]; ca [3]].
Proof. vm_compute. auto. Qed.
Print Assumptions C10_match_iff_value_prefix.
Print Assumptions C10_match_compares_types_refuted.
Print Assumptions C10_getPrefix.
Print Assumptions C10_getSubName.
Print Assumptions C10_getSubName_rest.
Print Assumptions C10_getSubName_negative_refuted.

(** ** C11 successor *)
Theorem C11_component_successor : forall c, bytes_ok (c_value c) ->
  key_lt (c_key c) (c_key (c_getSuccessor c)) /\
  (forall z, bytes_ok (c_value z) -> key_lt (c_key c) (c_key z) ->
     c_key (c_getSuccessor c) = c_key z \/ key_lt (c_key (c_getSuccessor c)) (c_key z)).
Proof.
  intros c H. rewrite c_succ_key. unfold c_key. cbn [fst snd]. split.
  - now apply succ_key_gt.
  - intros z Hz L. now apply (succ_key_least _ _ (c_code z, c_value z)).
Qed.

Theorem C11_name_successor : forall n s, n <> [] -> Forall (fun c => bytes_ok (c_value c)) n ->
  n_getSuccessor n = Ok s ->
  (forall rest, name_lt (n_key (n ++ rest)) (n_key s)) /\
  (forall z, Forall (fun c => bytes_ok (c_value c)) z -> name_lt (n_key n) (n_key z) -> name_lt (n_key z) (n_key s) ->
     proper_prefix (n_key n) (n_key z)).
Proof.
  intros n s N H E. destruct (exists_last N) as (p & c & ->). rewrite n_getSuccessor_snoc in E. inversion E; subst s.
  apply Forall_app in H. destruct H as [Hp Hc]. inversion Hc as [|? ? Bc _]; subst.
  unfold n_key. rewrite !map_app. cbn [map]. rewrite c_succ_key. split.
  - intros rest. rewrite map_app, map_app, <- app_assoc. cbn [map app]. unfold c_key at 2 3 4. cbn [fst snd]. now apply name_succ_gt_children.
  - intros z Hz L1 L2. unfold c_key at 2 in L1.
    assert (Bz : Forall (fun k : Z * bytes => bytes_ok (snd k)) (map c_key z)).
    { apply Forall_map. eapply Forall_impl; [|exact Hz]. intros a Ha. exact Ha. }
    destruct (name_succ_least _ _ _ _ Bc Bz L1) as [P|[K|K]].
    + exact P.
    + exfalso. unfold c_key at 3 4 in L2. cbn [fst snd] in L2. rewrite <- K in L2. exact (name_lt_irr _ L2).
    + exfalso. unfold c_key at 3 4 in L2. cbn [fst snd] in L2. exact (name_lt_irr _ (name_lt_tra _ _ _ K L2)).
Qed.

(** The documented "no Z with X < Z < successor(X)" is false: a child lies between. *)
Theorem C11_no_name_between_refuted : exists x z s,
  n_getSuccessor x = Ok s /\ n_compare x z = Ok (-1) /\ n_compare z s = Ok (-1).
Proof. exists [ca [97]], [ca [97]; ca [98]], [ca [98]]. vm_compute. auto. Qed.

Theorem C11_empty_name_successor : forall s, n_getSuccessor [] = Ok s ->
  name_lt (n_key []) (n_key s) /\
  (* least among names whose first component is a 32-byte digest or a later type *)
  (forall c rest, bytes_ok (c_value c) -> (c_code c = 1 -> zlen (c_value c) = 32) -> 1 <= c_code c ->
     n_key s = n_key [c] \/ name_lt (n_key s) (n_key (c :: rest)) \/ c_key c = (1, repeat 0 32)).
Proof.
  intros s E. vm_compute in E. inversion E; subst s. split; [left; eexists; eexists; reflexivity|].
  intros c rest B Hd Hc. destruct (Z.eq_dec (c_code c) 1) as [T|T].
  - specialize (Hd T). destruct (Z.eq_dec (be_value (c_value c)) 0) as [Z0|Z0].
    + right; right. unfold c_key. f_equal; [assumption|]. apply be_value_inj; auto.
      * apply bytes_okb_ok. reflexivity.
      * unfold zlen in Hd. rewrite repeat_length. lia.
    + right; left. cbn [n_key map]. right. exists [], (1, repeat 0 32), (c_key c), [], (map c_key rest).
      repeat split. right. cbn [fst snd c_key]. split; [lia|]. right. split; [rewrite Hd; reflexivity|].
      apply bytes_lt_value; auto; [apply bytes_okb_ok; reflexivity|unfold zlen in Hd; rewrite repeat_length; lia|].
      pose proof (TlvProofs.be_value_bound _ B). change (be_value (repeat 0 32)) with 0. lia.
  - right; left. right. exists [], (1, repeat 0 32), (c_key c), [], (map c_key rest). repeat split. left. cbn [fst c_key]. lia.
Qed.

Example C11_example :
  c_getSuccessor (ca [1; 255]) = ca [2; 0] /\ c_getSuccessor (ca [255; 255]) = ca [0; 0; 0] /\
  n_getSuccessor [ca [0; 1]; ca [1; 2]] = Ok [ca [0; 1]; ca [1; 3]].
Proof. vm_compute. auto. Qed.
Print Assumptions C11_component_successor.
Print Assumptions C11_name_successor.
Print Assumptions C11_no_name_between_refuted.
Print Assumptions C11_empty_name_successor.

(** ** C13 number components *)
Theorem C13_marker_round_trip : forall n m, 0 <= n < 2 ^ 64 -> 0 <= m < 256 ->
  exists c, c_fromNumberWithMarker n m = Ok c /\ c_toNumberWithMarker c m = Ok n /\
    c_hasMarker m c = true /\ c_value c = m :: nonneg n /\ c_isGeneric c = true /\
    forall m', m' <> m -> c_toNumberWithMarker c m' = Err RuntimeError /\ c_hasMarker m' c = false.
Proof.
  intros n m Hn Hm. exists (c_generic (m :: nonneg n)). split; [apply c_fromMarker_ok; [lia|assumption]|].
  unfold c_toNumberWithMarker, c_hasMarker, c_generic. cbn [c_value c_isGeneric c_type]. rewrite Z.eqb_refl.
  repeat split.
  - f_equal. rewrite be_value_fold, nonneg_value by lia. apply Z.mod_small. lia.
  - replace (m =? m') with false by lia. reflexivity.
  - replace (m =? m') with false by lia. reflexivity.
Qed.

(** The five conventions with their marker values 0, FB, FD, FC, FE: each function
    writes, reads and recognizes its own marker, on generic components only. *)
Theorem C13_conventions : forall n, 0 <= n < 2 ^ 64 ->
  Forall (fun '(from, to, is, m) =>
      exists c, from n = Ok c /\ c_value c = m :: nonneg n /\ c_type c = 8 /\ to c = Ok n /\
        forall x, (is x = true <-> c_type x = 8 /\ exists rest, c_value x = m :: rest) /\
                  (forall k, to x = Ok k -> exists rest, c_value x = m :: rest))
    [(c_fromSegment, c_toSegment, c_isSegment, 0);
     (c_fromSegmentOffset, c_toSegmentOffset, c_isSegmentOffset, 251);
     (c_fromVersion, c_toVersion, c_isVersion, 253);
     (c_fromTimestamp, c_toTimestamp, c_isTimestamp, 252);
     (c_fromSequenceNumber, c_toSequenceNumber, c_isSequenceNumber, 254)].
Proof.
  intros n Hn.
  assert (K : forall m, 0 <= m < 256 ->
     exists c, c_fromNumberWithMarker n m = Ok c /\ c_value c = m :: nonneg n /\ c_type c = 8 /\ c_toNumberWithMarker c m = Ok n /\
        forall x, (c_hasMarker m x = true <-> c_type x = 8 /\ exists rest, c_value x = m :: rest) /\
                  (forall k, c_toNumberWithMarker x m = Ok k -> exists rest, c_value x = m :: rest)).
  { intros m Hm. destruct (C13_marker_round_trip n m Hn Hm) as (c & E1 & E2 & _ & E3 & E4 & _).
    exists c. split; [exact E1|]. split; [exact E3|]. split; [unfold c_isGeneric, CT_GENERIC in E4; lia|]. split; [exact E2|].
    intros x. unfold c_hasMarker, c_toNumberWithMarker, c_isGeneric, CT_GENERIC. destruct (c_value x) as [|b r]; split.
    - split; [discriminate|]. intros [_ [? ?]]. discriminate.
    - intros k ?. discriminate.
    - rewrite andb_true_iff, !Z.eqb_eq. split.
      + intros [-> ->]. split; [reflexivity|]. eexists. reflexivity.
      + intros [-> [? E]]. inversion E. auto.
    - intros k. destruct (b =? m) eqn:E; [|discriminate]. intros _. exists r. f_equal. lia. }
  repeat (apply Forall_cons; [apply K; lia|]). apply Forall_nil.
Qed.

Theorem C13_number_round_trip : forall n, 0 <= n < 2 ^ 64 ->
  exists c, c_fromNumber n = Ok c /\ c_toNumber c = n.
Proof.
  intros n Hn. exists (c_generic (nonneg n)). split; [apply c_fromNumber_ok; lia|].
  unfold c_toNumber. cbn [c_value c_generic]. rewrite be_value_fold, nonneg_value by lia. apply Z.mod_small. lia.
Qed.

Theorem C13_negative_raises : forall n m, n < 0 ->
  c_fromNumber n = Err ValueError /\ c_fromNumberWithMarker n m = Err ValueError.
Proof.
  intros. unfold c_fromNumber, c_fromNumberWithMarker, le_writeNonNegativeInteger.
  replace (n <? 0) with true by lia. auto.
Qed.

(** Numeric order is canonical order: e.g. later versions sort after earlier ones. *)
Theorem C13_order : forall m a b ca cb, 0 <= m < 256 -> 0 <= a < 2 ^ 64 -> 0 <= b < 2 ^ 64 ->
  c_fromNumberWithMarker a m = Ok ca -> c_fromNumberWithMarker b m = Ok cb ->
  (c_compare ca cb < 0 <-> a < b).
Proof.
  intros m a b xa xb Hm Ha Hb Ea Eb.
  rewrite c_fromMarker_ok in Ea by (auto; lia). rewrite c_fromMarker_ok in Eb by (auto; lia).
  inversion Ea; inversion Eb; subst. destruct (C09_component_compare (c_generic (m :: nonneg a)) (c_generic (m :: nonneg b))) as (C1 & C2 & C3).
  rewrite C1. split.
  - intros L. destruct (Z.lt_trichotomy a b) as [T|[->|T]]; [assumption|exfalso; exact (key_lt_irr _ L)|].
    exfalso. apply (key_lt_irr _ (key_lt_tra _ _ _ L (marker_mono m b a Hm ltac:(lia) ltac:(lia)))).
  - intros L. apply marker_mono; auto; lia.
Qed.

(** A number of 2^64 or more does not round-trip. *)
Theorem C13_large_refuted : exists n c, 2 ^ 64 <= n /\ c_fromSegment n = Ok c /\ c_toSegment c <> Ok n.
Proof. exists (2 ^ 64 + 5). eexists. split; [lia|]. split; [vm_compute; reflexivity|]. vm_compute. congruence. Qed.

Example C13_example : exists c, c_fromSegment 300 = Ok c /\ c_value c = [0; 1; 44] /\ c_toSegment c = Ok 300
  /\ c_isSegment c = true /\ c_isVersion c = false.
Proof. eexists. split; [vm_compute; reflexivity|]. vm_compute. auto. Qed.
Print Assumptions C13_marker_round_trip.
Print Assumptions C13_number_round_trip.
Print Assumptions C13_negative_raises.
Print Assumptions C13_order.
Print Assumptions C13_large_refuted.
Print Assumptions C13_conventions.
