(** * Properties C01, C02, C03, C05 *)
From Verif Require Import Base BaseLemmas TlvModel TlvSpec TlvProofs TlvEncProofs TlvDecProofs.
From Coq Require Import ZifyBool.

(** ** C01 VAR-NUMBER round trip *)
Theorem C01_varnumber_round_trip : forall n capacity pre post,
  0 <= n < 2 ^ 64 -> 0 < capacity ->
  exists e, le_writeVarNumber n (le_new capacity) = Ok e /\
    let w := le_getOutput e in
    w = varnum n /\
    d_readVarNumber (pre ++ w ++ post) (zlen pre) = Ok (n, zlen pre + zlen w).
Proof.
  intros n c pre post Hn Hc.
  destruct (le_put_rep (le_new c) [] (varNumber_bytes n) (le_rep_new c Hc)) as (e & E & R).
  exists e. split; [exact E|]. apply le_getOutput_rep in R. destruct R as [-> _].
  rewrite app_nil_r, varNumber_bytes_varnum by lia. split; [reflexivity|].
  apply readVar_form. now apply varnum_form.
Qed.

(** Every byte string the decoder accepts as [n] is at least as long. *)
Theorem C01_varnumber_shortest : forall n bs, bytes_ok bs ->
  d_readVarNumber bs 0 = Ok (n, zlen bs) -> zlen (varnum n) <= zlen bs.
Proof.
  intros n bs B H. destruct (readVar_cases [] bs B) as [(m & vb & rest & E & V & R)|(_ & R)];
    cbn [app] in R; rewrite zlen_nil in R; rewrite R in H; [|discriminate].
  inversion H; subst m. pose proof (varnum_minimal _ _ V). zlia.
Qed.

Theorem C01_varnumber_prefix_free : forall a b x y,
  0 <= a < 2 ^ 64 -> 0 <= b < 2 ^ 64 -> varnum a ++ x = varnum b ++ y -> a = b /\ x = y.
Proof.
  intros a b x y Ha Hb E.
  pose proof (readVar_form [] a (varnum a) x (varnum_form a Ha)) as R1.
  pose proof (readVar_form [] b (varnum b) y (varnum_form b Hb)) as R2.
  cbn [app] in *. rewrite E in R1. rewrite R1 in R2. inversion R2. subst. split; [reflexivity|].
  now apply app_inv_head in E.
Qed.

Example C01_example :
  varnum 252 = [252] /\ varnum 253 = [253; 0; 253] /\ varnum 65536 = [254; 0; 1; 0; 0] /\
  varnum (2 ^ 32) = [255; 0; 0; 0; 1; 0; 0; 0; 0] /\
  d_readVarNumber [9; 253; 1; 2; 7] 1 = Ok (258, 4).
Proof. vm_compute. auto 10. Qed.
Print Assumptions C01_varnumber_round_trip.
Print Assumptions C01_varnumber_shortest.
Print Assumptions C01_varnumber_prefix_free.

(** ** C02 nonNegativeInteger round trip *)
Theorem C02_nonneg_tlv_round_trip : forall t n capacity pre post,
  0 <= t < 2 ^ 64 -> 0 <= n -> 0 < capacity ->
  exists e, le_writeNonNegativeIntegerTlv t n (le_new capacity) = Ok e /\
    let w := le_getOutput e in
    w = tlv t (nonneg n) /\
    d_readNonNegativeIntegerTlv t (pre ++ w ++ post) (zlen pre) = Ok (n mod 2 ^ 64, zlen pre + zlen w).
Proof.
  intros t n c pre post Ht Hn Hc.
  pose proof (le_nnTlv_rep (le_new c) [] t n (le_rep_new c Hc)) as R.
  rewrite e_nnTlv_tlv in R by lia. unfold rep_res in R.
  destruct (le_writeNonNegativeIntegerTlv t n (le_new c)) as [e|]; [|contradiction].
  exists e. split; [reflexivity|]. apply le_getOutput_rep in R. destruct R as [-> _].
  rewrite app_nil_r. split; [reflexivity|].
  apply (At_nnTlv_mod _ _ (zlen pre + zlen (elems [(t, nonneg n)])) _ _ []); [assumption|].
  pose proof (nonneg_len n Hn).
  split; [repeat constructor; cbn [fst snd]; unfold u64; lia|].
  exists pre, post. rewrite elems_cons, elems_nil, app_nil_r. auto.
Qed.

(** In range, the value read is the value written. *)
Corollary C02_nonneg_tlv_exact : forall t n capacity pre post,
  0 <= t < 2 ^ 64 -> 0 <= n < 2 ^ 64 -> 0 < capacity ->
  exists e, le_writeNonNegativeIntegerTlv t n (le_new capacity) = Ok e /\
    d_readNonNegativeIntegerTlv t (pre ++ le_getOutput e ++ post) (zlen pre)
      = Ok (n, zlen pre + zlen (le_getOutput e)).
Proof.
  intros t n c pre post Ht Hn Hc.
  destruct (C02_nonneg_tlv_round_trip t n c pre post Ht ltac:(lia) Hc) as (e & E & _ & R).
  exists e. split; [exact E|]. cbn zeta in R. rewrite R, Z.mod_small by lia. reflexivity.
Qed.

Theorem C02_negative_raises : forall t n e, n < 0 ->
  le_writeNonNegativeIntegerTlv t n e = Err ValueError /\ le_writeNonNegativeInteger n e = Err ValueError.
Proof.
  intros. unfold le_writeNonNegativeIntegerTlv, le_writeNonNegativeInteger.
  replace (n <? 0) with true by lia. auto.
Qed.

(** A value of 2^64 or more is not rejected: it is silently written as 0. *)
Theorem C02_too_large_rejected_refuted : exists n e, 2 ^ 64 <= n /\
  le_writeNonNegativeIntegerTlv 10 n (le_new 16) = Ok e /\
  d_readNonNegativeIntegerTlv 10 (le_getOutput e) 0 = Ok (0, zlen (le_getOutput e)).
Proof.
  exists (2 ^ 64). eexists. split; [lia|]. split; vm_compute; reflexivity.
Qed.

Example C02_example :
  match le_writeNonNegativeIntegerTlv 12 4000 (le_new 1) with
  | Ok e => le_getOutput e = [12; 2; 15; 160] /\ d_readNonNegativeIntegerTlv 12 (le_getOutput e) 0 = Ok (4000, 4)
  | Err _ => False end.
Proof. vm_compute. auto 10. Qed.
Print Assumptions C02_nonneg_tlv_round_trip.
Print Assumptions C02_nonneg_tlv_exact.
Print Assumptions C02_negative_raises.
Print Assumptions C02_too_large_rejected_refuted.

(** ** C03 the output does not depend on capacity and growth *)
Theorem C03_capacity_independent : forall ops c1 c2, 0 < c1 -> 0 < c2 ->
  match le_run ops (le_new c1), le_run ops (le_new c2) with
  | Ok e1, Ok e2 => le_getOutput e1 = le_getOutput e2 /\ le_length e1 = le_length e2
  | Err x, Err y => x = y
  | _, _ => False
  end.
Proof.
  intros ops c1 c2 H1 H2.
  pose proof (encoder_capacity_independent ops c1 H1) as R1.
  pose proof (encoder_capacity_independent ops c2 H2) as R2.
  destruct (le_run ops (le_new c1)), (le_run ops (le_new c2)), (e_run ops []); try contradiction.
  - destruct R1, R2. split; congruence.
  - congruence.
Qed.

(** The array encoder computes exactly the prepended bytes ([e_run]), and its
    reported length is the number of bytes of output. *)
Theorem C03_refines_byte_list : forall ops c, 0 < c ->
  match le_run ops (le_new c), e_run ops [] with
  | Ok e, Ok out => le_getOutput e = out /\ le_length e = zlen out
  | Err x, Err y => x = y
  | _, _ => False
  end.
Proof. exact encoder_capacity_independent. Qed.

(** With initial capacity 0 the first write of a number fails. *)
Theorem C03_capacity_zero_refuted :
  le_run [WVarNumber 7] (le_new 0) = Err IndexError /\
  exists e, le_run [WVarNumber 7] (le_new 1) = Ok e /\ le_getOutput e = [7].
Proof. split; [vm_compute; reflexivity|]. eexists. split; vm_compute; reflexivity. Qed.

Example C03_example :
  let ops := [WBuffer (Some [1;2;3;4;5]); WTypeAndLength 8 5; WBlobTlv 300 (Some [9]); WNonNegativeIntegerTlv 10 70000] in
  rmap le_getOutput (le_run ops (le_new 1)) = Ok [10;4;0;1;17;112; 253;1;44;1;9; 8;5;1;2;3;4;5] /\
  rmap le_getOutput (le_run ops (le_new 100)) = rmap le_getOutput (le_run ops (le_new 1)).
Proof. vm_compute. auto. Qed.
Print Assumptions C03_capacity_independent.
Print Assumptions C03_refines_byte_list.
Print Assumptions C03_capacity_zero_refuted.

(** ** C05 the critical rule *)
Theorem C05_finish_accepts_exactly : forall inp off end_ skipCritical,
  bytes_ok inp -> 0 <= off <= zlen inp ->
  (d_finishNestedTlvs end_ skipCritical inp off = Ok (tt, end_) <->
   off <= end_ <= zlen inp /\
   exists es, tlv_seq es (zslice inp off end_) /\
     (skipCritical = true \/ Forall (fun e => ~ critical (fst e)) es)).
Proof. exact finish_iff. Qed.

(** In every other case it raises ValueError. *)
Theorem C05_finish_total : forall inp off end_ skipCritical,
  bytes_ok inp -> 0 <= off <= zlen inp ->
  d_finishNestedTlvs end_ skipCritical inp off = Ok (tt, end_) \/
  d_finishNestedTlvs end_ skipCritical inp off = Err ValueError.
Proof.
  intros inp off e b B O. pose proof (finish_safe e b inp off B O) as R.
  destruct (d_finishNestedTlvs e b inp off) as [[[] o]|x]; [left|right]; destruct R; subst; auto.
Qed.

Example C05_example_skip : d_finishNestedTlvs 7 false [5;1;0;36;2;8;8] 3 = Ok (tt, 7).
Proof. vm_compute. reflexivity. Qed.
Example C05_example_critical : d_finishNestedTlvs 7 false [5;1;0;37;2;8;8] 3 = Err ValueError
  /\ d_finishNestedTlvs 7 true [5;1;0;37;2;8;8] 3 = Ok (tt, 7).
Proof. vm_compute. auto. Qed.
Print Assumptions C05_finish_accepts_exactly.
Print Assumptions C05_finish_total.
