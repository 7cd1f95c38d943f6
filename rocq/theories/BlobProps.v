(** * Property C45: Blob as a value, and text in Blobs *)
From Verif Require Import Base BaseLemmas BlobModel.
From Coq Require Import ZifyBool.

(** Specification: a Unicode string holds scalar values; the order on byte strings is the
    dictionary order, with the null Blob first. *)
Definition scalar (c : Z) : Prop := 0 <= c < 55296 \/ 57344 <= c <= 1114111.
Definition text (s : str) : Prop := Forall scalar s.
Inductive dict_lt : bytes -> bytes -> Prop :=
| dict_nil : forall y b, dict_lt [] (y :: b)
| dict_head : forall x y a b, x < y -> dict_lt (x :: a) (y :: b)
| dict_tail : forall x a b, dict_lt a b -> dict_lt (x :: a) (x :: b).
Definition blob_lt (a b : option bytes) : Prop :=
  match a, b with None, Some _ => True | Some x, Some y => dict_lt x y | _, _ => False end.

Ltac dm x := let q := fresh "q" in let r := fresh "r" in
  pose proof (Z.div_mod x 64 ltac:(lia)); pose proof (Z.mod_pos_bound x 64 ltac:(lia)).

Lemma utf8_encode_ok : forall s, text s -> exists b, utf8_encode s = Ok b /\ bytes_ok b.
Proof.
  induction s as [|c s IH]; intros H; [exists []; split; [reflexivity|apply Forall_nil]|].
  pose proof (Forall_inv H) as Hc. destruct (IH (Forall_inv_tail H)) as (b & E & B). cbn [utf8_encode]. rewrite E. cbn [rbind]. unfold scalar in Hc.
  assert (Z.div c 64 = c / 64) by reflexivity.
  assert (D2 : c / 4096 = c / 64 / 64) by (rewrite Z.div_div by lia; reflexivity).
  assert (D3 : c / 262144 = c / 64 / 64 / 64) by (rewrite !Z.div_div by lia; reflexivity).
  rewrite D2, D3. clear D2 D3.
  pose proof (Z.mod_pos_bound c 64 ltac:(lia)). pose proof (Z.mod_pos_bound (c / 64) 64 ltac:(lia)). pose proof (Z.mod_pos_bound (c / 64 / 64) 64 ltac:(lia)).
  pose proof (Z.div_mod c 64 ltac:(lia)). pose proof (Z.div_mod (c / 64) 64 ltac:(lia)). pose proof (Z.div_mod (c / 64 / 64) 64 ltac:(lia)).
  set (a1 := c / 64) in *. set (a2 := a1 / 64) in *. set (a3 := a2 / 64) in *.
  destruct (c <? 128) eqn:E1; [eexists; split; [reflexivity|]; apply Forall_cons; [unfold is_byte; lia|exact B]|].
  destruct (c <? 2048) eqn:E2; [eexists; split; [reflexivity|]; repeat (apply Forall_cons; [unfold is_byte; lia|]); exact B|].
  replace ((55296 <=? c) && (c <=? 57343)) with false by lia.
  destruct (c <? 65536) eqn:E3; (eexists; split; [reflexivity|]; repeat (apply Forall_cons; [unfold is_byte; lia|]); exact B).
Qed.

(** Text survives: [str(Blob(s)) == s]. *)
Theorem C45_text_round_trip : forall s, text s -> exists b, blob_of_str s = Ok b /\ blob_to_str b = Ok s.
Proof.
  intros s H. assert (K : exists b, utf8_encode s = Ok b /\ utf8_decode b = Ok s).
  { induction s as [|c s IH]; [exists []; split; reflexivity|].
    pose proof (Forall_inv H) as Hc. destruct (IH (Forall_inv_tail H)) as (b & E & D). cbn [utf8_encode]. rewrite E. cbn [rbind]. unfold scalar in Hc.
    assert (D2 : c / 4096 = c / 64 / 64) by (rewrite Z.div_div by lia; reflexivity).
    assert (D3 : c / 262144 = c / 64 / 64 / 64) by (rewrite !Z.div_div by lia; reflexivity).
    rewrite D2, D3. clear D2 D3.
    pose proof (Z.mod_pos_bound c 64 ltac:(lia)). pose proof (Z.mod_pos_bound (c / 64) 64 ltac:(lia)). pose proof (Z.mod_pos_bound (c / 64 / 64) 64 ltac:(lia)).
    pose proof (Z.div_mod c 64 ltac:(lia)). pose proof (Z.div_mod (c / 64) 64 ltac:(lia)). pose proof (Z.div_mod (c / 64 / 64) 64 ltac:(lia)).
    set (a1 := c / 64) in *. set (a2 := a1 / 64) in *. set (a3 := a2 / 64) in *.
    set (m0 := c mod 64) in *. set (m1 := a1 mod 64) in *. set (m2 := a2 mod 64) in *. clearbody m0 m1 m2 a3; clearbody a2; clearbody a1.
    destruct (c <? 128) eqn:E1; [eexists; split; [reflexivity|]; cbn [utf8_decode]; rewrite E1, D; reflexivity|].
    destruct (c <? 2048) eqn:E2.
    { eexists. split; [reflexivity|]. cbn [utf8_decode]. replace (192 + a1 <? 128) with false by lia. replace (192 + a1 <? 194) with false by lia.
      replace (192 + a1 <? 224) with true by lia. unfold cont. replace ((128 <=? 128 + m0) && (128 + m0 <=? 191)) with true by lia.
      rewrite D. cbn [rbind]. match goal with |- Ok (?x :: _) = _ => replace x with c by lia end. reflexivity. }
    replace ((55296 <=? c) && (c <=? 57343)) with false by lia.
    destruct (c <? 65536) eqn:E3.
    { eexists. split; [reflexivity|]. cbn [utf8_decode]. replace (224 + a2 <? 128) with false by lia. replace (224 + a2 <? 194) with false by lia.
      replace (224 + a2 <? 224) with false by lia. replace (224 + a2 <? 240) with true by lia. unfold cont.
      replace (_ && _ && _) with true.
      2:{ symmetry. apply andb_true_iff. split; [|lia]. destruct (224 + a2 =? 224) eqn:Ea; destruct (224 + a2 =? 237) eqn:Eb; lia. }
      rewrite D. cbn [rbind]. match goal with |- Ok (?x :: _) = _ => replace x with c by lia end. reflexivity. }
    eexists. split; [reflexivity|]. cbn [utf8_decode]. replace (240 + a3 <? 128) with false by lia. replace (240 + a3 <? 194) with false by lia.
    replace (240 + a3 <? 224) with false by lia. replace (240 + a3 <? 240) with false by lia. replace (240 + a3 <? 245) with true by lia. unfold cont.
    replace (_ && _ && _ && _) with true.
    2:{ symmetry. apply andb_true_iff. split; [apply andb_true_iff; split; [|lia]|lia]. destruct (240 + a3 =? 240) eqn:Ea; destruct (240 + a3 =? 244) eqn:Eb; lia. }
    rewrite D. cbn [rbind]. match goal with |- Ok (?x :: _) = _ => replace x with c by lia end. reflexivity. }
  destruct K as (b & E & D). exists (Some b). unfold blob_of_str, blob_to_str. rewrite E. split; [reflexivity|exact D].
Qed.

Lemma dm64 : forall q r, 0 <= r < 64 -> (q * 64 + r) / 64 = q /\ (q * 64 + r) mod 64 = r.
Proof.
  intros q r H. split; [rewrite Z.div_add_l by lia; rewrite Z.div_small by lia; lia|].
  rewrite Z.add_comm, Z.mod_add by lia. apply Z.mod_small, H.
Qed.
(** Conversely, the bytes of a Blob whose text can be read are the encoding of that text:
    no two different Blobs read as the same text. *)
Theorem C45_text_determines_bytes : forall b s, bytes_ok b -> blob_to_str (Some b) = Ok s -> text s /\ blob_of_str s = Ok (Some b).
Proof.
  intros b s B H. cbn [blob_to_str] in H. assert (K : text s /\ utf8_encode s = Ok b); [|destruct K as [K1 K2]; split; [exact K1|unfold blob_of_str; rewrite K2; reflexivity]].
  revert s B H. remember (length b) as n eqn:En. assert (Hn : (length b <= n)%nat) by lia. clear En. revert b Hn.
  induction n as [|n IH]; intros b Hn s B H; [destruct b; [|cbn in Hn; lia]; injection H as <-; split; [apply Forall_nil|reflexivity]|].
  destruct b as [|b0 l0]; [injection H as <-; split; [apply Forall_nil|reflexivity]|]. cbn [utf8_decode] in H. cbn [length] in Hn.
  pose proof (Forall_inv B) as B0. unfold is_byte in B0. apply Forall_inv_tail in B.
  destruct (b0 <? 128) eqn:E0.
  { destruct (utf8_decode l0) as [r|] eqn:D; [|discriminate]. injection H as <-. destruct (IH l0 ltac:(lia) r B D) as [T E].
    split; [apply Forall_cons; [left; lia|exact T]|]. cbn [utf8_encode]. rewrite E. cbn [rbind]. rewrite E0. reflexivity. }
  destruct l0 as [|b1 l1]; [discriminate|]. pose proof (Forall_inv B) as B1. unfold is_byte in B1. apply Forall_inv_tail in B. cbn [length] in Hn.
  destruct (b0 <? 194) eqn:E1; [discriminate|]. unfold cont in H. destruct (b0 <? 224) eqn:E2.
  { destruct ((128 <=? b1) && (b1 <=? 191)) eqn:C1; [|discriminate].
    destruct (utf8_decode l1) as [r|] eqn:D; [|discriminate]. injection H as <-. destruct (IH l1 ltac:(lia) r B D) as [T E].
    split; [apply Forall_cons; [left; lia|exact T]|]. cbn [utf8_encode]. rewrite E. cbn [rbind].
    destruct (dm64 (b0 - 192) (b1 - 128) ltac:(lia)) as [X Y]. rewrite X, Y.
    replace (_ <? 128) with false by lia. replace (_ <? 2048) with true by lia. f_equal. f_equal; [lia|]. f_equal. lia. }
  destruct l1 as [|b2 l2]; [discriminate|]. pose proof (Forall_inv B) as B2. unfold is_byte in B2. apply Forall_inv_tail in B. cbn [length] in Hn.
  destruct (b0 <? 240) eqn:E3.
  { match type of H with (if ?c then _ else _) = _ => destruct c eqn:C end; [|discriminate].
    destruct (utf8_decode l2) as [r|] eqn:D; [|discriminate]. injection H as <-. destruct (IH l2 ltac:(lia) r B D) as [T E].
    apply andb_true_iff in C. destruct C as [Ca Cb].
    assert (V : 2048 <= (b0 - 224) * 4096 + (b1 - 128) * 64 + (b2 - 128) < 65536 /\ scalar ((b0 - 224) * 4096 + (b1 - 128) * 64 + (b2 - 128)) /\ 128 <= b1 <= 191).
    { unfold scalar. destruct (b0 =? 224) eqn:Ea; destruct (b0 =? 237) eqn:Eb; lia. }
    destruct V as (V1 & V2 & V3). split; [apply Forall_cons; [exact V2|exact T]|]. cbn [utf8_encode]. rewrite E. cbn [rbind].
    set (c := (b0 - 224) * 4096 + (b1 - 128) * 64 + (b2 - 128)) in *.
    assert (X : c = ((b0 - 224) * 64 + (b1 - 128)) * 64 + (b2 - 128)) by (unfold c; lia).
    destruct (dm64 ((b0 - 224) * 64 + (b1 - 128)) (b2 - 128) ltac:(lia)) as [X1 Y1]. rewrite <- X in X1, Y1.
    destruct (dm64 (b0 - 224) (b1 - 128) ltac:(lia)) as [X2 Y2].
    assert (D2 : c / 4096 = b0 - 224) by (change 4096 with (64 * 64); rewrite <- Z.div_div by lia; rewrite X1, X2; reflexivity).
    rewrite D2, X1, Y1, Y2. unfold scalar in V2. replace (c <? 128) with false by lia. replace (c <? 2048) with false by lia. replace ((55296 <=? c) && (c <=? 57343)) with false by lia.
    replace (c <? 65536) with true by lia. f_equal. f_equal; [lia|]. f_equal; [lia|]. f_equal. lia. }
  destruct l2 as [|b3 l3]; [discriminate|]. pose proof (Forall_inv B) as B3. unfold is_byte in B3. apply Forall_inv_tail in B. cbn [length] in Hn.
  destruct (b0 <? 245) eqn:E4; [|discriminate].
  match type of H with (if ?c then _ else _) = _ => destruct c eqn:C end; [|discriminate].
  destruct (utf8_decode l3) as [r|] eqn:D; [|discriminate]. injection H as <-. destruct (IH l3 ltac:(lia) r B D) as [T E].
  apply andb_true_iff in C. destruct C as [C Cc]. apply andb_true_iff in C. destruct C as [Ca Cb].
  set (c := (b0 - 240) * 262144 + (b1 - 128) * 4096 + (b2 - 128) * 64 + (b3 - 128)) in *.
  assert (V : 65536 <= c <= 1114111 /\ 128 <= b1 <= 191).
  { unfold c. destruct (b0 =? 240) eqn:Ea; destruct (b0 =? 244) eqn:Eb; lia. }
  destruct V as (V1 & V3). split; [apply Forall_cons; [right; lia|exact T]|]. cbn [utf8_encode]. rewrite E. cbn [rbind].
  assert (X : c = (((b0 - 240) * 64 + (b1 - 128)) * 64 + (b2 - 128)) * 64 + (b3 - 128)) by (unfold c; lia).
  destruct (dm64 (((b0 - 240) * 64 + (b1 - 128)) * 64 + (b2 - 128)) (b3 - 128) ltac:(lia)) as [X1 Y1]. rewrite <- X in X1, Y1.
  destruct (dm64 ((b0 - 240) * 64 + (b1 - 128)) (b2 - 128) ltac:(lia)) as [X2 Y2].
  destruct (dm64 (b0 - 240) (b1 - 128) ltac:(lia)) as [X3 Y3].
  assert (D2 : c / 4096 = (b0 - 240) * 64 + (b1 - 128)) by (change 4096 with (64 * 64); rewrite <- Z.div_div by lia; rewrite X1, X2; reflexivity).
  assert (D3 : c / 262144 = b0 - 240) by (change 262144 with (4096 * 64); rewrite <- Z.div_div by lia; rewrite D2, X3; reflexivity).
  rewrite D3, D2, X1, Y1, Y2, Y3. replace (c <? 128) with false by lia. replace (c <? 2048) with false by lia. replace ((55296 <=? c) && (c <=? 57343)) with false by lia.
  replace (c <? 65536) with false by lia. f_equal. f_equal; [lia|]. f_equal; [lia|]. f_equal; [lia|]. f_equal. lia.
Qed.
(** A null Blob and an empty Blob read as the same (empty) text, so the text of a Blob does
    not determine the Blob. *)
Theorem C45_null_text_refuted : exists a b, blob_to_str a = blob_to_str b /\ blob_equals a b = false.
Proof. exists None, (Some []). split; reflexivity. Qed.

(** Reading arbitrary bytes as text raises only UnicodeDecodeError. *)
Theorem C45_text_error : forall b e, blob_to_str b = Err e -> e = ValueError.
Proof.
  intros [b|] e H; [|discriminate]. cbn [blob_to_str] in H. revert e H. remember (length b) as n eqn:En. assert (Hn : (length b <= n)%nat) by lia. clear En. revert b Hn.
  induction n as [|n IH]; intros b Hn e H; (destruct b as [|b0 l0]; [discriminate|]; cbn [length] in Hn); [lia|]. cbn [utf8_decode] in H.
  destruct (b0 <? 128). { destruct (utf8_decode l0) eqn:D; [discriminate|]. injection H as <-. apply (IH l0); [lia|exact D]. }
  destruct l0 as [|b1 l1]; [congruence|]. cbn [length] in Hn. destruct (b0 <? 194); [congruence|]. destruct (b0 <? 224).
  { destruct (cont 128 191 b1); [|congruence]. destruct (utf8_decode l1) eqn:D; [discriminate|]. injection H as <-. apply (IH l1); [lia|exact D]. }
  destruct l1 as [|b2 l2]; [congruence|]. cbn [length] in Hn. destruct (b0 <? 240).
  { match type of H with (if ?c then _ else _) = _ => destruct c end; [|congruence]. destruct (utf8_decode l2) eqn:D; [discriminate|]. injection H as <-. apply (IH l2); [lia|exact D]. }
  destruct l2 as [|b3 l3]; [congruence|]. cbn [length] in Hn. destruct (b0 <? 245); [|congruence].
  match type of H with (if ?c then _ else _) = _ => destruct c end; [|congruence]. destruct (utf8_decode l3) eqn:D; [discriminate|]. injection H as <-. apply (IH l3); [lia|exact D].
Qed.

Lemma arr_equals_iff : forall a b, arr_equals a b = true <-> a = b.
Proof.
  induction a as [|x a IH]; intros [|y b]; cbn [arr_equals]; split; intros H; try reflexivity; try discriminate.
  - apply andb_true_iff in H. destruct H as [H1 H2]. apply IH in H2. f_equal; [lia|assumption].
  - injection H as -> ->. apply andb_true_iff. split; [lia|]. apply IH. reflexivity.
Qed.
(** Equality is equality of the contents. *)
Theorem C45_equals_iff : forall a b, blob_equals a b = true <-> a = b.
Proof.
  intros [x|] [y|]; cbn [blob_equals]; split; intros H; try reflexivity; try discriminate.
  - destruct (zlen x =? zlen y); [|discriminate]. apply arr_equals_iff in H. congruence.
  - injection H as <-. rewrite Z.eqb_refl. apply arr_equals_iff. reflexivity.
Qed.
(** compare is the total order: the sign tells which of the three cases holds. *)
Theorem C45_compare : forall a b,
  (blob_compare a b = -1 /\ blob_lt a b) \/ (blob_compare a b = 0 /\ a = b) \/ (blob_compare a b = 1 /\ blob_lt b a).
Proof.
  assert (K : forall x y, (arr_compare x y = -1 /\ dict_lt x y) \/ (arr_compare x y = 0 /\ x = y) \/ (arr_compare x y = 1 /\ dict_lt y x)).
  { induction x as [|u x IH]; intros [|v y]; cbn [arr_compare]; [right; left; auto|left; split; [reflexivity|constructor]|right; right; split; [reflexivity|constructor]|].
    destruct (u <? v) eqn:E1; [left; split; [reflexivity|constructor; lia]|]. destruct (v <? u) eqn:E2; [right; right; split; [reflexivity|constructor; lia]|].
    assert (u = v) by lia. subst v. destruct (IH y) as [[-> L]|[[-> ->]|[-> L]]]; [left; split; [reflexivity|now constructor]|right; left; auto|right; right; split; [reflexivity|now constructor]]. }
  intros [x|] [y|]; cbn [blob_compare blob_lt]; auto. destruct (K x y) as [H|[[H ->]|H]]; auto.
Qed.
Lemma dict_lt_irr : forall a, ~ dict_lt a a.
Proof. induction a as [|x a IH]; intros H; inversion H; subst; [lia|tauto]. Qed.
Lemma dict_lt_tra : forall a b c, dict_lt a b -> dict_lt b c -> dict_lt a c.
Proof.
  intros a b c H. revert c. induction H; intros c H2; inversion H2; subst; try (apply dict_nil); try (apply dict_head; lia); apply dict_tail; auto.
Qed.
Theorem C45_order : (forall a, ~ blob_lt a a) /\ (forall a b c, blob_lt a b -> blob_lt b c -> blob_lt a c).
Proof.
  split; [intros [x|]; cbn; [apply dict_lt_irr|tauto]|]. intros [x|] [y|] [z|]; cbn; try tauto. apply dict_lt_tra.
Qed.
(** Equal Blobs have equal hashes, whatever Python's hash of bytes is. *)
Theorem C45_hash : forall h a b, blob_equals a b = true -> blob_hash h a = blob_hash h b.
Proof. intros h a b H. apply C45_equals_iff in H. subst. reflexivity. Qed.
(** Two digits for each byte, so the hex text determines the contents. *)
Theorem C45_hex : forall a b, bytes_ok a -> bytes_ok b -> blob_toHex (Some a) = blob_toHex (Some b) -> a = b.
Proof.
  assert (D : forall x y, 0 <= x < 16 -> 0 <= y < 16 -> hexdigit x = hexdigit y -> x = y).
  { intros x y Hx Hy. unfold hexdigit. destruct (x <? 10) eqn:E1; destruct (y <? 10) eqn:E2; lia. }
  cbn [blob_toHex]. induction a as [|x a IH]; intros [|y b] Ha Hb H; cbn [flat_map app] in H; try discriminate; [reflexivity|].
  injection H as H1 H2 H3. pose proof (Forall_inv Ha) as Hx. pose proof (Forall_inv Hb) as Hy. unfold is_byte in *.
  pose proof (Z.div_mod x 16 ltac:(lia)). pose proof (Z.div_mod y 16 ltac:(lia)). pose proof (Z.mod_pos_bound x 16 ltac:(lia)). pose proof (Z.mod_pos_bound y 16 ltac:(lia)).
  apply D in H1; [|lia|lia]. apply D in H2; [|lia|lia]. f_equal; [lia|]. apply (IH b (Forall_inv_tail Ha) (Forall_inv_tail Hb) H3).
Qed.
Theorem C45_raw : forall b, bytes_ok b -> blob_fromRawStr (blob_toRawStr (Some b)) = Ok (Some b).
Proof. intros b B. cbn. unfold blob_fromRawStr. apply bytes_okb_ok in B. rewrite B. reflexivity. Qed.

Example C45_example : text [65; 233; 8364; 128512] /\ blob_of_str [65; 233; 8364; 128512] = Ok (Some [65; 195; 169; 226; 130; 172; 240; 159; 152; 128]) /\
  blob_to_str (Some [65; 195; 169; 226; 130; 172; 240; 159; 152; 128]) = Ok [65; 233; 8364; 128512] /\
  blob_to_str (Some [237; 160; 128]) = Err ValueError /\ blob_to_str (Some [192; 128]) = Err ValueError /\
  blob_compare (Some [1; 2]) (Some [1; 2; 0]) = -1 /\ blob_toHex (Some [10; 255]) = [48; 97; 102; 102].
Proof.
  split; [|vm_compute; auto 10]. repeat (apply Forall_cons; [unfold scalar; lia|]). apply Forall_nil.
Qed.
Print Assumptions C45_text_round_trip.
Print Assumptions C45_text_determines_bytes.
Print Assumptions C45_text_error.
Print Assumptions C45_null_text_refuted.
Print Assumptions C45_equals_iff.
Print Assumptions C45_compare.
Print Assumptions C45_order.
Print Assumptions C45_hash.
Print Assumptions C45_hex.
Print Assumptions C45_raw.
