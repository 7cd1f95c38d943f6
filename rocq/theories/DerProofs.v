(** * Proofs about DER: numbers and headers *)
From Verif Require Import Base BaseLemmas DerModel DerSpec.
From Coq Require Import Arith.
Local Open Scope res_scope.

(** ** Big endian numbers *)
Lemma be_snoc : forall l b, be (l ++ [b]) = be l * 256 + b.
Proof. intros. unfold be. rewrite fold_left_app. reflexivity. Qed.
Lemma be_app : forall l m, be (l ++ m) = be l * 256 ^ zlen m + be m.
Proof.
  intros l m. induction m as [|b m IH] using rev_ind; [rewrite app_nil_r; unfold be at 3; cbn; lia|]. rewrite app_assoc, !be_snoc, IH, zlen_app. change (zlen [b]) with 1. pose proof (zlen_nonneg _ m). rewrite Z.pow_add_r by lia. lia.
Qed.
Lemma be_nonneg : forall l, bytes_ok l -> 0 <= be l.
Proof. intros l H. induction l as [|b l IH] using rev_ind; [unfold be; cbn; lia|]. apply Forall_app in H. destruct H as [H1 H2]. inversion H2 as [|? ? Hb _]; subst. rewrite be_snoc. unfold is_byte in Hb. specialize (IH H1). lia. Qed.
Lemma be_lt : forall l, bytes_ok l -> be l < 256 ^ zlen l.
Proof.
  intros l H. induction l as [|b l IH] using rev_ind; [unfold be; cbn; lia|]. apply Forall_app in H. destruct H as [H1 H2]. inversion H2 as [|? ? Hb _]; subst. rewrite be_snoc, zlen_app. change (zlen [b]) with 1. pose proof (zlen_nonneg _ l). rewrite Z.pow_add_r by lia. unfold is_byte in Hb. specialize (IH H1). lia.
Qed.
Lemma be_ge : forall b l, bytes_ok (b :: l) -> b <> 0 -> 256 ^ zlen l <= be (b :: l).
Proof. intros b l H N. inversion H as [|? ? Hb Hl]; subst. change (b :: l) with ([b] ++ l). rewrite be_app. pose proof (be_nonneg l Hl). unfold is_byte in Hb. assert (be [b] = b) by (unfold be; cbn; lia). pose proof (Z.pow_pos_nonneg 256 (zlen l) ltac:(lia) (zlen_nonneg _ l)). nia. Qed.
Lemma be_loop_acc : forall f v acc, be_loop f v acc = be_loop f v [] ++ acc.
Proof.
  induction f as [|f IH]; intros v acc; cbn [be_loop]; destruct (v =? 0); try reflexivity. rewrite IH, (IH _ [_]). rewrite <- app_assoc. reflexivity.
Qed.
Lemma be_loop_be : forall l f, bytes_ok l -> match l with b :: _ => b <> 0 | [] => True end -> (length l <= f)%nat -> be_loop f (be l) [] = l.
Proof.
  induction l as [|b l IH] using rev_ind; intros f H N L; [destruct f; reflexivity|]. apply Forall_app in H. destruct H as [H1 H2]. inversion H2 as [|? ? Hb _]; subst. rewrite app_length in L. cbn [length] in L. destruct f as [|f]; [lia|]. rewrite be_snoc. unfold is_byte in Hb. pose proof (be_nonneg l H1) as Bl.
  cbn [be_loop]. assert (Nz : be l * 256 + b <> 0). { destruct l as [|c l]; [unfold be; cbn in N |- *; lia|]. cbn [app] in N. pose proof (be_ge c l H1 N). pose proof (Z.pow_pos_nonneg 256 (zlen l) ltac:(lia) (zlen_nonneg _ l)). lia. }
  apply Z.eqb_neq in Nz. rewrite Nz. rewrite be_loop_acc. replace ((be l * 256 + b) / 256) with (be l) by (rewrite Z.div_add_l by lia; rewrite Z.div_small by lia; lia). replace ((be l * 256 + b) mod 256) with b by (rewrite Z.add_comm, Z.mod_add by lia; rewrite Z.mod_small by lia; reflexivity).
  rewrite IH; [reflexivity|exact H1| |lia]. destruct l; [exact I|exact N].
Qed.
Lemma be_bytes_be : forall b l, bytes_ok (b :: l) -> b <> 0 -> be_bytes (be (b :: l)) = b :: l.
Proof.
  intros b l H N. unfold be_bytes. apply be_loop_be; [exact H|exact N|]. pose proof (be_ge b l H N) as G. cbn [length]. apply le_n_S. apply Nat2Z.inj_le. fold (zlen l). pose proof (zlen_nonneg _ l) as Ln.
  assert (P : 2 ^ zlen l <= be (b :: l)) by (etransitivity; [|exact G]; apply Z.pow_le_mono_l; lia). pose proof (Z.pow_pos_nonneg 2 (zlen l) ltac:(lia) Ln). pose proof (Z.log2_nonneg (be (b :: l))). rewrite Z2Nat.id by lia. apply Z.log2_le_pow2; lia.
Qed.
Lemma be_bytes_spec : forall n, 0 < n -> exists b l, be_bytes n = b :: l /\ bytes_ok (b :: l) /\ b <> 0 /\ be (b :: l) = n.
Proof.
  assert (G : forall f n, 0 < n -> n < 2 ^ Z.of_nat f -> exists b l, be_loop f n [] = b :: l /\ bytes_ok (b :: l) /\ b <> 0 /\ be (b :: l) = n).
  { induction f as [|f IH]; intros n Hn Hf; [cbn in Hf; lia|]. cbn [be_loop]. destruct (Z.eqb_spec n 0) as [E|_]; [lia|]. pose proof (Z.div_mod n 256 ltac:(lia)) as D. pose proof (Z.mod_pos_bound n 256 ltac:(lia)) as M. rewrite be_loop_acc. destruct (Z.eq_dec (n / 256) 0) as [E|E].
    - rewrite E. assert (X : be_loop f 0 [] = []) by (destruct f; reflexivity). rewrite X. exists (n mod 256), []. split; [reflexivity|]. split; [repeat constructor; unfold is_byte; lia|]. split; [lia|]. unfold be. cbn. lia.
    - assert (0 <= n / 256) by (apply Z.div_pos; lia). destruct (IH (n / 256)) as (b & l & -> & B & N & V); [lia| |].
      + rewrite Nat2Z.inj_succ, Z.pow_succ_r in Hf by lia. apply Z.div_lt_upper_bound; lia.
      + exists b, (l ++ [n mod 256]). split; [reflexivity|]. change (b :: l ++ [n mod 256]) with ((b :: l) ++ [n mod 256]). split; [apply Forall_app; split; [exact B|repeat constructor; unfold is_byte; lia]|]. split; [exact N|]. rewrite be_snoc, V. lia. }
  intros n Hn. unfold be_bytes. apply G; [exact Hn|]. rewrite Nat2Z.inj_succ, Z2Nat.id by apply Z.log2_nonneg. apply Z.log2_spec. exact Hn.
Qed.
Lemma be_bytes_len : forall n k, 0 < n < 256 ^ k -> 0 <= k -> zlen (be_bytes n) <= k.
Proof.
  intros n k H Hk. destruct (be_bytes_spec n ltac:(lia)) as (b & l & -> & B & N & V). pose proof (be_ge b l B N) as G. rewrite V in G. rewrite zlen_cons. assert (256 ^ zlen l < 256 ^ k) by lia. apply Z.pow_lt_mono_r_iff in H0; lia.
Qed.

(** ** Headers *)
Lemma land255 : forall n, 0 <= n < 256 -> Z.land n 255 = n.
Proof. intros n H. change 255 with (Z.ones 8). rewrite Z.land_ones by lia. apply Z.mod_small. exact H. Qed.
Lemma lor7 : forall n, 0 <= n < 128 -> Z.land (Z.lor 128 n) 255 = 128 + n /\ Z.lor n 128 = 128 + n.
Proof.
  assert (C : forallb (fun n => (Z.land (Z.lor 128 n) 255 =? 128 + n) && (Z.lor n 128 =? 128 + n)) (map Z.of_nat (seq 0 128)) = true) by (vm_compute; reflexivity).
  intros n H. rewrite forallb_forall in C. assert (I : In n (map Z.of_nat (seq 0 128))) by (apply in_map_iff; exists (Z.to_nat n); split; [lia|apply in_seq; lia]). specialize (C n I). apply andb_true_iff in C. destruct C as [C1 C2]. apply Z.eqb_eq in C1, C2. split; assumption.
Qed.
Lemma lor128 : forall n, 0 <= n < 128 -> Z.land (Z.lor 128 n) 255 = 128 + n.
Proof. intros n H. apply lor7. exact H. Qed.
Lemma land128 : forall n, 0 <= n < 256 -> (Z.land n 128 =? 0) = (n <? 128).
Proof.
  assert (C : forallb (fun n => Bool.eqb (Z.land n 128 =? 0) (n <? 128)) (map Z.of_nat (seq 0 256)) = true) by (vm_compute; reflexivity).
  intros n H. rewrite forallb_forall in C. assert (I : In n (map Z.of_nat (seq 0 256))) by (apply in_map_iff; exists (Z.to_nat n); split; [lia|apply in_seq; lia]). specialize (C n I). apply Bool.eqb_prop in C. exact C.
Qed.
Lemma land127 : forall n, 0 <= n -> Z.land n 127 = n mod 128.
Proof. intros n H. change 127 with (Z.ones 7). rewrite Z.land_ones by lia. reflexivity. Qed.
Lemma header_len : forall t n l, is_len n l -> encodeHeader t n = t :: l.
Proof.
  intros t n l [[H ->]|(H & b & r & -> & L & B & N & V)]; unfold encodeHeader.
  - replace (n <=? 127) with true by lia. rewrite land255 by lia. reflexivity.
  - replace (n <=? 127) with false by lia. rewrite <- V, be_bytes_be by assumption. rewrite lor128; [reflexivity|]. pose proof (zlen_nonneg _ (b :: r)). lia.
Qed.
Lemma header_is_len : forall t n, 0 <= n < 2 ^ 64 -> exists l, encodeHeader t n = t :: l /\ is_len n l.
Proof.
  intros t n H. destruct (Z.ltb_spec n 128) as [E|E].
  - exists [n]. assert (L : is_len n [n]) by (left; split; [lia|reflexivity]). split; [apply header_len; exact L|exact L].
  - destruct (be_bytes_spec n ltac:(lia)) as (b & r & Eb & B & N & V). assert (Lb : zlen (b :: r) <= 126) by (rewrite <- Eb; etransitivity; [apply (be_bytes_len n 8); lia|lia]).
    assert (L : is_len n ((128 + zlen (b :: r)) :: b :: r)) by (right; split; [exact E|]; exists b, r; auto). eexists. split; [apply header_len; exact L|exact L].
Qed.
Lemma decodeLength_ok : forall r w acc, decodeLength (length r) (r ++ w) acc = Ok (r, fold_left (fun n b => n * 256 + b) r acc).
Proof. induction r as [|b r IH]; intros w acc; [reflexivity|]. cbn [length app decodeLength fold_left]. rewrite IH. cbn [rbind fst snd]. replace (256 * acc + b) with (acc * 256 + b) by lia. reflexivity. Qed.
Lemma decode_header_ok : forall t n l w, is_len n l -> decodeHeader (t :: l ++ w) = Ok (t :: l, n).
Proof.
  intros t n l w [[H ->]|(H & b & r & -> & L & B & N & V)]; cbn [app decodeHeader].
  - rewrite land128 by lia. replace (n <? 128) with true by lia. reflexivity.
  - pose proof (zlen_nonneg _ (b :: r)). rewrite land128 by lia. replace (128 + zlen (b :: r) <? 128) with false by lia. cbn [negb]. rewrite land127 by lia. replace ((128 + zlen (b :: r)) mod 128) with (zlen (b :: r)) by (rewrite Z.add_comm; rewrite <- (Z.mul_1_l 128) at 1; rewrite Z.mod_add by lia; rewrite Z.mod_small by lia; reflexivity).
    unfold zlen at 1. rewrite Nat2Z.id. change (b :: r ++ w) with ((b :: r) ++ w). rewrite decodeLength_ok. cbn [rbind fst snd]. unfold be in V. rewrite V. reflexivity.
Qed.
Lemma is_len_pos : forall n l, is_len n l -> 0 <= n /\ 1 <= zlen l.
Proof. intros n l [[H ->]|(H & b & r & -> & _)]; [cbn; lia|]. rewrite zlen_cons. pose proof (zlen_nonneg _ (b :: r)). lia. Qed.
Lemma is_len_fun : forall n l l', is_len n l -> is_len n l' -> l = l'.
Proof. intros n l l' H H'. apply (header_len 0) in H. apply (header_len 0) in H'. congruence. Qed.
Lemma encodeHeader_len : forall t n, 2 <= zlen (encodeHeader t n).
Proof. intros t n. unfold encodeHeader. destruct (n <=? 127); rewrite ?zlen_cons; [cbn; lia|]. pose proof (zlen_nonneg _ (be_bytes n)). lia. Qed.
Lemma encodeHeader_type : forall t n, exists l, encodeHeader t n = t :: l.
Proof. intros t n. unfold encodeHeader. destruct (n <=? 127); eauto. Qed.

(** ** Integers *)
Lemma int_is : forall n, 0 <= n -> is_int n (integer_bytes n).
Proof.
  intros n H. unfold integer_bytes. destruct (Z.eqb_spec n 0) as [->|N]; [cbn; split; [repeat constructor; unfold is_byte; lia|]; split; [reflexivity|]; split; [lia|exact I]|].
  destruct (be_bytes_spec n ltac:(lia)) as (b & l & -> & B & Nb & V). inversion B as [|? ? Hb Hl]; subst. unfold is_byte in Hb. destruct (Z.leb_spec 128 b).
  - split; [constructor; [unfold is_byte; lia|exact B]|]. split; [unfold be; cbn [fold_left]; unfold be; reflexivity|]. split; [lia|]. intros _. exact H0.
  - split; [exact B|]. split; [reflexivity|]. split; [exact H0|]. destruct l; [exact I|]. intros X. congruence.
Qed.
Lemma int_fun : forall n c, is_int n c -> integer_bytes n = c.
Proof.
  intros n c (B & V & M). destruct c as [|b r]; [destruct M|]. destruct M as [Mb Mr]. inversion B as [|? ? Hb Hr]; subst. unfold is_byte in Hb. unfold integer_bytes. destruct (Z.eq_dec b 0) as [->|N].
  - change (be (0 :: r)) with (be r). destruct r as [|b2 r]; [reflexivity|]. specialize (Mr eq_refl). pose proof (be_ge b2 r Hr ltac:(lia)) as G. pose proof (Z.pow_pos_nonneg 256 (zlen r) ltac:(lia) (zlen_nonneg _ r)). replace (be (b2 :: r) =? 0) with false by lia. rewrite be_bytes_be by (assumption || lia). replace (128 <=? b2) with true by lia. reflexivity.
  - pose proof (be_ge b r B N) as G. pose proof (Z.pow_pos_nonneg 256 (zlen r) ltac:(lia) (zlen_nonneg _ r)). replace (be (b :: r) =? 0) with false by lia. rewrite be_bytes_be by assumption. replace (128 <=? b) with false by lia. reflexivity.
Qed.
Lemma int_toVal : forall n c, is_int n c -> integer_toVal c = Ok n.
Proof. intros n c (B & V & M). destruct c as [|b r]; [destruct M|]. destruct M as [Mb Mr]. unfold integer_toVal. replace (128 <=? b) with false by lia. f_equal. exact V. Qed.

(** ** Base 128 *)
Definition v128 (p : bytes) : Z := fold_left (fun n b => n * 128 + (b - 128)) p 0.
Lemma v128_snoc : forall p b, v128 (p ++ [b]) = v128 p * 128 + (b - 128).
Proof. intros. unfold v128. rewrite fold_left_app. reflexivity. Qed.
Definition p128 (p : bytes) : Prop := Forall (fun b => 128 <= b < 256) p.
Lemma v128_nonneg : forall p, p128 p -> 0 <= v128 p.
Proof. intros p H. induction p as [|b p IH] using rev_ind; [unfold v128; cbn; lia|]. apply Forall_app in H. destruct H as [H1 H2]. inversion H2; subst. rewrite v128_snoc. specialize (IH H1). lia. Qed.
Lemma v128_pos : forall b p, p128 (b :: p) -> b <> 128 -> 2 ^ zlen p <= v128 (b :: p).
Proof.
  intros b p H N. induction p as [|c p IH] using rev_ind; [inversion H; subst; unfold v128; cbn; lia|]. change (b :: p ++ [c]) with ((b :: p) ++ [c]) in *. apply Forall_app in H. destruct H as [H1 H2]. inversion H2; subst. rewrite v128_snoc, zlen_app. change (zlen [c]) with 1. pose proof (zlen_nonneg _ p). rewrite Z.pow_add_r by lia. specialize (IH H1). lia.
Qed.
Lemma loop128_acc : forall f v acc, loop128 f v acc = loop128 f v [] ++ acc.
Proof. induction f as [|f IH]; intros v acc; cbn [loop128]; destruct (v =? 0); try reflexivity. rewrite IH, (IH _ [_]). rewrite <- app_assoc. reflexivity. Qed.
Lemma lor_128 : forall v, 0 <= v -> Z.lor (Z.land v 127) 128 = 128 + v mod 128.
Proof. intros v H. rewrite land127 by exact H. apply lor7. apply Z.mod_pos_bound. lia. Qed.
Lemma loop128_v : forall p f, p128 p -> match p with b :: _ => b <> 128 | [] => True end -> (length p <= f)%nat -> loop128 f (v128 p) [] = p.
Proof.
  induction p as [|b p IH] using rev_ind; intros f H N L; [destruct f; reflexivity|]. apply Forall_app in H. destruct H as [H1 H2]. inversion H2 as [|? ? Hb _]; subst. rewrite app_length in L. cbn [length] in L. destruct f as [|f]; [lia|]. rewrite v128_snoc. pose proof (v128_nonneg p H1) as Bl.
  cbn [loop128]. assert (Nz : v128 p * 128 + (b - 128) <> 0). { destruct p as [|c p]; [unfold v128; cbn in N |- *; lia|]. cbn [app] in N. pose proof (v128_pos c p H1 N). pose proof (Z.pow_pos_nonneg 2 (zlen p) ltac:(lia) (zlen_nonneg _ p)). lia. }
  apply Z.eqb_neq in Nz. rewrite Nz. rewrite loop128_acc. rewrite lor_128 by lia. replace ((v128 p * 128 + (b - 128)) / 128) with (v128 p) by (rewrite Z.div_add_l by lia; rewrite Z.div_small by lia; lia). replace ((v128 p * 128 + (b - 128)) mod 128) with (b - 128) by (rewrite Z.add_comm, Z.mod_add by lia; rewrite Z.mod_small by lia; reflexivity). replace (128 + (b - 128)) with b by lia.
  rewrite IH; [reflexivity|exact H1| |lia]. destruct p; [exact I|exact N].
Qed.
Lemma e128_fun : forall x c, is_128 x c -> encode128 x = c.
Proof.
  intros x c (p & z & -> & F & Hz & N & ->). fold (v128 p). unfold encode128. pose proof (v128_nonneg p F) as Bp. destruct p as [|b p].
  - unfold v128. cbn [fold_left app]. replace (0 * 128 + z <? 128) with true by lia. rewrite land127 by lia. rewrite Z.mod_small by lia. reflexivity.
  - pose proof (v128_pos b p F N) as G. pose proof (Z.pow_pos_nonneg 2 (zlen p) ltac:(lia) (zlen_nonneg _ p)). replace (v128 (b :: p) * 128 + z <? 128) with false by lia. rewrite land127 by lia. rewrite loop128_acc. replace ((v128 (b :: p) * 128 + z) / 128) with (v128 (b :: p)) by (rewrite Z.div_add_l by lia; rewrite Z.div_small by lia; lia). replace ((v128 (b :: p) * 128 + z) mod 128) with z by (rewrite Z.add_comm, Z.mod_add by lia; rewrite Z.mod_small by lia; reflexivity).
    rewrite loop128_v; [reflexivity|exact F|exact N|]. cbn [length]. apply le_n_S. apply Nat2Z.inj_le. fold (zlen p). pose proof (zlen_nonneg _ p). rewrite Z2Nat.id by apply Z.log2_nonneg. apply Z.log2_le_pow2; lia.
Qed.
Lemma loop128_spec : forall f v, 0 <= v -> v < 2 ^ Z.of_nat f -> p128 (loop128 f v []) /\ v128 (loop128 f v []) = v /\ match loop128 f v [] with b :: _ => b <> 128 | [] => True end.
Proof.
  induction f as [|f IH]; intros v Hv Hf; [assert (v = 0) by (cbn in Hf; lia); subst v; cbn; split; [constructor|auto]|]. cbn [loop128]. destruct (Z.eqb_spec v 0) as [->|Nz]; [split; [constructor|split; [reflexivity|exact I]]|]. rewrite loop128_acc, lor_128 by exact Hv.
  pose proof (Z.div_mod v 128 ltac:(lia)) as D. pose proof (Z.mod_pos_bound v 128 ltac:(lia)) as M. assert (Hd : 0 <= v / 128) by (apply Z.div_pos; lia). destruct (IH (v / 128) Hd) as (P & V & H); [rewrite Nat2Z.inj_succ, Z.pow_succ_r in Hf by lia; apply Z.div_lt_upper_bound; lia|].
  split; [apply Forall_app; split; [exact P|repeat constructor; lia]|]. split; [rewrite v128_snoc, V; lia|]. destruct (loop128 f (v / 128) []) as [|b l] eqn:E; cbn [app]; [|exact H]. change (v128 []) with 0 in V. lia.
Qed.
Lemma e128_is : forall x, 0 <= x -> is_128 x (encode128 x).
Proof.
  intros x H. unfold encode128. destruct (Z.ltb_spec x 128) as [E|E].
  - rewrite land127, Z.mod_small by lia. exists [], x. split; [reflexivity|]. split; [constructor|]. split; [lia|]. split; [exact I|]. cbn. lia.
  - rewrite land127 by lia. rewrite loop128_acc. pose proof (Z.div_mod x 128 ltac:(lia)) as D. pose proof (Z.mod_pos_bound x 128 ltac:(lia)) as M. assert (Hd : 0 <= x / 128) by (apply Z.div_pos; lia).
    destruct (loop128_spec (S (Z.to_nat (Z.log2 x))) (x / 128) Hd) as (P & V & N). { rewrite Nat2Z.inj_succ, Z2Nat.id by apply Z.log2_nonneg. pose proof (Z.log2_spec x ltac:(lia)). lia. }
    eexists. exists (x mod 128). split; [reflexivity|]. split; [exact P|]. split; [lia|]. split; [exact N|]. fold (v128 (loop128 (S (Z.to_nat (Z.log2 x))) (x / 128) [])). rewrite V. lia.
Qed.
Lemma d128 : forall x c rest, is_128 x c -> decode128 (c ++ rest) 0 = Ok (x, rest).
Proof.
  intros x c rest (p & z & -> & F & Hz & N & ->). clear N. rewrite <- app_assoc. cbn [app]. generalize 0 as acc. induction p as [|b p IH]; intros acc; cbn [app decode128 fold_left].
  - rewrite land128 by lia. replace (z <? 128) with true by lia. reflexivity.
  - inversion F; subst. rewrite land128 by lia. replace (b <? 128) with false by lia. cbn [negb]. rewrite (IH H2). replace (128 * acc + b - 128) with (acc * 128 + (b - 128)) by lia. reflexivity.
Qed.
Lemma is_128_bytes : forall x c, is_128 x c -> bytes_ok c /\ c <> [].
Proof. intros x c (p & z & -> & F & Hz & _). split; [|destruct p; discriminate]. apply Forall_app. split; [eapply Forall_impl; [|exact F]; intros b Hb; unfold is_byte; cbn in Hb; lia|repeat constructor; unfold is_byte; lia]. Qed.
Lemma oid_comps : forall l parts f, Forall2 is_128 l parts -> (length (concat parts) <= f)%nat -> oid_components f (concat parts) = Ok l.
Proof.
  intros l parts f F. revert f. induction F as [|x c l parts Hx _ IH]; intros f L; [destruct f; reflexivity|]. cbn [concat] in *. rewrite app_length in L. destruct (is_128_bytes _ _ Hx) as [_ Nc]. destruct f as [|f]; [destruct c; [congruence|cbn in L; lia]|]. assert (1 <= length c)%nat by (destruct c; [congruence|cbn; lia]).
  assert (X : oid_components (S f) (c ++ concat parts) = (r <-- decode128 (c ++ concat parts) 0 ;; l <-- oid_components f (snd r) ;; Ok (fst r :: l))) by (destruct c; [congruence|reflexivity]). rewrite X, (d128 x c _ Hx). cbn [rbind fst snd]. rewrite IH by lia. reflexivity.
Qed.
Lemma oid_fun : forall l c, is_oid l c -> oid_payload l = Ok c.
Proof.
  intros l c (a & b & r & parts & -> & Ha & Hb & F & ->). unfold oid_payload. replace ((0 <=? a) && (a <=? 2)) with true by lia. replace ((0 <=? b) && (b <=? 39)) with true by lia. f_equal. inversion F as [|? p ? ps Hp Fp]; subst. cbn [concat]. rewrite (e128_fun (a * 40 + b) p) by (replace (a * 40 + b) with (40 * a + b) by lia; exact Hp). f_equal. clear - Fp. induction Fp as [|x c l parts Hx _ IH]; [reflexivity|]. cbn [flat_map concat]. rewrite (e128_fun x c Hx), IH. reflexivity.
Qed.
Lemma oid_is : forall a b r, 0 <= a <= 2 -> 0 <= b <= 39 -> Forall (fun x => 0 <= x) r -> exists c, oid_payload (a :: b :: r) = Ok c /\ is_oid (a :: b :: r) c.
Proof.
  intros a b r Ha Hb F. assert (O : is_oid (a :: b :: r) (concat (map encode128 (40 * a + b :: r)))).
  { exists a, b, r, (map encode128 (40 * a + b :: r)). split; [reflexivity|]. split; [exact Ha|]. split; [exact Hb|]. split; [|reflexivity]. assert (F' : Forall (fun x => 0 <= x) (40 * a + b :: r)) by (constructor; [lia|exact F]). clear - F'. induction F' as [|x l Hx _ IH]; constructor; [apply e128_is; exact Hx|exact IH]. }
  eexists. split; [apply oid_fun; exact O|exact O].
Qed.
Lemma oid_read : forall fl l c, (forall x, 0 <= x < 120 -> fl x = x / 40) -> is_oid l c -> oid_toVal fl c = Ok l.
Proof.
  intros fl l c Hf (a & b & r & parts & -> & Ha & Hb & F & ->). unfold oid_toVal. rewrite (oid_comps _ _ _ F) by lia. cbn [rbind]. rewrite Hf by lia. replace ((40 * a + b) / 40) with a by (rewrite Z.mul_comm, Z.div_add_l by lia; rewrite Z.div_small by lia; lia). replace ((40 * a + b) mod 40) with b by (rewrite Z.add_comm, Z.mul_comm, Z.mod_add by lia; rewrite Z.mod_small by lia; reflexivity). reflexivity.
Qed.
Lemma oid_bytes : forall l c, is_oid l c -> bytes_ok c.
Proof. intros l c (a & b & r & parts & _ & _ & _ & F & ->). clear - F. induction F as [|x p l ps Hx _ IH]; [constructor|]. cbn [concat]. apply Forall_app. split; [apply (is_128_bytes _ _ Hx)|exact IH]. Qed.
