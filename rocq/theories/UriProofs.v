(** * Lemmas about URI escaping and parsing. *)
From Verif Require Import Base BaseLemmas TlvModel NameModel NameSpec UriModel.
From Coq Require Import ZifyBool.
Local Open Scope res_scope.

Ltac zdiv := Z.to_euclidean_division_equations; lia.

(** ** strip, find *)
Definition nospace (s : list Z) : Prop := Forall (fun c => is_space c = false) s.
Lemma lstrip_nospace : forall s, nospace s -> lstrip s = s.
Proof. intros s H. destruct H; [reflexivity|]. cbn [lstrip]. now rewrite H. Qed.
Lemma strip_nospace : forall s, nospace s -> strip s = s.
Proof.
  intros s H. unfold strip. rewrite (lstrip_nospace s H).
  rewrite lstrip_nospace; [apply rev_involutive|]. unfold nospace. now apply Forall_rev.
Qed.

Lemma find_idx_none : forall c s, Forall (fun x => x <> c) s -> find_idx c s = None.
Proof.
  intros c s H. induction H; [reflexivity|]. cbn [find_idx]. replace (x =? c) with false by lia. now rewrite IHForall.
Qed.
Lemma find_idx_app : forall c s r, Forall (fun x => x <> c) s -> find_idx c (s ++ c :: r) = Some (length s).
Proof.
  intros c s r H. induction H; cbn [app find_idx length].
  - now rewrite Z.eqb_refl.
  - replace (x =? c) with false by lia. now rewrite IHForall.
Qed.
Lemma find_idx_ge : forall c s r i, Forall (fun x => x <> c) s -> find_idx c (s ++ r) = Some i -> (length s <= i)%nat.
Proof.
  intros c s r i H. revert i. induction H; intros i; cbn [app find_idx length].
  - lia.
  - replace (x =? c) with false by lia. destruct (find_idx c (l ++ r)) eqn:E; [|discriminate].
    intros K. inversion K; subst. specialize (IHForall _ eq_refl). lia.
Qed.

(** ** Characters of escaped text *)
Definition uchar (x : Z) : Prop := unreserved x = true \/ x = 37.
Lemma uchar_facts : forall x, uchar x -> is_space x = false /\ x <> 47 /\ x <> 61 /\ x <> 58 /\ 0 <= x < 128.
Proof. intros x [H| ->]; unfold is_space; [unfold unreserved in H; lia|cbn; lia]. Qed.

Lemma hexU_range : forall d, 0 <= d < 16 -> unreserved (hexU d) = true.
Proof. intros. unfold hexU, unreserved. destruct (d <? 10) eqn:?; lia. Qed.
Lemma hex_digit_U : forall d, 0 <= d < 16 -> hex_digit (hexU d) = Some d.
Proof.
  intros. unfold hexU, hex_digit. destruct (d <? 10) eqn:E.
  - replace (_ && _) with true by lia. f_equal. lia.
  - replace ((48 <=? 55 + d) && (55 + d <=? 57)) with false by lia.
    replace ((65 <=? 55 + d) && (55 + d <=? 70)) with true by lia. f_equal. lia.
Qed.
Lemma hex_digit_L : forall d, 0 <= d < 16 -> hex_digit (hexL d) = Some d.
Proof.
  intros. unfold hexL, hex_digit. destruct (d <? 10) eqn:E.
  - replace (_ && _) with true by lia. f_equal. lia.
  - replace ((48 <=? 87 + d) && (87 + d <=? 57)) with false by lia.
    replace ((65 <=? 87 + d) && (87 + d <=? 70)) with false by lia.
    replace ((97 <=? 87 + d) && (87 + d <=? 102)) with true by lia. f_equal. lia.
Qed.

Definition esc1 (x : Z) : list Z := if unreserved x then [x] else 37 :: hex2U x.
Lemma esc1_uchar : forall x, is_byte x -> Forall uchar (esc1 x).
Proof.
  intros x H. unfold esc1, is_byte in *. destruct (unreserved x) eqn:E; [repeat constructor; assumption|].
  constructor; [right; reflexivity|]. unfold hex2U.
  repeat constructor; apply hexU_range; zdiv.
Qed.

Lemma toEscaped_uchar : forall v, bytes_ok v -> Forall uchar (toEscapedString v).
Proof.
  intros v H. unfold toEscapedString. destruct (negb (gotNonDot v)).
  - apply Forall_forall. intros x Hx. apply repeat_spec in Hx. subst. left. reflexivity.
  - change (fun x => if unreserved x then [x] else 37 :: hex2U x) with esc1.
    induction H; cbn [flat_map]; [constructor|]. apply Forall_app. split; [now apply esc1_uchar|assumption].
Qed.
Lemma toEscaped_nonempty : forall v, toEscapedString v <> [].
Proof.
  intros v H. unfold toEscapedString in H. destruct (negb (gotNonDot v)) eqn:E.
  - rewrite Nat.add_comm in H. discriminate.
  - destruct v; [discriminate|]. cbn [flat_map] in H. destruct (unreserved z); discriminate.
Qed.

Lemma unescape_esc1 : forall x s, is_byte x -> unescape (esc1 x ++ s) = (rest <-- unescape s ;; Ok (x :: rest)).
Proof.
  intros x s H. unfold is_byte, esc1 in *. destruct (unreserved x) eqn:E.
  - cbn [app unescape]. replace (x =? 37) with false by (unfold unreserved in E; lia).
    unfold to_byte. replace (_ && _) with true by lia. reflexivity.
  - cbn [app hex2U unescape]. rewrite Z.eqb_refl. unfold int16_2. rewrite !hex_digit_U by zdiv.
    replace (x / 16 * 16 + x mod 16) with x by zdiv.
    replace ((0 <=? x) && (x <? 256)) with true by lia. reflexivity.
Qed.

Lemma unescape_flat : forall v, bytes_ok v -> unescape (flat_map esc1 v) = Ok v.
Proof.
  intros v H. induction H; [reflexivity|]. cbn [flat_map]. rewrite unescape_esc1 by assumption.
  rewrite IHForall. reflexivity.
Qed.

Lemma dots_repeat : forall v, gotNonDot v = false -> v = repeat 46 (length v).
Proof.
  induction v as [|x v IH]; intros H; [reflexivity|]. cbn [gotNonDot existsb] in H.
  apply orb_false_iff in H. destruct H as [H1 H2]. cbn [length repeat]. f_equal; [|now apply IH].
  apply negb_false_iff in H1. lia.
Qed.
Lemma unescape_dots : forall n, unescape (repeat 46 n) = Ok (repeat 46 n).
Proof. induction n; [reflexivity|]. cbn [repeat unescape]. cbn [Z.eqb Pos.eqb to_byte]. rewrite IHn. reflexivity. Qed.
Lemma gotNonDot_dots : forall n, gotNonDot (repeat 46 n) = false.
Proof. induction n; [reflexivity|]. cbn [repeat gotNonDot existsb]. exact IHn. Qed.

Lemma from_toEscaped : forall v, bytes_ok v -> fromEscapedString (toEscapedString v) = Ok (Some v).
Proof.
  intros v H. unfold fromEscapedString. rewrite strip_nospace.
  2:{ eapply Forall_impl; [|apply toEscaped_uchar; exact H]. intros a Ha. now apply uchar_facts. }
  unfold toEscapedString. destruct (gotNonDot v) eqn:E; cbn [negb].
  - change (fun x => if unreserved x then [x] else 37 :: hex2U x) with esc1. rewrite unescape_flat by assumption.
    cbn [rbind]. rewrite E. reflexivity.
  - rewrite unescape_dots. cbn [rbind]. rewrite gotNonDot_dots. cbn [negb].
    replace (zlen (repeat 46 (length v + 3)) <=? 2) with false by (unfold zlen; rewrite repeat_length; lia).
    rewrite (dots_repeat v E) at 2. rewrite Nat.add_comm. reflexivity.
Qed.

(** ** Decimal *)
Lemma dec_digits_acc : forall f n acc, dec_digits f n acc = dec_digits f n [] ++ acc.
Proof.
  induction f; intros; [reflexivity|]. cbn [dec_digits]. destruct (n <? 10); [reflexivity|].
  rewrite (IHf _ [_]), (IHf _ (_ :: acc)), <- app_assoc. reflexivity.
Qed.
Definition isdig (c : Z) : Prop := 48 <= c <= 57.
Lemma dec_digits_dig : forall f n, 0 <= n -> Forall isdig (dec_digits f n []).
Proof.
  induction f; intros; [constructor|]. cbn [dec_digits].
  assert (isdig (48 + n mod 10)) by (unfold isdig; zdiv).
  destruct (n <? 10); [constructor; [assumption|constructor]|]. rewrite dec_digits_acc. apply Forall_app.
  split; [apply IHf; zdiv|constructor; [assumption|constructor]].
Qed.
Lemma int10_digits_app : forall a b acc d, Forall isdig a -> a <> [] ->
  int10_digits (a ++ b) acc d = int10_digits b (fold_left (fun r c => r * 10 + (c - 48)) a acc) true.
Proof.
  induction a as [|x a IH]; intros b acc d H N; [congruence|]. inversion H; subst. unfold isdig in *.
  cbn [app int10_digits fold_left]. replace (_ && _) with true by lia.
  destruct a; [reflexivity|]. apply IH; [assumption|congruence].
Qed.
Lemma dec_digits_value : forall f n, 0 <= n < 10 ^ Z.of_nat f -> (0 < f)%nat ->
  fold_left (fun r c => r * 10 + (c - 48)) (dec_digits f n []) 0 = n.
Proof.
  induction f; intros n H F; [lia|]. cbn [dec_digits]. destruct (n <? 10) eqn:E.
  - cbn [fold_left]. rewrite Z.mod_small by lia. lia.
  - rewrite dec_digits_acc, fold_left_app. cbn [fold_left].
    rewrite Nat2Z.inj_succ, Z.pow_succ_r in H by lia.
    destruct f; [cbn in H; lia|].
    rewrite IHf; [zdiv| |lia]. split; [zdiv|]. apply Z.div_lt_upper_bound; lia.
Qed.
Lemma dec_digits_nonempty : forall f n, (0 < f)%nat -> dec_digits f n [] <> [].
Proof.
  intros f n H. destruct f; [lia|]. cbn [dec_digits]. destruct (n <? 10); [discriminate|].
  rewrite dec_digits_acc. destruct (dec_digits f (n / 10) []); discriminate.
Qed.
Lemma str_int_dig : forall n, 0 <= n -> Forall isdig (str_int n) /\ str_int n <> [].
Proof.
  intros. unfold str_int. replace (n <? 0) with false by lia. split; [now apply dec_digits_dig|apply dec_digits_nonempty; lia].
Qed.
Lemma int10_str : forall n, 0 <= n -> int10 (str_int n) = Some n.
Proof.
  intros n H. destruct (str_int_dig n H) as [D N].
  pose proof (int10_digits_app _ [] 0 false D N) as V. rewrite app_nil_r in V. cbn [int10_digits] in V.
  unfold int10. rewrite strip_nospace.
  2:{ eapply Forall_impl; [|exact D]. intros a Ha. unfold isdig, is_space in *. lia. }
  assert (K : int10_digits (str_int n) 0 false = Some n ->
    match str_int n with
    | [] => None
    | c :: s' =>
      if c =? 43 then int10_digits s' 0 false
      else if c =? 45 then match int10_digits s' 0 false with Some v => Some (- v) | None => None end
      else int10_digits (c :: s') 0 false
    end = Some n).
  { intros Q. destruct (str_int n) as [|c s] eqn:E; [congruence|]. inversion D as [|? ? D1 D2]; subst. unfold isdig in D1.
    replace (c =? 43) with false by lia. replace (c =? 45) with false by lia. exact Q. }
  apply K. rewrite V. f_equal.
  unfold str_int. replace (n <? 0) with false by lia. apply dec_digits_value; [|lia].
  split; [lia|]. assert (n < 2 ^ (Z.log2 n + 1)) by (destruct (Z.eq_dec n 0); [subst; cbn; lia|apply Z.log2_spec; lia]).
  pose proof (Z.log2_nonneg n).
  assert (2 ^ (Z.log2 n + 1) <= 10 ^ (Z.log2 n + 1)) by (apply Z.pow_le_mono_l; lia).
  replace (Z.of_nat (S (Z.to_nat (Z.log2 n)))) with (Z.log2 n + 1) by lia. lia.
Qed.

(** ** Hex digests *)
Definition hexchar (c : Z) : Prop := 48 <= c <= 57 \/ 97 <= c <= 102.
Lemma hexL_range : forall d, 0 <= d < 16 -> hexchar (hexL d).
Proof. intros. unfold hexL, hexchar. destruct (d <? 10) eqn:?; lia. Qed.
Lemma hex2L_chars : forall v, bytes_ok v -> Forall hexchar (flat_map hex2L v).
Proof.
  intros v H. induction H; cbn [flat_map]; [constructor|]. apply Forall_app. split; [|assumption].
  unfold is_byte in *. unfold hex2L. apply Forall_cons; [apply hexL_range; zdiv|]. apply Forall_cons; [apply hexL_range; zdiv|apply Forall_nil].
Qed.
Lemma fromhex_hex : forall v, bytes_ok v -> fromhex (flat_map hex2L v) = Ok v.
Proof.
  intros v H. induction H; [reflexivity|]. unfold is_byte in *. cbn [flat_map hex2L app fromhex].
  assert (hexchar (hexL (x / 16))) by (apply hexL_range; zdiv). unfold hexchar in *.
  replace (is_ascii_space (hexL (x / 16))) with false by (unfold is_ascii_space; lia).
  rewrite !hex_digit_L by zdiv. rewrite IHForall. cbn [rbind]. f_equal. f_equal. zdiv.
Qed.
Lemma hexchar_nospace : forall s, Forall hexchar s -> nospace s.
Proof. intros s H. eapply Forall_impl; [|exact H]. intros a Ha. unfold hexchar, is_space in *. lia. Qed.

(** ** starts_with *)
Lemma starts_with_app : forall p s, starts_with p (p ++ s) = true.
Proof. induction p; intros; cbn [app starts_with]; [reflexivity|]. now rewrite Z.eqb_refl, IHp. Qed.

(** A prefix containing '=' does not match text without '=' ended by '/' or the end. *)
Lemma starts_with_no_eq : forall p t r, In 61 p -> Forall (fun x => x <> 47) p -> Forall (fun x => x <> 61) t ->
  (r = [] \/ exists r', r = 47 :: r') -> starts_with p (t ++ r) = false.
Proof.
  induction p as [|x p IH]; intros t r I N T R; [destruct I|]. inversion N; subst.
  destruct t as [|y t]; cbn [app].
  - destruct R as [->|[r' ->]]; [reflexivity|]. cbn [starts_with]. replace (x =? 47) with false by lia. reflexivity.
  - inversion T; subst. cbn [starts_with]. destruct (x =? y) eqn:E; [|reflexivity]. cbn [andb].
    destruct I as [->|I]; [lia|]. apply IH; auto.
Qed.

(** ** Parsing the components *)
Definition c_uri_ok (c : comp) : Prop :=
  bytes_ok (c_value c) /\
  (c_type c = CT_GENERIC /\ c_other c = -1
   \/ c_type c = CT_OTHER /\ 0 <= c_other c /\ c_other c <> 1 /\ c_other c <> 2 /\ c_other c <> 8).

Definition c_digest_ok (c : comp) : Prop :=
  bytes_ok (c_value c) /\ zlen (c_value c) = 32 /\ c_other c = -1 /\ (c_type c = CT_IMPLICIT \/ c_type c = CT_PARAMS).

Lemma text_chars : forall c, c_uri_ok c -> Forall (fun x => is_space x = false /\ x <> 47 /\ x <> 58) (c_toEscapedString c).
Proof.
  intros c [B H]. unfold c_toEscapedString.
  assert (U : Forall (fun x => is_space x = false /\ x <> 47 /\ x <> 58) (toEscapedString (c_value c))).
  { eapply Forall_impl; [|apply toEscaped_uchar; exact B]. intros a Ha. apply uchar_facts in Ha. tauto. }
  destruct H as [[T O]|[T O]]; rewrite T.
  - cbn. exact U.
  - cbn [Z.eqb CT_OTHER CT_IMPLICIT CT_PARAMS CT_GENERIC Pos.eqb negb].
    apply Forall_app. split; [|exact U]. apply Forall_app. split.
    + destruct (str_int_dig (c_other c)) as [D _]; [lia|]. eapply Forall_impl; [|exact D].
      intros a Ha. unfold isdig, is_space in *. lia.
    + repeat constructor; lia.
Qed.

Lemma text_nonempty : forall c, c_toEscapedString c <> [].
Proof.
  intros c H. unfold c_toEscapedString in H. destruct (c_type c =? CT_IMPLICIT); [discriminate|].
  destruct (c_type c =? CT_PARAMS); [discriminate|]. apply app_eq_nil in H. destruct H as [_ H]. exact (toEscaped_nonempty _ H).
Qed.

(** One step of the loop on a generic or other-type component. *)
Lemma setLoop_step : forall fuel c r acc, c_uri_ok c -> (r = [] \/ exists r', r = 47 :: r') ->
  n_setLoop (S fuel) (c_toEscapedString c ++ r) acc = n_setLoop fuel (skipn 1 r) (acc ++ [c]).
Proof.
  intros fuel c r acc OK R. pose proof (text_chars c OK) as TC. pose proof (text_nonempty c) as NE.
  set (t := c_toEscapedString c) in *.
  cbn [n_setLoop]. destruct (t ++ r) as [|q qs] eqn:Eq; [apply app_eq_nil in Eq; tauto|]. rewrite <- Eq. clear q qs Eq.
  assert (N47 : Forall (fun x => x <> 47) t) by (eapply Forall_impl; [|exact TC]; cbn; tauto).
  assert (Hend : match find_idx 47 (t ++ r) with Some i => i | None => length (t ++ r) end = length t).
  { destruct R as [->|[r' ->]].
    - rewrite app_nil_r, find_idx_none by assumption. reflexivity.
    - rewrite find_idx_app by assumption. reflexivity. }
  rewrite Hend.
  assert (Hskip : skipn (S (length t)) (t ++ r) = skipn 1 r).
  { replace (S (length t)) with (length t + 1)%nat by lia. rewrite <- skipn_skipn'.
    rewrite skipn_app, skipn_all, Nat.sub_diag. reflexivity. }
  rewrite Hskip.
  assert (Hfirst : firstn (length t) (t ++ r) = t) by (rewrite firstn_app, firstn_all, Nat.sub_diag; cbn; apply app_nil_r).
  rewrite Hfirst.
  destruct OK as [B [[T O]|[T O]]].
  - (* generic *)
    assert (Et : t = toEscapedString (c_value c)) by (unfold t, c_toEscapedString; rewrite T; reflexivity).
    assert (N61 : Forall (fun x => x <> 61) t).
    { rewrite Et. eapply Forall_impl; [|apply toEscaped_uchar; exact B]. intros a Ha. apply uchar_facts in Ha. tauto. }
    rewrite !starts_with_no_eq by (try assumption; try (unfold str_sha256digest, str_params_sha256; repeat constructor; lia); cbn; tauto).
    assert (Hty : n_setType (t ++ r) (length t) = Ok (CT_GENERIC, -1, 0%nat)).
    { unfold n_setType. destruct (find_idx 61 (t ++ r)) as [i|] eqn:E; [|reflexivity]. apply find_idx_ge in E; [|assumption].
      replace (Nat.ltb i (length t)) with false; [reflexivity|]. symmetry. apply Nat.ltb_ge. lia. }
    rewrite Hty. cbn [rbind skipn]. rewrite Et, from_toEscaped by assumption. cbn [rbind].
    unfold c_new. cbn [Z.eqb CT_GENERIC CT_OTHER Pos.eqb rbind]. do 2 f_equal.
    destruct c as [ty ot v]. cbn [c_type c_other c_value] in *. subst. reflexivity.
  - (* other code *)
    assert (Et : t = str_int (c_other c) ++ [61] ++ toEscapedString (c_value c)).
    { unfold t, c_toEscapedString. rewrite T. cbn [Z.eqb CT_OTHER CT_IMPLICIT CT_PARAMS CT_GENERIC Pos.eqb negb]. rewrite <- app_assoc. reflexivity. }
    destruct (str_int_dig (c_other c)) as [D Dn]; [lia|].
    assert (Sw : starts_with str_sha256digest (t ++ r) = false /\ starts_with str_params_sha256 (t ++ r) = false).
    { rewrite Et. destruct (str_int (c_other c)) as [|d ds]; [congruence|]. inversion D; subst. unfold isdig in *.
      cbn [app starts_with str_sha256digest str_params_sha256].
      replace (115 =? d) with false by lia. replace (112 =? d) with false by lia. auto. }
    destruct Sw as [-> ->].
    assert (N61 : Forall (fun x => x <> 61) (str_int (c_other c))) by (eapply Forall_impl; [|exact D]; intros a Ha; unfold isdig in Ha; lia).
    assert (Hf : find_idx 61 (t ++ r) = Some (length (str_int (c_other c)))).
    { rewrite Et, <- !app_assoc. cbn [app]. now apply find_idx_app. }
    unfold n_setType. rewrite Hf. replace (Nat.ltb (length (str_int (c_other c))) (length t)) with true.
    2:{ symmetry. apply Nat.ltb_lt. rewrite Et, !app_length. cbn [length]. lia. }
    assert (Hi : firstn (length (str_int (c_other c))) (t ++ r) = str_int (c_other c)).
    { rewrite Et, <- !app_assoc. rewrite firstn_app, firstn_all, Nat.sub_diag. cbn [firstn]. apply app_nil_r. }
    rewrite Hi, int10_str by lia. unfold CT_GENERIC, CT_IMPLICIT, CT_PARAMS.
    replace ((c_other c =? 8) || (c_other c =? 1) || (c_other c =? 2)) with false by lia. cbn zeta. cbn [rbind].
    assert (Hv : skipn (S (length (str_int (c_other c)))) t = toEscapedString (c_value c)).
    { rewrite Et. replace (S (length (str_int (c_other c)))) with (length (str_int (c_other c)) + 1)%nat by lia.
      rewrite <- skipn_skipn'. rewrite skipn_app, skipn_all, Nat.sub_diag. reflexivity. }
    rewrite Hv, from_toEscaped by assumption. cbn [rbind]. unfold c_new. rewrite Z.eqb_refl.
    replace (c_other c <? 0) with false by lia. cbn [rbind]. do 2 f_equal.
    destruct c as [ty ot v]. cbn [c_type c_other c_value] in *. subst. reflexivity.
Qed.

Definition join_uri (n : name) : list Z := skipn 1 (flat_map (fun c => 47 :: c_toEscapedString c) n).

Lemma join_cons : forall c n, join_uri (c :: n) = c_toEscapedString c ++ flat_map (fun c => 47 :: c_toEscapedString c) n.
Proof. reflexivity. Qed.

Lemma setLoop_digest : forall fuel c acc, c_digest_ok c ->
  n_setLoop (S fuel) (c_toEscapedString c) acc = Ok (acc ++ [c]).
Proof.
  intros fuel c acc (B & L & O & T).
  assert (HC : Forall hexchar (flat_map hex2L (c_value c))) by now apply hex2L_chars.
  assert (E : c_toEscapedString c = (if c_type c =? CT_IMPLICIT then str_sha256digest else str_params_sha256) ++ flat_map hex2L (c_value c)).
  { unfold c_toEscapedString. destruct T as [->| ->]; reflexivity. }
  assert (F47 : find_idx 47 (c_toEscapedString c) = None).
  { apply find_idx_none. rewrite E. apply Forall_app. split.
    - destruct (c_type c =? CT_IMPLICIT); repeat constructor; lia.
    - eapply Forall_impl; [|exact HC]. intros a Ha. unfold hexchar in Ha. lia. }
  pose proof (text_nonempty c) as NE.
  cbn [n_setLoop]. destruct (c_toEscapedString c) as [|q qs] eqn:Eq; [congruence|]. rewrite <- Eq in *. clear q qs Eq NE.
  rewrite F47, E. destruct c as [ty ot v]. cbn [c_type c_other c_value] in *. subst ot.
  destruct T as [->| ->]; cbn [Z.eqb CT_IMPLICIT CT_PARAMS Pos.eqb].
  - rewrite starts_with_app. rewrite skipn_app. cbn [length str_sha256digest Nat.sub skipn app].
    rewrite strip_nospace by now apply hexchar_nospace. rewrite fromhex_hex by assumption. cbn [rbind].
    unfold c_fromImplicitSha256Digest. rewrite L. cbn [Z.eqb Pos.eqb negb rbind].
    destruct (flat_map hex2L v) as [|h hs]; [destruct fuel; reflexivity|]. rewrite skipn_all2 by (cbn [length]; lia). destruct fuel; reflexivity.
  - replace (starts_with str_sha256digest (str_params_sha256 ++ flat_map hex2L v)) with false by reflexivity.
    rewrite starts_with_app. rewrite skipn_app. cbn [length str_params_sha256 Nat.sub skipn app].
    rewrite strip_nospace by now apply hexchar_nospace. rewrite fromhex_hex by assumption. cbn [rbind].
    unfold c_fromParametersSha256Digest. rewrite L. cbn [Z.eqb Pos.eqb negb rbind].
    destruct (flat_map hex2L v) as [|h hs]; [destruct fuel; reflexivity|]. rewrite skipn_all2 by (cbn [length]; lia). destruct fuel; reflexivity.
Qed.

(** All components generic/other, optionally followed by one digest component. *)
Definition uri_name_ok (n : name) : Prop :=
  exists p q, n = p ++ q /\ Forall c_uri_ok p /\ (q = [] \/ exists d, q = [d] /\ c_digest_ok d).

Lemma setLoop_join : forall p q fuel acc, Forall c_uri_ok p -> (q = [] \/ exists d, q = [d] /\ c_digest_ok d) ->
  (length (p ++ q) <= fuel)%nat ->
  n_setLoop fuel (join_uri (p ++ q)) acc = Ok (acc ++ p ++ q).
Proof.
  induction p as [|c p IH]; intros q fuel acc Hp Hq F.
  - cbn [app] in *. destruct Hq as [->|(d & -> & Hd)].
    + destruct fuel; cbn; now rewrite app_nil_r.
    + destruct fuel as [|fuel]; [cbn in F; lia|]. rewrite join_cons. cbn [flat_map]. rewrite app_nil_r. now apply setLoop_digest.
  - inversion Hp; subst. destruct fuel as [|fuel]; [cbn in F; lia|]. cbn [app]. rewrite join_cons.
    rewrite setLoop_step; [|assumption|].
    + fold (join_uri (p ++ q)). rewrite IH; auto; [|cbn [length app] in F; lia]. rewrite <- app_assoc. reflexivity.
    + destruct (p ++ q); [left; reflexivity|right; eexists; reflexivity].
Qed.

Lemma join_len : forall n, (length n <= length (join_uri n))%nat.
Proof.
  intros [|c n]; [cbn; lia|]. rewrite join_cons, app_length.
  assert (0 < length (c_toEscapedString c))%nat by (pose proof (text_nonempty c); destruct (c_toEscapedString c); [congruence|cbn; lia]).
  assert (length n <= length (flat_map (fun c => 47%Z :: c_toEscapedString c) n))%nat.
  { clear. induction n; [cbn; lia|]. cbn [flat_map app length]. rewrite app_length. lia. }
  cbn [length]. lia.
Qed.

Lemma digest_chars : forall c, c_digest_ok c -> Forall (fun x => is_space x = false /\ x <> 47 /\ x <> 58) (c_toEscapedString c).
Proof.
  intros c (B & L & O & T). pose proof (hex2L_chars _ B) as HC.
  assert (U : Forall (fun x => is_space x = false /\ x <> 47 /\ x <> 58) (flat_map hex2L (c_value c))).
  { eapply Forall_impl; [|exact HC]. intros a Ha. unfold hexchar, is_space in *. lia. }
  unfold c_toEscapedString. destruct T as [->| ->]; cbn [Z.eqb CT_IMPLICIT CT_PARAMS Pos.eqb];
    (apply Forall_app; split; [repeat constructor; (lia || reflexivity)|exact U]).
Qed.

Lemma uri_chars : forall n, uri_name_ok n ->
  Forall (fun x => is_space x = false /\ x <> 58) (flat_map (fun c => 47 :: c_toEscapedString c) n).
Proof.
  intros n (p & q & -> & Hp & Hq).
  assert (A : Forall (fun c => Forall (fun x => is_space x = false /\ x <> 47 /\ x <> 58) (c_toEscapedString c)) (p ++ q)).
  { apply Forall_app. split.
    - eapply Forall_impl; [|exact Hp]. apply text_chars.
    - destruct Hq as [->|(d & -> & Hd)]; [constructor|]. constructor; [now apply digest_chars|constructor]. }
  induction A; cbn [flat_map]; [constructor|]. constructor; [cbn; lia|]. apply Forall_app. split; [|assumption].
  eapply Forall_impl; [|exact H]. cbn. tauto.
Qed.

Lemma text_no_slash_first : forall n, uri_name_ok n -> starts_with [47] (join_uri n) = false.
Proof.
  intros n (p & q & -> & Hp & Hq). destruct (p ++ q) as [|c r] eqn:E; [reflexivity|]. rewrite join_cons.
  assert (A : Forall (fun x => is_space x = false /\ x <> 47 /\ x <> 58) (c_toEscapedString c)).
  { assert (In c (p ++ q)) by (rewrite E; now left). apply in_app_or in H. destruct H as [H|H].
    - apply text_chars. rewrite Forall_forall in Hp. auto.
    - destruct Hq as [->|(d & -> & Hd)]; [destruct H|]. destruct H as [<-|[]]. now apply digest_chars. }
  pose proof (text_nonempty c). destruct (c_toEscapedString c) as [|x t]; [congruence|]. inversion A; subst.
  cbn [app starts_with]. replace (47 =? x) with false by lia. reflexivity.
Qed.

Lemma nospace_skip : forall k s, nospace s -> nospace (skipn k s).
Proof. intros k s H. unfold nospace in *. rewrite <- (firstn_skipn k s) in H. apply Forall_app in H. tauto. Qed.

Lemma set_toUri : forall n scheme, uri_name_ok n -> n_set (n_toUri n scheme) = Ok n.
Proof.
  intros n scheme OK. destruct n as [|c n]; [destruct scheme; reflexivity|].
  pose proof (uri_chars _ OK) as UC. pose proof (text_no_slash_first _ OK) as NS.
  set (body := flat_map (fun c => 47 :: c_toEscapedString c) (c :: n)) in *.
  assert (Eb : body = 47 :: join_uri (c :: n)) by reflexivity.
  assert (Sb : nospace body) by (eapply Forall_impl; [|exact UC]; cbn; tauto).
  assert (Fb : Forall (fun x => x <> 58) body) by (eapply Forall_impl; [|exact UC]; cbn; tauto).
  assert (Fin : match body with
      | [] => Err IndexError
      | x :: rest => if x =? 47 then
            if starts_with [47] rest then
              match find_idx 47 (skipn 1 rest) with
              | None => Ok []
              | Some i => let u := strip (skipn (S i) (skipn 1 rest)) in n_setLoop (length u) u []
              end
            else let u := strip rest in n_setLoop (length u) u []
          else n_setLoop (length body) body []
      end = Ok (c :: n)).
  { rewrite Eb. rewrite Z.eqb_refl, NS. cbn zeta. rewrite strip_nospace by (rewrite Eb in Sb; now inversion Sb).
    destruct OK as (p & q & E & Hp & Hq). rewrite E. rewrite setLoop_join; auto. apply join_len. }
  unfold n_set, n_toUri. fold body. destruct scheme.
  - assert (Sn : nospace ([110; 100; 110; 58] ++ body)) by (apply Forall_app; split; [repeat constructor|assumption]).
    rewrite strip_nospace by exact Sn. cbn [app].
    assert (Fc : find_idx 58 (110 :: 100 :: 110 :: 58 :: body) = Some 3%nat) by reflexivity.
    rewrite Fc.
    assert (Fs : find_idx 47 (110 :: 100 :: 110 :: 58 :: body) = Some 4%nat) by (rewrite Eb; reflexivity).
    rewrite Fs. cbn [Nat.ltb Nat.leb skipn]. rewrite strip_nospace by exact Sb. exact Fin.
  - cbn [app]. rewrite strip_nospace by exact Sb. rewrite find_idx_none by exact Fb.
    destruct body as [|x r] eqn:E; [discriminate|]. exact Fin.
Qed.
