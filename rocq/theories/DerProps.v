(** * C59, C60, C61: DER *)
From Verif Require Import Base BaseLemmas UriModel UriProofs CalModel CalProofs DerModel DerSpec DerProofs DerProofs2.
From Coq Require Import Arith.
Local Open Scope res_scope.

(** math.floor(x/40) for the small numbers that are exact floats *)
Definition floor_ok (floor40 : Z -> Z) : Prop := forall x, 0 <= x < 120 -> floor40 x = x / 40.

(** ** C59 *)
(** The nodes made for a value encode to its DER encoding, and getSize() is its length *)
Theorem C59_encode : forall v, v_ok v -> exists n, build v = Ok n /\
  snd (getSize n) = zlen (snd (node_encode n)) /\ (zlen (snd (node_encode n)) < 2 ^ 64 -> der v (snd (node_encode n))).
Proof.
  intros v H. destruct (build_ok v H) as (n & E & R). exists n. split; [exact E|]. destruct (encode_ok (depth n) n v R (le_n _)) as (A & _). destruct (getSize_ok n v R) as (B & _). unfold node_encode. rewrite A, B, <- tsize_bytes. split; [reflexivity|]. apply rep_der. exact R.
Qed.
Print Assumptions C59_encode.

(** A DER encoding anywhere in a buffer is parsed to nodes that show the value, know its length and
    encode to the same bytes *)
Theorem C59_parse : forall floor40 v pre bs rest, floor_ok floor40 -> der v bs ->
  exists n, node_parse (pre ++ bs ++ rest) (length pre) = Ok n /\ read floor40 n = Ok v /\ snd (getSize n) = zlen bs /\ snd (node_encode n) = bs.
Proof.
  intros fl v pre bs rest Hf D. unfold node_parse. rewrite skipn_len. destruct (parse_ok v (length (pre ++ bs ++ rest)) bs rest D) as (n & E & R & T); [rewrite !app_length; lia|]. exists n. split; [exact E|]. split; [apply (read_ok fl Hf n v R)|]. destruct (encode_ok (depth n) n v R (le_n _)) as (A & _). destruct (getSize_ok n v R) as (B & _). unfold node_encode. rewrite A, B, <- tsize_bytes, T. auto.
Qed.
Print Assumptions C59_parse.

(** One encoding for each value, and no encoding is the start of another *)
Theorem C59_unique : forall v v' a b x y, der v a -> der v' b -> a ++ x = b ++ y -> v = v' /\ a = b.
Proof.
  intros v v' a b x y Da Db E. assert (Hf : floor_ok (fun x => x / 40)) by (intros z _; reflexivity).
  destruct (parse_ok v (length a + length b) a x Da ltac:(lia)) as (n & E1 & R1 & T1). destruct (parse_ok v' (length a + length b) b y Db ltac:(lia)) as (n' & E2 & R2 & T2). rewrite E in E1. rewrite E1 in E2. injection E2 as <-. pose proof (read_ok _ Hf n v R1). pose proof (read_ok _ Hf n v' R2). split; congruence.
Qed.
Print Assumptions C59_unique.

(** Any other buffer gives nodes, an IndexError or a DER exception *)
Theorem C59_safe : forall buf i e, bytes_ok buf -> node_parse buf i = Err e -> e = IndexError \/ e = OtherError.
Proof.
  intros buf i e B H. unfold node_parse in H. pose proof (parse_safe (length buf) (skipn i buf) (bytes_skipn i buf B) ltac:(rewrite skipn_length; lia)) as P. rewrite H in P. exact P.
Qed.
Print Assumptions C59_safe.

Definition ex_v : value := VSeq [VInt 128; VSeq [VOid [1; 2; 840; 113549]; VNull]; VBits 0 [255; 1]; VBool true; VString [65; 66]].
Definition ex_b : bytes := [48; 28; 2; 2; 0; 128; 48; 10; 6; 6; 42; 134; 72; 134; 247; 13; 5; 0; 3; 3; 0; 255; 1; 1; 1; 255; 19; 2; 65; 66].
Lemma ex_v_ok : v_ok ex_v.
Proof. unfold ex_v. cbn [v_ok]. split; [lia|]. split; [split; [|auto]|]. - exists 1, 2, [840; 113549]. split; [reflexivity|]. split; [lia|]. split; [lia|]. apply Forall_cons; [lia|]. apply Forall_cons; [lia|]. apply Forall_nil. - split; [split; [unfold is_byte; lia|]|]; [apply Forall_cons; [unfold is_byte; lia|]; apply Forall_cons; [unfold is_byte; lia|apply Forall_nil]|]. split; [exact I|]. split; [|exact I]. apply Forall_cons; [unfold is_byte; lia|]; apply Forall_cons; [unfold is_byte; lia|apply Forall_nil]. Qed.
Example C59_ex : der ex_v ex_b /\ build ex_v <> Err OtherError /\ (exists n, node_parse (7 :: ex_b ++ [9]) 1 = Ok n /\ read (fun x => x / 40) n = Ok ex_v).
Proof.
  destruct (C59_encode ex_v ex_v_ok) as (n & E & _ & D). assert (B : snd (node_encode n) = ex_b) by (vm_compute in E; injection E as <-; vm_compute; reflexivity). rewrite B in D. split; [apply D; vm_compute; reflexivity|]. split; [rewrite E; discriminate|].
  destruct (C59_parse (fun x => x / 40) ex_v [7] ex_b [9] ltac:(intros x _; reflexivity) (D ltac:(vm_compute; reflexivity))) as (n' & E' & R & _). exists n'. split; [exact E'|exact R].
Qed.

(** What an integer cannot be: negative, and no bytes are read as a negative number.  The number of
    unused bits is one byte. *)
Theorem C59_rejects : (forall n, n < 0 -> der_integer n = Err OtherError) /\
  (forall p, bytes_ok p -> (exists n, 0 <= n /\ integer_toVal p = Ok n) \/ (integer_toVal p = Err OtherError /\ exists b r, p = b :: r /\ 128 <= b)) /\
  (forall b padding, ~ 0 <= padding < 256 -> der_bitString b padding = Err ValueError).
Proof.
  split; [|split].
  - intros n H. unfold der_integer. replace (n <? 0) with true by lia. reflexivity.
  - intros [|b r] B; [left; exists 0; split; [lia|reflexivity]|]. unfold integer_toVal. destruct (128 <=? b) eqn:E; [right; split; [reflexivity|]; exists b, r; split; [reflexivity|lia]|]. left. eexists. split; [|reflexivity].
    assert (G : forall l a, 0 <= a -> bytes_ok l -> 0 <= fold_left (fun r x => r * 256 + x) l a). { induction l as [|x l IH]; intros a Ha Hl; cbn [fold_left]; [exact Ha|]. inversion Hl as [|? ? Hx Hl']; subst. apply IH; [unfold is_byte in Hx; lia|exact Hl']. } apply G; [lia|exact B].
  - intros b p H. unfold der_bitString. destruct ((0 <=? p) && (p <? 256)) eqn:E; [exfalso; lia|reflexivity].
Qed.
Print Assumptions C59_rejects.
(** A payload that is cut short is accepted *)
Theorem C59_truncated_refuted : exists n, node_parse [4; 5; 1] 0 = Ok n /\ read (fun x => x / 40) n = Ok (VOctets [1]) /\ forall v, ~ der v [4; 5; 1].
Proof.
  eexists. split; [reflexivity|]. split; [reflexivity|]. intros v D. assert (X : exists len c, [4; 5; 1] = tag v :: len ++ c /\ is_len (zlen c) len) by (destruct v; cbn [der] in D; destruct D as (len & c & H1 & H2 & _); exists len, c; auto). destruct X as (len & c & E & [[H ->]|(H & b & r & -> & _)]); cbn [app] in E.
  - injection E as _ E1 E2. rewrite <- E2 in E1. discriminate E1.
  - apply (f_equal (@zlen Z)) in E. rewrite !zlen_cons, zlen_app, zlen_nil in E. pose proof (zlen_nonneg _ r). lia.
Qed.
(** A child that goes beyond the end of its sequence is accepted *)
Theorem C59_overrun_refuted : exists n, node_parse [48; 2; 4; 3; 1; 2; 3] 0 = Ok n /\ read (fun x => x / 40) n = Ok (VSeq [VOctets [1; 2; 3]]).
Proof. eexists. split; reflexivity. Qed.
(** A length which is not in the shortest form makes the parser read the next sibling from a wrong place *)
Theorem C59_nonminimal_refuted : exists n, node_parse [48; 10; 48; 129; 5; 4; 3; 1; 2; 5; 5; 0] 0 = Ok n /\
  read (fun x => x / 40) n = Ok (VSeq [VSeq [VOctets [1; 2; 5]]; VNull]) /\ snd (node_encode n) = [48; 10; 48; 5; 4; 3; 1; 2; 5; 5; 5; 0].
Proof. eexists. split; [vm_compute; reflexivity|]. split; vm_compute; reflexivity. Qed.
(** The indefinite length is read as an empty sequence *)
Theorem C59_indefinite_refuted : exists n, node_parse [48; 128; 5; 0; 0; 0] 0 = Ok n /\ read (fun x => x / 40) n = Ok (VSeq []).
Proof. eexists. split; [vm_compute; reflexivity|]. reflexivity. Qed.

(** ** C60 *)
(** After any history of additions with notification (or at the root), getSize() and encode() calls
    anywhere in the tree, the tree shows and encodes the updated value and knows its length *)
Definition shows (n : node) (v : value) : Prop :=
  snd (getSize n) = zlen (snd (node_encode n)) /\ (zlen (snd (node_encode n)) < 2 ^ 64 -> der v (snd (node_encode n))) /\
  forall floor40, floor_ok floor40 -> read floor40 n = Ok v.
Lemma rep_shows : forall n v, rep n v -> shows n v.
Proof. intros n v R. destruct (encode_ok (depth n) n v R (le_n _)) as (A & _). destruct (getSize_ok n v R) as (B & _). unfold shows, node_encode. rewrite A, B, <- tsize_bytes. split; [reflexivity|]. split; [apply rep_der; exact R|]. intros fl Hf. apply (read_ok fl Hf n v R). Qed.
Theorem C60_built : forall v n os, v_ok v -> build v = Ok n -> Forall op_ok os -> shows (fold_left exec os n) (fold_left v_exec os v).
Proof. intros v n os H E F. apply rep_shows. apply execs_rep; [exact F|]. destruct (build_ok v H) as (n' & E' & R). rewrite E in E'. injection E' as <-. exact R. Qed.
Print Assumptions C60_built.
Theorem C60_parsed : forall v pre bs rest n os, der v bs -> node_parse (pre ++ bs ++ rest) (length pre) = Ok n -> Forall op_ok os -> shows (fold_left exec os n) (fold_left v_exec os v).
Proof.
  intros v pre bs rest n os D E F. apply rep_shows. apply execs_rep; [exact F|]. unfold node_parse in E. rewrite skipn_len in E. destruct (parse_ok v (length (pre ++ bs ++ rest)) bs rest D) as (n' & E' & R & T); [rewrite !app_length; lia|]. rewrite E in E'. injection E' as <-. exact R.
Qed.
Print Assumptions C60_parsed.
Example C60_ex : forall n, build ex_v = Ok n ->
  let os := [OEncode []; OAdd [1%nat] (VInt 7) true; OSize [1%nat]; OAdd [] VNull false; OEncode [1%nat]] in
  Forall op_ok os /\ fold_left v_exec os ex_v = VSeq [VInt 128; VSeq [VOid [1; 2; 840; 113549]; VNull; VInt 7]; VBits 0 [255; 1]; VBool true; VString [65; 66]; VNull] /\
  snd (node_encode (fold_left exec os n)) = [48; 33; 2; 2; 0; 128; 48; 13; 6; 6; 42; 134; 72; 134; 247; 13; 5; 0; 2; 1; 7; 3; 3; 0; 255; 1; 1; 1; 255; 19; 2; 65; 66; 5; 0].
Proof.
  intros n E os. split; [|split; [reflexivity|vm_compute in E; injection E as <-; vm_compute; reflexivity]]. unfold os. apply Forall_cons; [exact I|]. apply Forall_cons; [split; [cbn; lia|auto]|]. apply Forall_cons; [exact I|]. apply Forall_cons; [split; [exact I|auto]|]. apply Forall_cons; [exact I|apply Forall_nil].
Qed.
(** Without notification (the default), a child added two levels below the root after an encode is
    missing from the length: the bytes are not the encoding of the tree, and not of any value *)
Theorem C60_unnotified_refuted : exists n, build (VSeq [VSeq [VSeq []]]) = Ok n /\
  let n' := fold_left exec [OEncode []; OAdd [0%nat; 0%nat] VNull false] n in
  read (fun x => x / 40) n' = Ok (VSeq [VSeq [VSeq [VNull]]]) /\ snd (node_encode n') = [48; 4; 48; 4; 48; 2; 5; 0] /\ (forall v, ~ der v [48; 4; 48; 4; 48; 2; 5; 0]).
Proof.
  eexists. split; [reflexivity|]. cbv zeta. split; [vm_compute; reflexivity|]. split; [vm_compute; reflexivity|]. intros v D.
  assert (X : exists len c, [48; 4; 48; 4; 48; 2; 5; 0] = tag v :: len ++ c /\ is_len (zlen c) len) by (destruct v; cbn [der] in D; destruct D as (len & c & H1 & H2 & _); exists len, c; auto). destruct X as (len & c & E & [[H ->]|(H & b & r & -> & _)]); cbn [app] in E.
  - injection E as _ E1 E2. rewrite <- E2 in E1. discriminate E1.
  - apply (f_equal (@zlen Z)) in E. rewrite !zlen_cons, zlen_app, zlen_nil in E. pose proof (zlen_nonneg _ r). lia.
Qed.

(** ** C61 *)
(** An object identifier of two or more parts is read back *)
Theorem C61_oid : forall floor40 a b r, floor_ok floor40 -> 0 <= a <= 2 -> 0 <= b <= 39 -> Forall (fun x => 0 <= x) r ->
  exists p, oid_payload (a :: b :: r) = Ok p /\ bytes_ok p /\ oid_toVal floor40 p = Ok (a :: b :: r).
Proof. intros fl a b r Hf Ha Hb Hr. destruct (oid_is a b r Ha Hb Hr) as (c & E & O). exists c. split; [exact E|]. split; [exact (oid_bytes _ _ O)|]. exact (oid_read fl _ _ Hf O). Qed.
Print Assumptions C61_oid.
(** Other first parts are an error *)
Theorem C61_oid_rejects : forall l, (l = [] \/ (exists a r, l = a :: r /\ ~ 0 <= a <= 2) \/ (exists a b r, l = a :: b :: r /\ ~ 0 <= b <= 39)) -> der_oid l = Err OtherError.
Proof.
  intros l [->|[(a & r & -> & N)|(a & b & r & -> & N)]]; unfold der_oid, oid_payload; [reflexivity| |].
  - replace ((0 <=? a) && (a <=? 2)) with false by lia. reflexivity.
  - destruct ((0 <=? a) && (a <=? 2)); [|reflexivity]. replace ((0 <=? b) && (b <=? 39)) with false by lia. reflexivity.
Qed.
(** Object identifiers that are valid or invalid in ways the class does not see *)
Theorem C61_one_part_refuted : exists p, oid_payload [1] = Ok p /\ oid_toVal (fun x => x / 40) p = Ok [1; 0].
Proof. eexists. split; reflexivity. Qed.
Theorem C61_negative_refuted : exists p, oid_payload [1; 3; -1] = Ok p /\ oid_toVal (fun x => x / 40) p = Ok [1; 3; 127].
Proof. eexists. split; reflexivity. Qed.
(** 2.100.3 (X.690 8.19.4 lets the second part after 2 be any number) is read as 4.20.3 and rejected by the constructor *)
Theorem C61_arc2_refuted : is_128 (2 * 40 + 100) [129; 52] /\ oid_toVal (fun x => x / 40) [129; 52; 3] = Ok [4; 20; 3] /\ der_oid [2; 100; 3] = Err OtherError.
Proof. split; [|split; reflexivity]. exists [129], 52. split; [reflexivity|]. split; [apply Forall_cons; [lia|apply Forall_nil]|]. split; [lia|]. split; [discriminate|reflexivity]. Qed.
(** == of two OID objects is always False *)
Theorem C61_eq_refuted : forall l, oid_eq l (IsOID l) = Ok false.
Proof. reflexivity. Qed.

(** GeneralizedTime: the time is read back, without the fraction of the second *)
Theorem C61_time : forall ms, iso_range (ms / 1000) -> exists p, toDerTimeString ms = Ok p /\ zlen p = 15 /\ bytes_ok p /\ time_toVal p = Ok (ms / 1000 * 1000).
Proof.
  intros ms H. destruct (fromSeconds_ok (ms / 1000) H) as (t & E & Hy & Ho & HH & HM & HS & V). unfold toDerTimeString. rewrite E. cbn [rbind]. eexists. split; [reflexivity|].
  destruct Ho as [Ho1 Ho2]. pose proof (dim31 (is_leap (dt_y t)) (dt_m t) Ho1) as D31. rewrite year_digits by exact Hy. unfold two. cbn [app].
  split; [reflexivity|]. split; [unfold bytes_ok; repeat (apply Forall_cons; [unfold is_byte; Z.div_mod_to_equations; lia|]); apply Forall_nil|].
  unfold time_toVal. change (zlen [_;_;_;_;_;_;_;_;_;_;_;_;_;_;_]) with 15. cbn [Z.eqb Pos.eqb firstn skipn zlist_eqb andb].
  match goal with |- context [forallb ?f ?l] => assert (F : forallb f l = true) end.
  { apply forallb_forall. intros c Hc. assert (G : forall d l, In c (d :: l) -> c = d \/ In c l) by (intros d l [X|X]; auto). repeat (apply G in Hc; destruct Hc as [->|Hc]; [apply andb_true_intro; split; Z.div_mod_to_equations; lia|]). destruct Hc. }
  rewrite F. cbn [andb].
  unfold zslice. change (zlen [_;_;_;_;_;_;_;_;_;_;_;_;_;_;_]) with 15.
  repeat match goal with |- context [Z.to_nat ?e] => let v := eval cbv in (Z.to_nat e) in change (Z.to_nat e) with v end.
  cbn [skipn firstn].
  change [48 + dt_m t / 10; 48 + dt_m t mod 10] with (two (dt_m t)).
  change [48 + dt_d t / 10; 48 + dt_d t mod 10] with (two (dt_d t)).
  change [48 + dt_H t / 10; 48 + dt_H t mod 10] with (two (dt_H t)).
  change [48 + dt_M t / 10; 48 + dt_M t mod 10] with (two (dt_M t)).
  change [48 + dt_S t / 10; 48 + dt_S t mod 10] with (two (dt_S t)).
  rewrite <- year_digits by assumption.
  unfold int_or. rewrite int10_str by lia. rewrite !two_digit_int by lia. cbn [rbind].
  unfold dt_new.
  replace ((1 <=? dt_y t) && (dt_y t <=? 9999)) with true by lia. replace ((1 <=? dt_m t) && (dt_m t <=? 12)) with true by lia.
  replace ((1 <=? dt_d t) && (dt_d t <=? days_in_month (is_leap (dt_y t)) (dt_m t))) with true by lia.
  replace ((0 <=? dt_H t) && (dt_H t <=? 23)) with true by lia. replace ((0 <=? dt_M t) && (dt_M t <=? 59)) with true by lia. replace ((0 <=? dt_S t) && (dt_S t <=? 59)) with true by lia.
  cbn [negb rbind]. do 2 f_equal. rewrite <- V. destruct t; reflexivity.
Qed.
Print Assumptions C61_time.
Example C61_ex : iso_range (1600000000999 / 1000) /\ toDerTimeString 1600000000999 = Ok [50;48;50;48;48;57;49;51;49;50;50;54;52;48;90] /\ oid_payload [1; 2; 840; 113549] = Ok [42; 134; 72; 134; 247; 13].
Proof. split; [unfold iso_range; change (1600000000999 / 1000) with 1600000000; lia|]. split; vm_compute; reflexivity. Qed.
