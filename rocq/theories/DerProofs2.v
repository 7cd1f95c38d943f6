(** * Proofs about DER: trees *)
From Verif Require Import Base BaseLemmas DerModel DerSpec DerProofs.
From Coq Require Import Arith.
Local Open Scope res_scope.

Section NodeInd.
Variable P : node -> Prop.
Hypothesis HL : forall t h p, P (Leaf t h p).
Hypothesis HS : forall h s c l, Forall P l -> P (Seq h s c l).
Fixpoint node_ind2 (n : node) : P n :=
  match n with
  | Leaf t h p => HL t h p
  | Seq h s c l => HS h s c l ((fix go (l : list node) : Forall P l := match l with [] => Forall_nil P | x :: r => Forall_cons x (node_ind2 x) (go r) end) l)
  end.
End NodeInd.
Section ValInd.
Variable P : value -> Prop.
Hypothesis HL : forall v, (forall l, v <> VSeq l) -> P v.
Hypothesis HS : forall l, Forall P l -> P (VSeq l).
Fixpoint value_ind2 (v : value) : P v.
Proof.
  destruct v as [b|z|u bs|bs| |l|bs|bs|l]; try (apply HL; intros ?; discriminate).
  apply HS. exact ((fix go (l : list value) : Forall P l := match l with [] => Forall_nil P | x :: r => Forall_cons x (value_ind2 x) (go r) end) l).
Defined.
End ValInd.

Definition sum (l : list Z) : Z := fold_right Z.add 0 l.
Fixpoint tsize (n : node) : Z :=
  match n with Leaf _ h p => zlen h + zlen p | Seq _ _ _ l => let s := sum (map tsize l) in s + zlen (encodeHeader T_SEQUENCE s) end.
Fixpoint tbytes (n : node) : bytes :=
  match n with Leaf _ h p => h ++ p | Seq _ _ _ l => encodeHeader T_SEQUENCE (sum (map tsize l)) ++ concat (map tbytes l) end.
Lemma tsize_bytes : forall n, zlen (tbytes n) = tsize n.
Proof.
  intros n. induction n as [t h p|h s c l IH] using node_ind2; cbn [tbytes tsize]; [apply zlen_app|]. cbv zeta. rewrite zlen_app, Z.add_comm. f_equal. clear - IH. induction IH as [|x l H _ IH]; [reflexivity|]. cbn [map concat sum fold_right]. rewrite zlen_app, H. fold (sum (map tsize l)). lia.
Qed.
Lemma sum_bytes : forall l, sum (map tsize l) = zlen (concat (map tbytes l)).
Proof. induction l as [|x l IH]; [reflexivity|]. cbn [map concat sum fold_right]. rewrite zlen_app, tsize_bytes. fold (sum (map tsize l)). lia. Qed.
Lemma tsize_pos : forall n, 0 <= tsize n.
Proof. intros n. rewrite <- tsize_bytes. apply zlen_nonneg. Qed.

(** The node is a correct representation of the value *)
Fixpoint rep (n : node) (v : value) : Prop :=
  match n with
  | Leaf t h p => t = tag v /\ h = encodeHeader (tag v) (zlen p) /\ leaf_content v p
  | Seq h s ch l =>
      exists vl, v = VSeq vl /\ (ch = false -> s = sum (map tsize l)) /\
        (fix reps (l : list node) (vl : list value) : Prop := match l, vl with [], [] => True | n :: l', v :: vl' => rep n v /\ reps l' vl' | _, _ => False end) l vl
  end.
Lemma rep_seq : forall h s ch l v, rep (Seq h s ch l) v <-> exists vl, v = VSeq vl /\ (ch = false -> s = sum (map tsize l)) /\ Forall2 rep l vl.
Proof.
  intros h s ch l v. cbn [rep]. split; intros (vl & E & C & R); exists vl; (split; [exact E|]); (split; [exact C|]); clear - R.
  - revert vl R. induction l as [|n l IH]; intros [|v vl] R; try (destruct R; fail); constructor; [apply R|apply IH; apply R].
  - induction R; [exact I|split; assumption].
Qed.

Lemma getSize_ok : forall n v, rep n v -> snd (getSize n) = tsize n /\ rep (fst (getSize n)) v /\ tbytes (fst (getSize n)) = tbytes n /\ tsize (fst (getSize n)) = tsize n /\ depth (fst (getSize n)) = depth n.
Proof.
  intros n. induction n as [t h p|h s c l IH] using node_ind2; intros v R.
  - cbn [getSize fst snd tsize tbytes depth]. auto.
  - apply rep_seq in R. destruct R as (vl & -> & C & F).
    assert (G : map (fun c => snd (getSize c)) l = map tsize l /\ Forall2 rep (map (fun c => fst (getSize c)) l) vl /\ map tbytes (map (fun c => fst (getSize c)) l) = map tbytes l /\ map tsize (map (fun c => fst (getSize c)) l) = map tsize l /\ map depth (map (fun c => fst (getSize c)) l) = map depth l).
    { clear - IH F. revert vl F. induction IH as [|x l Hx _ IH]; intros vl F; inversion F as [|? v ? vl' Hv Fv]; subst; cbn [map]; [split; [reflexivity|split; [constructor|auto]]|]. destruct (Hx v Hv) as (A1 & A2 & A3 & A4 & A5). destruct (IH vl' Fv) as (B1 & B2 & B3 & B4 & B5). rewrite A1, A3, A4, A5, B1, B3, B4, B5. split; [reflexivity|]. split; [constructor; assumption|auto]. }
    destruct G as (G1 & G2 & G3 & G4 & G5). cbn [getSize]. rewrite G1. fold (sum (map tsize l)). destruct c.
    + cbn [fst snd]. split; [reflexivity|]. split; [apply rep_seq; exists vl; split; [reflexivity|]; split; [intros _; rewrite G4; reflexivity|exact G2]|]. cbn [tbytes tsize depth]. rewrite G3, G4, G5. auto.
    + rewrite (C eq_refl). cbn [fst snd]. split; [reflexivity|]. split; [apply rep_seq; exists vl; split; [reflexivity|]; split; [reflexivity|exact F]|]. cbn [tbytes tsize depth]. auto.
Qed.
Lemma encode_ok : forall f n v, rep n v -> (depth n <= f)%nat -> snd (encode f n) = tbytes n /\ rep (fst (encode f n)) v /\ tbytes (fst (encode f n)) = tbytes n /\ tsize (fst (encode f n)) = tsize n.
Proof.
  induction f as [|f IH]; intros n v R D; destruct n as [t h p|h s c l]; try (cbn [encode fst snd tbytes tsize]; auto; fail); [cbn [depth] in D; lia|].
  apply rep_seq in R. destruct R as (vl & -> & C & F). cbn [depth] in D. apply le_S_n in D.
  assert (G : map (fun c => snd (getSize c)) l = map tsize l /\ Forall2 rep (map (fun c => fst (encode f c)) (map (fun c => fst (getSize c)) l)) vl /\ map (fun c => snd (encode f c)) (map (fun c => fst (getSize c)) l) = map tbytes l /\
    map tbytes (map (fun c => fst (encode f c)) (map (fun c => fst (getSize c)) l)) = map tbytes l /\ map tsize (map (fun c => fst (encode f c)) (map (fun c => fst (getSize c)) l)) = map tsize l).
  { clear C. revert vl F. induction l as [|x l IHl]; intros vl F; inversion F as [|? v ? vl' Hv Fv]; subst; cbn [map]; [split; [reflexivity|split; [constructor|auto]]|]. cbn [map fold_right] in D.
    destruct (getSize_ok x v Hv) as (A1 & A2 & A3 & A4 & A5). destruct (IH _ _ A2 ltac:(rewrite A5; lia)) as (E1 & E2 & E3 & E4). destruct (IHl ltac:(lia) vl' Fv) as (B1 & B2 & B3 & B4 & B5). rewrite A1, E1, E3, E4, A3, A4, B1, B3, B4, B5. split; [reflexivity|]. split; [constructor; assumption|auto]. }
  destruct G as (G1 & G2 & G3 & G4 & G5). cbn [encode]. rewrite G1. fold (sum (map tsize l)). cbn [fst snd]. rewrite G3. split; [reflexivity|]. split; [apply rep_seq; exists vl; split; [reflexivity|]; split; [intros _; rewrite G5; reflexivity|exact G2]|]. cbn [tbytes tsize]. rewrite G4, G5. auto.
Qed.

(** ** der *)
Fixpoint ders (l : list value) (c : bytes) : Prop := match l with [] => c = [] | v :: l' => exists b c', c = b ++ c' /\ der v b /\ ders l' c' end.
Lemma der_seq : forall l bs, der (VSeq l) bs <-> exists len c, bs = T_SEQUENCE :: len ++ c /\ is_len (zlen c) len /\ ders l c.
Proof. intros l bs. cbn [der tag]. assert (X : forall l c, (fix ders (l : list value) (c : bytes) : Prop := match l with [] => c = [] | v :: l' => exists b c', c = b ++ c' /\ der v b /\ ders l' c' end) l c <-> ders l c) by (induction l0 as [|v l0 IH]; intros c; [reflexivity|]; cbn [ders]; split; intros (b & c' & H1 & H2 & H3); exists b, c'; (split; [exact H1|]); (split; [exact H2|]); apply IH; exact H3). split; intros (len & c & H1 & H2 & H3); exists len, c; (split; [exact H1|]); (split; [exact H2|]); apply X; exact H3. Qed.
Lemma der_leaf : forall v bs, (forall l, v <> VSeq l) -> (der v bs <-> exists len c, bs = tag v :: len ++ c /\ is_len (zlen c) len /\ leaf_content v c).
Proof. intros v bs N. destruct v; cbn [der]; try reflexivity. destruct (N l eq_refl). Qed.
Lemma leaf_not_seq : forall v c, leaf_content v c -> forall l, v <> VSeq l.
Proof. intros v c H l ->. exact H. Qed.
Lemma rep_der : forall n v, rep n v -> zlen (tbytes n) < 2 ^ 64 -> der v (tbytes n).
Proof.
  intros n. induction n as [t h p|h s c l IH] using node_ind2; intros v R L.
  - destruct R as (-> & -> & Lc). cbn [tbytes] in *. apply der_leaf; [exact (leaf_not_seq _ _ Lc)|]. rewrite zlen_app in L. pose proof (zlen_nonneg _ p). pose proof (zlen_nonneg _ (encodeHeader (tag v) (zlen p))). destruct (header_is_len (tag v) (zlen p) ltac:(lia)) as (len & -> & Il). exists len, p. cbn [app]. auto.
  - apply rep_seq in R. destruct R as (vl & -> & C & F). cbn [tbytes] in *. rewrite sum_bytes in *. set (c' := concat (map tbytes l)) in *. rewrite zlen_app in L. pose proof (zlen_nonneg _ c'). pose proof (zlen_nonneg _ (encodeHeader T_SEQUENCE (zlen c'))). destruct (header_is_len T_SEQUENCE (zlen c') ltac:(lia)) as (len & -> & Il). apply der_seq. exists len, c'. cbn [app]. split; [reflexivity|]. split; [exact Il|].
    assert (L' : zlen c' < 2 ^ 64) by lia. clear - IH F L'. subst c'. revert vl F. induction IH as [|x l Hx _ IH]; intros vl F; inversion F as [|? v ? vl' Hv Fv]; subst; cbn [map concat ders] in *; [reflexivity|]. rewrite zlen_app in L'. pose proof (zlen_nonneg _ (tbytes x)). pose proof (zlen_nonneg _ (concat (map tbytes l))). exists (tbytes x), (concat (map tbytes l)). split; [reflexivity|]. split; [apply Hx; [exact Hv|lia]|apply IH; [lia|exact Fv]].
Qed.

(** ** The constructors *)
Fixpoint oks (l : list value) : Prop := match l with [] => True | v :: l' => v_ok v /\ oks l' end.
Lemma v_ok_seq : forall l, v_ok (VSeq l) <-> Forall v_ok l.
Proof. intros l. cbn [v_ok]. induction l as [|v l IH]; [split; [constructor|exact (fun _ => I)]|]. split; [intros [H1 H2]; constructor; [exact H1|apply IH; exact H2]|intros H; inversion H; subst; split; [assumption|apply IH; assumption]]. Qed.
Fixpoint adds (n : node) (l : list value) : res node := match l with [] => Ok n | v :: l' => match build v with Ok c => adds (addChild n c) l' | Err e => Err e end end.
Lemma build_seq : forall l, build (VSeq l) = adds (Seq [] 0 false []) l.
Proof. intros l. cbn [build]. generalize (Seq [] 0 false []). induction l as [|v l IH]; intros n; [reflexivity|]. cbn [adds]. destruct (build v); [apply IH|reflexivity]. Qed.
Lemma addChild_rep : forall n v c w, rep n v -> rep c w -> rep (addChild n c) (v_add [] w v).
Proof.
  intros n v c w R Rc. destruct n as [t h p|h s ch l].
  - destruct R as (Et & Eh & Lc). cbn [addChild]. destruct v; cbn [v_add]; try (destruct Lc; fail); cbn [rep]; auto.
  - apply rep_seq in R. destruct R as (vl & -> & C & F). cbn [addChild v_add]. apply rep_seq. exists (vl ++ [w]). split; [reflexivity|]. split; [discriminate|]. apply Forall2_app; [exact F|constructor; [exact Rc|constructor]].
Qed.
Lemma build_ok : forall v, v_ok v -> exists n, build v = Ok n /\ rep n v.
Proof.
  intros v. induction v as [v N|l IH] using value_ind2; intros H.
  - destruct v as [b|z|u bs|bs| |l|bs|bs|l]; cbn [build v_ok] in *.
    + eexists. split; [reflexivity|]. cbn [rep der_boolean tag leaf_content]. auto.
    + unfold der_integer. replace (z <? 0) with false by lia. eexists. split; [reflexivity|]. cbn [rep tag leaf_content]. split; [reflexivity|]. split; [reflexivity|]. apply int_is. exact H.
    + unfold der_bitString. destruct H as [Hu Hb]. unfold is_byte in Hu. replace ((0 <=? u) && (u <? 256)) with true by lia. eexists. split; [reflexivity|]. cbn [rep tag leaf_content]. split; [reflexivity|]. split; [reflexivity|]. split; [reflexivity|]. constructor; [exact Hu|exact Hb].
    + eexists. split; [reflexivity|]. cbn [rep tag leaf_content der_byteString]. auto.
    + eexists. split; [reflexivity|]. cbn [rep tag leaf_content der_null]. auto.
    + destruct H as (a & b & r & -> & Ha & Hb & Hr). destruct (oid_is a b r Ha Hb Hr) as (c & E & I). unfold der_oid. rewrite E. cbn [rbind]. eexists. split; [reflexivity|]. cbn [rep tag leaf_content]. auto.
    + eexists. split; [reflexivity|]. cbn [rep tag leaf_content der_byteString]. auto.
    + eexists. split; [reflexivity|]. cbn [rep tag leaf_content der_byteString]. auto.
    + destruct (N l eq_refl).
  - rewrite v_ok_seq in H. rewrite build_seq. assert (G : forall l2, Forall (fun v => v_ok v -> exists n, build v = Ok n /\ rep n v) l2 -> Forall v_ok l2 -> forall n l1, rep n (VSeq l1) -> exists n', adds n l2 = Ok n' /\ rep n' (VSeq (l1 ++ l2))).
    { clear. induction l2 as [|v l2 IH]; intros F1 F2 n l1 R; [exists n; rewrite app_nil_r; auto|]. inversion F1 as [|? ? A1 A2]; subst. inversion F2 as [|? ? B1 B2]; subst. destruct (A1 B1) as (c & E & Rc). cbn [adds]. rewrite E. pose proof (addChild_rep n _ c v R Rc) as R'. cbn [v_add] in R'. destruct (IH A2 B2 _ _ R') as (n' & E' & R''). exists n'. split; [exact E'|]. rewrite <- app_assoc in R''. exact R''. }
    destruct (G l IH H (Seq [] 0 false []) []) as (n & E & R); [apply rep_seq; exists []; split; [reflexivity|]; split; [reflexivity|constructor]|]. exists n. auto.
Qed.

(** ** Reading *)
Fixpoint reads (fl : Z -> Z) (l : list node) : res (list value) := match l with [] => Ok [] | n :: l' => match read fl n with Ok v => match reads fl l' with Ok r => Ok (v :: r) | Err e => Err e end | Err e => Err e end end.
Lemma read_seq : forall fl h s c l, read fl (Seq h s c l) = match reads fl l with Ok l => Ok (VSeq l) | Err e => Err e end.
Proof. intros fl h s c l. cbn [read]. match goal with |- match ?a with _ => _ end = _ => assert (X : a = reads fl l) end; [|rewrite X; reflexivity]. induction l as [|n l IH]; [reflexivity|]. cbn [reads]. rewrite IH. reflexivity. Qed.
Lemma read_ok : forall fl, (forall x, 0 <= x < 120 -> fl x = x / 40) -> forall n v, rep n v -> read fl n = Ok v.
Proof.
  intros fl Hf n. induction n as [t h p|h s c l IH] using node_ind2; intros v R.
  - destruct R as (-> & _ & Lc). destruct v as [b|z|u bs|bs| |l|bs|bs|l]; cbn [tag leaf_content] in *.
    + subst p. cbn. destruct b; reflexivity.
    + change (read fl (Leaf 2 h p)) with (match integer_toVal p with Ok b => Ok (VInt b) | Err e => Err e end). rewrite (int_toVal _ _ Lc). reflexivity.
    + destruct Lc as [-> _]. reflexivity.
    + destruct Lc as [-> _]. reflexivity.
    + reflexivity.
    + change (read fl (Leaf 6 h p)) with (match oid_toVal fl p with Ok l => Ok (VOid l) | Err e => Err e end). rewrite (oid_read fl l p Hf Lc). reflexivity.
    + destruct Lc as [-> _]. reflexivity.
    + destruct Lc as [-> _]. reflexivity.
    + destruct Lc.
  - apply rep_seq in R. destruct R as (vl & -> & _ & F). rewrite read_seq. assert (G : reads fl l = Ok vl); [|rewrite G; reflexivity]. revert vl F. induction IH as [|x l Hx _ IH]; intros vl F; inversion F as [|? v ? vl' Hv Fv]; subst; [reflexivity|]. cbn [reads]. rewrite (Hx _ Hv), (IH _ Fv). reflexivity.
Qed.

(** ** Parsing *)
Fixpoint children (f k : nat) (size : Z) (w : bytes) (accSize : Z) : res (list node) :=
  if accSize <? size then
    match k with
    | O => Err OutOfFuel
    | S k' => c <-- parse f w ;; let '(c', sz) := getSize c in r <-- children f k' size (skipn (Z.to_nat sz) w) (accSize + sz) ;; Ok (c' :: r)
    end
  else Ok [].
Lemma parse_leaf : forall f t w, is_leaf_type t = true -> parse f (t :: w) = (h <-- decodeHeader (t :: w) ;; Ok (Leaf t (fst h) (if 0 <? snd h then zslice (t :: w) (zlen (fst h)) (zlen (fst h) + snd h) else []))).
Proof. intros f t w H. destruct f; cbn [parse]; rewrite H; reflexivity. Qed.
Lemma parse_seq : forall f w, parse (S f) (T_SEQUENCE :: w) = (h <-- decodeHeader (T_SEQUENCE :: w) ;; l <-- children f (S (length (T_SEQUENCE :: w))) (snd h) (skipn (length (fst h)) (T_SEQUENCE :: w)) 0 ;; Ok (Seq (fst h) (snd h) (negb (zlen l =? 0)) l)).
Proof.
  intros f w. change (parse (S f) (T_SEQUENCE :: w)) with (h <-- decodeHeader (T_SEQUENCE :: w) ;;
            l <-- (fix loop (k : nat) (w : bytes) (accSize : Z) : res (list node) :=
                     if accSize <? snd h then
                       match k with
                       | O => Err OutOfFuel
                       | S k' =>
                           c <-- parse f w ;;
                           let '(c', size) := getSize c in
                           r <-- loop k' (skipn (Z.to_nat size) w) (accSize + size) ;; Ok (c' :: r)
                       end
                     else Ok []) (S (length (T_SEQUENCE :: w))) (skipn (length (fst h)) (T_SEQUENCE :: w)) 0 ;;
            Ok (Seq (fst h) (snd h) (negb (zlen l =? 0)) l)).
  assert (RE : forall (A B : Type) (m : res A) (k k' : A -> res B), (forall a, k a = k' a) -> rbind m k = rbind m k') by (intros A B m k k' H; destruct m; [apply H|reflexivity]).
  apply RE. intros [h sz]. assert (G : forall k w acc, (fix loop (k : nat) (w : bytes) (accSize : Z) : res (list node) :=
                     if accSize <? sz then
                       match k with
                       | O => Err OutOfFuel
                       | S k' =>
                           c <-- parse f w ;;
                           let '(c', size) := getSize c in
                           r <-- loop k' (skipn (Z.to_nat size) w) (accSize + size) ;; Ok (c' :: r)
                       end
                     else Ok []) k w acc = children f k sz w acc).
  { induction k as [|k IH]; intros w0 acc; cbn [children]; [reflexivity|]. destruct (acc <? sz); [|reflexivity]. destruct (parse f w0) as [c|e]; [|reflexivity]. cbn [rbind]. destruct (getSize c) as [c' s']. rewrite IH. reflexivity. }
  specialize (G (S (length (T_SEQUENCE :: w))) (skipn (length h) (T_SEQUENCE :: w)) 0). change (fst (h, sz)) with h. change (snd (h, sz)) with sz. rewrite G. reflexivity.
Qed.
Lemma leaf_tag : forall v, (forall l, v <> VSeq l) -> is_leaf_type (tag v) = true.
Proof. intros v N. destruct v; try reflexivity. destruct (N l eq_refl). Qed.
Lemma der_len : forall v bs, der v bs -> 2 <= zlen bs.
Proof. intros v bs H. assert (X : exists len c, bs = tag v :: len ++ c /\ is_len (zlen c) len) by (destruct v; cbn [der] in H; destruct H as (len & c & H1 & H2 & _); exists len, c; auto). destruct X as (len & c & -> & Il). apply is_len_pos in Il. rewrite zlen_cons, zlen_app. pose proof (zlen_nonneg _ c). lia. Qed.
Lemma skipn_len : forall (a b : bytes), skipn (length a) (a ++ b) = b.
Proof. intros. rewrite skipn_app, skipn_all, Nat.sub_diag. reflexivity. Qed.
Lemma parse_ok : forall v f bs rest, der v bs -> (length bs <= f)%nat -> exists n, parse f (bs ++ rest) = Ok n /\ rep n v /\ tbytes n = bs.
Proof.
  intros v. induction v as [v N|l IH] using value_ind2; intros f bs rest D L.
  - apply der_leaf in D; [|exact N]. destruct D as (len & c & -> & Il & Lc). cbn [app]. rewrite parse_leaf by (apply leaf_tag; exact N). rewrite <- app_assoc. rewrite (decode_header_ok (tag v) (zlen c) len (c ++ rest) Il). cbn [rbind fst snd].
    assert (E : (if 0 <? zlen c then zslice (tag v :: len ++ c ++ rest) (zlen (tag v :: len)) (zlen (tag v :: len) + zlen c) else []) = c).
    { destruct (Z.ltb_spec 0 (zlen c)); [change (tag v :: len ++ c ++ rest) with ((tag v :: len) ++ c ++ rest); apply zslice_app|]. destruct c as [|x c]; [reflexivity|]. rewrite zlen_cons in H. pose proof (zlen_nonneg _ c). lia. }
    exists (Leaf (tag v) (tag v :: len) c). split; [f_equal; f_equal; exact E|]. split; [|reflexivity]. cbn [rep]. split; [reflexivity|]. split; [symmetry; apply header_len; exact Il|exact Lc].
  - apply der_seq in D. destruct D as (len & c & -> & Il & Dc). cbn [length app] in L |- *. destruct f as [|f]; [lia|]. rewrite <- app_assoc, parse_seq. rewrite (decode_header_ok T_SEQUENCE (zlen c) len (c ++ rest) Il). cbn [rbind fst snd].
    change (T_SEQUENCE :: len ++ c ++ rest) with ((T_SEQUENCE :: len) ++ c ++ rest). rewrite skipn_len. rewrite app_length in L.
    assert (G : forall l, Forall (fun v => forall f bs rest, der v bs -> (length bs <= f)%nat -> exists n, parse f (bs ++ rest) = Ok n /\ rep n v /\ tbytes n = bs) l -> forall c k size acc, ders l c -> (length c <= f)%nat -> (length c < k)%nat -> acc + zlen c = size ->
      exists ns, children f k size (c ++ rest) acc = Ok ns /\ Forall2 rep ns l /\ concat (map tbytes ns) = c).
    { clear. induction l as [|v l IHl]; intros F c k size acc D Lf Lk Es; inversion F as [|? ? Hv Fl]; subst; cbn [ders] in D.
      - subst c. exists []. split; [|split; [constructor|reflexivity]]. destruct k; [cbn in Lk; lia|]. cbn [children]. change (zlen []) with 0. replace (acc <? acc + 0) with false by lia. reflexivity.
      - destruct D as (b & c' & -> & Db & Dc). rewrite app_length in Lf, Lk. pose proof (der_len _ _ Db) as Lb. destruct k as [|k]; [lia|]. cbn [children]. rewrite zlen_app in *. pose proof (zlen_nonneg _ c'). replace (acc <? acc + (zlen b + zlen c')) with true by lia.
        destruct (Hv f b (c' ++ rest) Db ltac:(lia)) as (n & E & R & T). rewrite <- app_assoc, E. cbn [rbind]. destruct (getSize_ok n v R) as (A1 & A2 & A3 & _ & _). rewrite (surjective_pairing (getSize n)). rewrite A1, <- tsize_bytes, T.
        replace (Z.to_nat (zlen b)) with (length b) by (unfold zlen; lia). rewrite skipn_len. assert (2 <= length b)%nat by (unfold zlen in Lb; lia).
        destruct (IHl Fl c' k (acc + (zlen b + zlen c')) (acc + zlen b) Dc ltac:(lia) ltac:(lia) ltac:(lia)) as (ns & E' & R' & T'). rewrite E'. cbn [rbind]. eexists. split; [reflexivity|]. split; [constructor; assumption|]. cbn [map concat]. rewrite A3, T, T'. reflexivity. }
    destruct (G l IH c (S (length ((T_SEQUENCE :: len) ++ c ++ rest))) (zlen c) 0 Dc ltac:(lia) ltac:(rewrite !app_length; lia) ltac:(lia)) as (ns & E & R & T). rewrite E. cbn [rbind]. eexists. split; [reflexivity|]. split.
    + apply rep_seq. exists l. split; [reflexivity|]. split; [|exact R]. intros _. rewrite sum_bytes, T. reflexivity.
    + cbn [tbytes]. rewrite sum_bytes, T. rewrite (header_len T_SEQUENCE (zlen c) len Il). reflexivity.
Qed.
Lemma decodeLength_err : forall k w s e, decodeLength k w s = Err e -> e = OtherError.
Proof. induction k as [|k IH]; intros w s e H; [discriminate H|]. destruct w as [|b w]; [injection H as <-; reflexivity|]. cbn [decodeLength] in H. destruct (decodeLength k w (256 * s + b)) as [r|e'] eqn:E; [discriminate H|]. cbn [rbind] in H. injection H as <-. exact (IH _ _ _ E). Qed.
Lemma decodeHeader_err : forall w e, decodeHeader w = Err e -> e = IndexError \/ e = OtherError.
Proof. intros w e H. unfold decodeHeader in H. destruct w as [|t [|s w]]; try (injection H as <-; left; reflexivity). destruct (negb (Z.land s 128 =? 0)); [|discriminate H]. destruct (decodeLength (Z.to_nat (Z.land s 127)) w 0) as [r|e'] eqn:E; [discriminate H|]. cbn [rbind] in H. injection H as <-. right. exact (decodeLength_err _ _ _ _ E). Qed.
Lemma decodeHeader_len : forall w h n, decodeHeader w = Ok (h, n) -> 2 <= zlen h.
Proof. intros w h n H. unfold decodeHeader in H. destruct w as [|t [|s w]]; try discriminate H. destruct (negb (Z.land s 128 =? 0)); [|injection H as <- <-; cbn; lia]. destruct (decodeLength (Z.to_nat (Z.land s 127)) w 0) as [r|e'] eqn:E; [|discriminate H]. cbn [rbind] in H. injection H as <- <-. rewrite !zlen_cons. pose proof (zlen_nonneg _ (fst r)). lia. Qed.
(** Every parsed node has a size of at least two *)
Definition big (n : node) : Prop := match n with Leaf _ h p => 2 <= zlen h | Seq _ s _ l => 0 <= s /\ Forall (fun c => 0 <= snd (getSize c)) l end.
Lemma sum_nonneg : forall l, Forall (fun x => 0 <= x) l -> 0 <= sum l.
Proof. intros l F. induction F as [|x l H _ IH]; [cbn; lia|]. cbn [sum fold_right]. fold (sum l). lia. Qed.
Lemma big_size : forall n, big n -> 2 <= snd (getSize n).
Proof.
  intros [t h p|h s c l] B; cbn [getSize big snd] in *; [pose proof (zlen_nonneg _ p); lia|]. destruct B as [Hs Fl]. destruct c; cbn [snd].
  - fold (sum (map (fun c => snd (getSize c)) l)). pose proof (encodeHeader_len T_SEQUENCE (sum (map (fun c => snd (getSize c)) l))). assert (0 <= sum (map (fun c => snd (getSize c)) l)) by (apply sum_nonneg; clear - Fl; induction Fl; constructor; assumption). lia.
  - pose proof (encodeHeader_len T_SEQUENCE s). lia.
Qed.
Lemma decodeLength_nonneg : forall k w s r n, bytes_ok w -> 0 <= s -> decodeLength k w s = Ok (r, n) -> 0 <= n.
Proof. induction k as [|k IH]; intros w s r n B Hs H; [injection H as <- <-; exact Hs|]. destruct w as [|b w]; [discriminate H|]. inversion B as [|? ? Hb Hw]; subst. unfold is_byte in Hb. cbn [decodeLength] in H. destruct (decodeLength k w (256 * s + b)) as [[r' n']|e] eqn:E; [|discriminate H]. cbn [rbind fst snd] in H. injection H as <- <-. apply (IH w (256 * s + b) r' n' Hw); [lia|exact E]. Qed.
Lemma decodeHeader_nonneg : forall w h n, bytes_ok w -> decodeHeader w = Ok (h, n) -> 0 <= n.
Proof. intros w h n B H. unfold decodeHeader in H. destruct w as [|t [|s w]]; try discriminate H. inversion B as [|? ? _ B']; subst. inversion B' as [|? ? Hs Hw]; subst. unfold is_byte in Hs. destruct (negb (Z.land s 128 =? 0)); [|injection H as <- <-; lia]. destruct (decodeLength (Z.to_nat (Z.land s 127)) w 0) as [[r n']|e'] eqn:E; [|discriminate H]. cbn [rbind fst snd] in H. injection H as <- <-. apply (decodeLength_nonneg (Z.to_nat (Z.land s 127)) w 0 r n' Hw); [lia|exact E]. Qed.
Lemma bytes_skipn : forall k w, bytes_ok w -> bytes_ok (skipn k w).
Proof. induction k as [|k IH]; intros w H; [exact H|]. destruct w; [constructor|]. inversion H; subst. cbn [skipn]. apply IH. assumption. Qed.
Lemma parse_safe : forall f w, bytes_ok w -> (length w <= f)%nat -> match parse f w with Ok n => big n | Err e => e = IndexError \/ e = OtherError end.
Proof.
  induction f as [|f IH]; intros w B L; destruct w as [|t w]; try (cbn [parse]; auto; fail); [cbn in L; lia|].
  destruct (is_leaf_type t) eqn:Et.
  - rewrite parse_leaf by exact Et. destruct (decodeHeader (t :: w)) as [[h n]|e] eqn:E; cbn [rbind]; [|exact (decodeHeader_err _ _ E)]. cbn [big fst]. exact (decodeHeader_len _ _ _ E).
  - destruct (Z.eqb_spec t T_SEQUENCE) as [->|Ns]; [|cbn [parse]; rewrite Et; apply Z.eqb_neq in Ns; rewrite Ns; auto].
    rewrite parse_seq. destruct (decodeHeader (T_SEQUENCE :: w)) as [[h n]|e] eqn:E; cbn [rbind fst snd]; [|exact (decodeHeader_err _ _ E)]. pose proof (decodeHeader_len _ _ _ E) as Lh. pose proof (decodeHeader_nonneg _ _ _ B E) as Hn.
    assert (G : forall k w acc, bytes_ok w -> (length w <= f)%nat -> (length w < k)%nat -> match children f k n w acc with Ok l => Forall (fun c => 0 <= snd (getSize c)) l | Err e => e = IndexError \/ e = OtherError end).
    { clear - IH. induction k as [|k IHk]; intros w acc Bw Lf Lk; [lia|]. cbn [children]. destruct (acc <? n); [|constructor]. pose proof (IH w Bw Lf) as P. destruct (parse f w) as [c|e] eqn:Ep; [|exact P]. cbn [rbind]. pose proof (big_size c P) as Sz. rewrite (surjective_pairing (getSize c)).
      assert (Lw : (length (skipn (Z.to_nat (snd (getSize c))) w) < length w \/ w = [])%nat) by (rewrite skipn_length; destruct w; [right; reflexivity|left; cbn [length]; lia]).
      destruct Lw as [Lw| ->]; [|destruct f; discriminate Ep].
      specialize (IHk (skipn (Z.to_nat (snd (getSize c))) w) (acc + snd (getSize c)) (bytes_skipn _ _ Bw) ltac:(lia) ltac:(lia)). destruct (children f k n (skipn (Z.to_nat (snd (getSize c))) w) (acc + snd (getSize c))) as [l|e]; cbn [rbind]; [|exact IHk]. constructor; [|exact IHk].
      assert (X : snd (getSize (fst (getSize c))) = snd (getSize c)); [|lia]. destruct c as [t h p|h s ch l0]; [reflexivity|]. cbn [getSize]. destruct ch; cbn [fst snd getSize]; reflexivity. }
    assert (Lk : (length (skipn (length h) (T_SEQUENCE :: w)) <= f)%nat) by (rewrite skipn_length; cbn [length] in *; unfold zlen in Lh; lia).
    specialize (G (S (length (T_SEQUENCE :: w))) (skipn (length h) (T_SEQUENCE :: w)) 0 (bytes_skipn _ _ B) Lk ltac:(rewrite skipn_length; lia)). destruct (children f (S (length (T_SEQUENCE :: w))) n (skipn (length h) (T_SEQUENCE :: w)) 0) as [l|e]; cbn [rbind]; [|exact G]. cbn [big]. auto.
Qed.

(** ** Updates *)
Fixpoint v_at (g : value -> value) (p : list nat) (v : value) : value :=
  match p with
  | [] => g v
  | i :: p' => match v with VSeq l => VSeq (firstn i l ++ match skipn i l with c :: r => v_at g p' c :: r | [] => [] end) | _ => v end
  end.
Lemma v_add_at : forall w p v, v_add p w v = v_at (v_add [] w) p v.
Proof.
  intros w p. induction p as [|i p IH]; intros v; [reflexivity|]. destruct v; try reflexivity. cbn [v_add v_at]. destruct (skipn i l) as [|c r]; [reflexivity|]. rewrite IH. reflexivity.
Qed.
Lemma v_at_id : forall p v, v_at (fun v => v) p v = v.
Proof. induction p as [|i p IH]; intros v; [reflexivity|]. destruct v; try reflexivity. cbn [v_at]. f_equal. rewrite <- (firstn_skipn i l) at 3. f_equal. destruct (skipn i l); [reflexivity|]. rewrite IH. reflexivity. Qed.
Lemma at_path_rep : forall notify f g p n v, (forall n v, rep n v -> rep (f n) (g v)) -> (notify = true \/ forall n v, rep n v -> tsize (f n) = tsize n) -> rep n v ->
  rep (at_path notify f p n) (v_at g p v) /\ (notify = true \/ tsize (at_path notify f p n) = tsize n).
Proof.
  intros notify f g p. induction p as [|i p IH]; intros n v Hf Ht R.
  - cbn [at_path v_at]. split; [apply Hf; exact R|]. destruct Ht as [->|Ht]; [left; reflexivity|right; apply (Ht n v R)].
  - destruct n as [t h q|h s ch l].
    + cbn [at_path]. split; [|right; reflexivity]. destruct v; try (destruct R as (_ & _ & []); fail); exact R.
    + apply rep_seq in R. destruct R as (vl & -> & C & F). cbn [at_path v_at].
      assert (G : forall i l vl, Forall2 rep l vl -> Forall2 rep (firstn i l ++ match skipn i l with c :: r => at_path notify f p c :: r | [] => [] end) (firstn i vl ++ match skipn i vl with c :: r => v_at g p c :: r | [] => [] end) /\ (notify = true \/ sum (map tsize (firstn i l ++ match skipn i l with c :: r => at_path notify f p c :: r | [] => [] end)) = sum (map tsize l))).
      { clear F C. induction i0 as [|i0 IHi]; intros l0 vl0 F; destruct F as [|x v l0 vl0 Hx F]; cbn [firstn skipn app]; try (split; [constructor|right; reflexivity]).
        - destruct (IH x v Hf Ht Hx) as (R' & T). split; [constructor; [exact R'|exact F]|]. destruct T as [->|T]; [left; reflexivity|right]. cbn [map sum fold_right]. rewrite T. reflexivity.
        - destruct (IHi l0 vl0 F) as [A1 A2]. split; [constructor; [exact Hx|exact A1]|]. destruct A2 as [A2|A2]; [left; exact A2|right]. cbn [map sum fold_right]. unfold sum in A2. rewrite A2. reflexivity. }
      destruct (G i l vl F) as [G1 G2]. split.
      * apply rep_seq. eexists. split; [reflexivity|]. split; [|exact G1]. destruct notify; [discriminate|]. destruct G2 as [G2|G2]; [discriminate G2|]. rewrite G2. exact C.
      * destruct G2 as [G2|G2]; [left; exact G2|right]. cbn [tsize]. rewrite G2. reflexivity.
Qed.
Lemma at_nil : forall f n, at_path false f [] n = at_path true f [] n.
Proof. reflexivity. Qed.
Lemma exec_rep : forall o n v, op_ok o -> rep n v -> rep (exec n o) (v_exec v o).
Proof.
  intros [p w notify|p|p] n v O R; cbn [exec v_exec op_ok] in *.
  - destruct O as [Ow On]. destruct (build_ok w Ow) as (c & E & Rc). rewrite E. rewrite v_add_at. assert (Ha : forall n v, rep n v -> rep (addChild n c) (v_add [] w v)) by (intros; apply addChild_rep; assumption).
    destruct On as [->|E0]; [apply (at_path_rep true _ (v_add [] w) p n v Ha (or_introl eq_refl) R)|]. rewrite E0. cbn [at_path v_at]. apply Ha. exact R.
  - rewrite <- (v_at_id p v). apply (at_path_rep false (fun n => fst (getSize n)) (fun v => v) p n v); [|right|exact R]; intros n0 v0 R0; apply (getSize_ok n0 v0 R0).
  - rewrite <- (v_at_id p v). apply (at_path_rep false (fun n => fst (node_encode n)) (fun v => v) p n v); [|right|exact R]; intros n0 v0 R0; apply (encode_ok (depth n0) n0 v0 R0 (le_n _)).
Qed.
Lemma execs_rep : forall os n v, Forall op_ok os -> rep n v -> rep (fold_left exec os n) (fold_left v_exec os v).
Proof. induction os as [|o os IH]; intros n v F R; [exact R|]. inversion F; subst. cbn [fold_left]. apply IH; [assumption|]. apply exec_rep; assumption. Qed.
