(** * C59, continued: DER of which the end is missing *)
From Verif Require Import Base BaseLemmas DerModel DerSpec DerProofs DerProofs2 DerProps.
Local Open Scope res_scope.

Lemma decodeLength_more : forall k w acc x y, decodeLength k w acc = Ok x -> decodeLength k (w ++ y) acc = Ok x.
Proof.
  induction k as [|k IH]; intros w acc x y E; [exact E|]. destruct w as [|b w]; [discriminate E|]. cbn [decodeLength app] in *. destruct (decodeLength k w (256 * acc + b)) as [r|e] eqn:D; [|discriminate E]. rewrite (IH _ _ _ y D). exact E.
Qed.
Lemma decodeHeader_more : forall w x y, decodeHeader w = Ok x -> decodeHeader (w ++ y) = Ok x.
Proof.
  intros w x y E. unfold decodeHeader in *. destruct w as [|t [|s w]]; [discriminate E|discriminate E|]. cbn [app]. destruct (negb (Z.land s 128 =? 0)); [|exact E]. destruct (decodeLength (Z.to_nat (Z.land s 127)) w 0) as [r|e] eqn:D; [|discriminate E]. rewrite (decodeLength_more _ _ _ _ y D). exact E.
Qed.
Lemma decodeLength_pre : forall k w acc x, decodeLength k w acc = Ok x -> exists r, w = fst x ++ r.
Proof.
  induction k as [|k IH]; intros w acc x E; [injection E as <-; exists w; reflexivity|]. destruct w as [|b w]; [discriminate E|]. cbn [decodeLength] in E. destruct (decodeLength k w (256 * acc + b)) as [r|e] eqn:D; [|discriminate E]. cbn [rbind] in E. injection E as <-. destruct (IH _ _ _ D) as [u ->]. exists u. reflexivity.
Qed.
Lemma decodeHeader_pre : forall w x, decodeHeader w = Ok x -> exists r, w = fst x ++ r.
Proof.
  intros w x E. unfold decodeHeader in E. destruct w as [|t [|s w]]; [discriminate E|discriminate E|]. destruct (negb (Z.land s 128 =? 0)); [|injection E as <-; exists w; reflexivity]. destruct (decodeLength (Z.to_nat (Z.land s 127)) w 0) as [r|e] eqn:D; [|discriminate E]. cbn [rbind] in E. injection E as <-. destruct (decodeLength_pre _ _ _ _ D) as [u ->]. exists u. reflexivity.
Qed.
(** The header is read whole, or not at all *)
Lemma cut_header : forall t len c a b x, is_len (zlen c) len -> t :: len ++ c = a ++ b -> decodeHeader a = Ok x -> x = (t :: len, zlen c) /\ exists a', a = (t :: len) ++ a' /\ c = a' ++ b.
Proof.
  intros t len c a b x I E D. pose proof (decodeHeader_more a x b D) as D'. rewrite <- E, (decode_header_ok t (zlen c) len c I) in D'. injection D' as <-. split; [reflexivity|]. destruct (decodeHeader_pre _ _ D) as [r Er]. cbn [fst] in Er. exists r. split; [exact Er|]. rewrite Er in E. change (t :: len ++ c) with ((t :: len) ++ c) in E. rewrite <- app_assoc in E. apply app_inv_head in E. exact E.
Qed.
(** [a] is the beginning of [x ++ y]: of [x], or [x] and the beginning of [y] *)
Lemma cut_app : forall (x y a b : bytes), x ++ y = a ++ b -> (exists r, x = a ++ r /\ r <> [] /\ b = r ++ y) \/ (exists r, a = x ++ r /\ y = r ++ b).
Proof.
  induction x as [|z x IH]; intros y a b E; [right; exists a; auto|]. destruct a as [|z' a]; [left; exists (z :: x); split; [reflexivity|]; split; [intro Q; discriminate Q|]; symmetry; exact E|]. cbn [app] in E. injection E as <- E. destruct (IH _ _ _ E) as [(r & -> & N & ->)|(r & -> & ->)]; [left; exists r; auto|right; exists r; auto].
Qed.
Definition short (n : node) (a : bytes) : Prop := exists t h p, n = Leaf t h p /\ zlen h + zlen p = zlen a.
Lemma cut_parse : forall v f bs a b, der v bs -> bs = a ++ b -> b <> [] -> (length a <= f)%nat ->
  match parse f a with Err _ => True | Ok n => short n a /\ (forall l, v <> VSeq l) end.
Proof.
  intros v. induction v as [v N|l IH] using value_ind2; intros f bs a b D E B L.
  - apply der_leaf in D; [|exact N]. destruct D as (len & c & -> & Il & Lc). destruct a as [|t a]; [destruct f; exact Logic.I|]. pose proof E as E0. cbn [app] in E. injection E as Et E. subst t. rewrite parse_leaf by (apply leaf_tag; exact N). destruct (decodeHeader (tag v :: a)) as [x|e] eqn:H; [|exact Logic.I]. cbn [rbind].
    destruct (cut_header _ _ _ _ _ _ Il E0 H) as (-> & a' & Ea & Ec). cbn [fst snd]. split; [|exact N]. eexists _, _, _. split; [reflexivity|]. rewrite Ea. subst c. pose proof (zlen_nonneg _ a'). assert (0 < zlen b) by (destruct b; [contradiction|rewrite zlen_cons; pose proof (zlen_nonneg _ b); lia]).
    rewrite zlen_app in *. replace (0 <? zlen a' + zlen b) with true by lia. rewrite zlen_app. f_equal. unfold zslice. rewrite zlen_cons. pose proof (zlen_nonneg _ len). unfold zlen in *. rewrite firstn_length, skipn_length, app_length. cbn [length]. lia.
  - apply der_seq in D. destruct D as (len & c & -> & Il & Dc). destruct a as [|t a]; [destruct f; exact Logic.I|]. pose proof E as E0. cbn [app] in E. injection E as Et E. subst t. cbn [length] in L. destruct f as [|f]; [lia|]. rewrite parse_seq. destruct (decodeHeader (T_SEQUENCE :: a)) as [x|e] eqn:H; [|exact Logic.I]. cbn [rbind].
    destruct (cut_header _ _ _ _ _ _ Il E0 H) as (-> & a' & Ea & Ec). cbn [fst snd]. cbn [tag] in *. unfold T_SEQUENCE in *. rewrite Ea, skipn_len.
    assert (La : (length a' <= f)%nat). { pose proof (f_equal (@length Z) Ea) as H0. rewrite app_length in H0. cbn [length] in H0. lia. }
    assert (G : forall l, Forall (fun v => forall f bs a b, der v bs -> bs = a ++ b -> b <> [] -> (length a <= f)%nat -> match parse f a with Err _ => True | Ok n => short n a /\ (forall l, v <> VSeq l) end) l ->
      forall c a' b k size acc, ders l c -> c = a' ++ b -> b <> [] -> (length a' <= f)%nat -> acc + zlen c = size -> exists e, children f k size a' acc = Err e).
    { clear. induction l as [|v l IHl]; intros F c a b k size acc D E B Lf Es; inversion F as [|? ? Hv Fl]; subst; cbn [ders] in D; [apply app_eq_nil in D; tauto|].
      destruct D as (b0 & c' & Ec & Db & Dc). rewrite Ec. pose proof (der_len _ _ Db) as Lb. pose proof (zlen_nonneg _ c') as Lc. rewrite zlen_app. destruct k as [|k]; cbn [children]; replace (acc <? acc + (zlen b0 + zlen c')) with true by lia; [eexists; reflexivity|].
      symmetry in Ec. destruct (cut_app _ _ _ _ Ec) as [(r & Eb & Nr & Er)|(r & Ea & Er)].
      - pose proof (Hv f b0 a r Db Eb Nr Lf) as X. destruct (parse f a) as [n|e]; [|eexists; reflexivity]. cbn [rbind]. destruct X as [(t & h & p & -> & S) _]. cbn [getSize]. rewrite S. replace (Z.to_nat (zlen a)) with (length a) by (unfold zlen; lia). rewrite skipn_all.
        assert (Y : exists e, children f k (acc + (zlen b0 + zlen c')) [] (acc + zlen a) = Err e); [|destruct Y as [e ->]; eexists; reflexivity].
        assert (0 < zlen r) by (destruct r; [contradiction|rewrite zlen_cons; pose proof (zlen_nonneg _ r); lia]). rewrite Eb, zlen_app. destruct k as [|k]; cbn [children]; replace (acc + zlen a <? acc + (zlen a + zlen r + zlen c')) with true by lia; [eexists; reflexivity|]. destruct f; eexists; reflexivity.
      - subst a. rewrite app_length in Lf. destruct (parse_ok v f b0 r Db ltac:(lia)) as (n & E & R & T). rewrite E. cbn [rbind]. destruct (getSize_ok n v R) as (A1 & A2 & A3 & _ & _). rewrite (surjective_pairing (getSize n)). rewrite A1, <- tsize_bytes, T. replace (Z.to_nat (zlen b0)) with (length b0) by (unfold zlen; lia). rewrite skipn_len.
        destruct (IHl Fl c' r b k (acc + (zlen b0 + zlen c')) (acc + zlen b0) Dc Er B ltac:(lia) ltac:(lia)) as [e ->]. eexists. reflexivity. }
    destruct (G l IH c a' b (S (length ((48 :: len) ++ a'))) (zlen c) 0 Dc Ec B La ltac:(lia)) as [e ->]. exact Logic.I.
Qed.
(** DER of a sequence without its end is refused, wherever the end is cut off (not so for other types:
    C59_truncated_refuted). *)
Theorem C59_cut_sequence : forall l bs a b, der (VSeq l) bs -> bs = a ++ b -> b <> [] -> exists e, node_parse a 0 = Err e.
Proof.
  intros l bs a b D E B. unfold node_parse. cbn [skipn]. pose proof (cut_parse (VSeq l) (length a) bs a b D E B (le_n _)) as X. destruct (parse (length a) a) as [n|e]; [|exists e; reflexivity]. destruct X as [_ X]. exfalso. apply (X l). reflexivity.
Qed.
Example C59_cut_example : der (VSeq [VSeq [VOid [1; 2; 3]]; VOctets [7; 8]]) ([48; 10; 48; 4; 6; 2; 42; 3; 4; 2; 7] ++ [8]) /\ node_parse [48; 10; 48; 4; 6; 2; 42; 3; 4; 2; 7] 0 = Err OtherError.
Proof.
  split; [|vm_compute; reflexivity]. destruct (C59_encode (VSeq [VSeq [VOid [1; 2; 3]]; VOctets [7; 8]])) as (n & E & _ & D).
  - cbn. split; [split; [exists 1, 2, [3]; split; [reflexivity|]; split; [lia|]; split; [lia|]; constructor; [lia|constructor]|exact Logic.I]|]. split; [apply bytes_okb_ok; reflexivity|exact Logic.I].
  - vm_compute in E. injection E as <-. apply D. vm_compute. reflexivity.
Qed.
Print Assumptions C59_cut_sequence.
