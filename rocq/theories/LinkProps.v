(** * C94: Link *)
From Verif Require Import Base BaseLemmas TlvModel TlvSpec TlvProofs NameModel NameSpec NameProofs WireModel WireSpec WireProofs WireProofs3 WireProofs5 WireProps DelegModel DelegSpec DelegProps BagModel LinkModel LinkSpec.
From Coq Require Import Sorted.

Definition bytes_of (l : link) : Prop := d_content (l_data l) = Some (elems (map deleg_el (l_ds l))).
Definition linv (l : link) : Prop := Forall deleg_ok (l_ds l) /\ mi_type (d_meta (l_data l)) = 1 /\ (bytes_of l \/ carries l).

Lemma valid_ok : forall n, name_ok n -> Forall c_valid n.
Proof. intros n H. eapply Forall_impl; [|exact H]. intros c X. exact (proj1 X). Qed.
Lemma insert_ok : forall d ds, exists a b, ds = a ++ b /\ ds_insert d ds = Ok (a ++ d :: b).
Proof.
  intros d ds. induction ds as [|x ds IH]; [exists [], []; split; reflexivity|]. cbn [ds_insert].
  assert (E : exists c, dg_compare x d = Ok c) by (destruct (dg_compare_cases x d) as [[E _]|[[E _]|[E _]]]; eauto). destruct E as [c ->]. cbn [rbind].
  destruct (0 <=? c); [exists [], (x :: ds); split; reflexivity|]. destruct IH as (a & b & -> & ->). cbn [rbind]. exists (x :: a), b. split; reflexivity.
Qed.
Lemma remove_none : forall n ds, snd (ds_remove n ds) = false -> fst (ds_remove n ds) = ds.
Proof.
  intros n ds. unfold ds_remove. cbn [fst snd]. induction ds as [|d ds IH]; [reflexivity|]. cbn [existsb filter]. destruct (n_equals (snd d) n); [discriminate|]. cbn [orb negb]. intro H. rewrite (IH H). reflexivity.
Qed.
Lemma filter_forall : forall (P : delegation -> Prop) f ds, Forall P ds -> Forall P (filter f ds).
Proof. intros P f ds H. rewrite Forall_forall in *. intros x X. apply H. apply filter_In in X. exact (proj1 X). Qed.
Lemma encodeContent_ok : forall l, Forall deleg_ok (l_ds l) ->
  encodeContent l = (Link (setLinkType (setContent (l_data l) (Some (elems (map deleg_el (l_ds l)))))) (l_ds l), Ok tt).
Proof. intros l H. unfold encodeContent, encodeDelegationSet. rewrite enc_ds_ok by exact H. rewrite app_nil_r. reflexivity. Qed.

(** One call: it does not raise, and the object stays as it should *)
Lemma lstep_ok : forall l o, linv l -> lop_ok o -> let l' := fst (lstep l o) in
  linv l' /\ (exists b, snd (lstep l o) = Ok b) /\
  match o with LAdd p n => ds_step (l_ds l) (DsAdd p n) | LRemove n => ds_step (l_ds l) (DsRemove n) | _ => Ok (l_ds l) end = Ok (l_ds l') /\
  d_name (l_data l') = match o with LSetName n => n | _ => d_name (l_data l) end /\ d_sig (l_data l') = match o with LSetSignature s => s | _ => d_sig (l_data l) end /\
  mi_freshness (d_meta (l_data l')) = match o with LSetFreshness f => f | _ => mi_freshness (d_meta (l_data l)) end /\
  mi_final (d_meta (l_data l')) = mi_final (d_meta (l_data l)) /\ mi_other (d_meta (l_data l')) = mi_other (d_meta (l_data l)).
Proof.
  intros l o (V & T & C) Ok'. destruct o as [p n|n|n|s|f]; cbn [lstep lop_ok] in *.
  - unfold addDelegation. cbn [ds_step]. unfold ds_add. destruct (insert_ok (p, n) (fst (ds_remove n (l_ds l)))) as (a & b & Ea & Ei). rewrite Ei.
    assert (Va : Forall deleg_ok (a ++ (p, n) :: b)). { assert (X : Forall deleg_ok (a ++ b)) by (rewrite <- Ea; apply filter_forall; exact V). apply Forall_app in X. destruct X as [X Y]. apply Forall_app. split; [exact X|]. constructor; [|exact Y]. split; [exact (proj1 Ok')|exact (proj2 Ok')]. }
    rewrite encodeContent_ok by exact Va. cbv zeta. cbn [fst snd l_ds l_data setLinkType setContent d_name d_sig d_meta mi_freshness mi_final mi_other]. split; [split; [exact Va|split; [reflexivity|left; reflexivity]]|]. split; [eexists; reflexivity|]. repeat split.
  - unfold removeDelegation. cbn [ds_step]. destruct (snd (ds_remove n (l_ds l))) eqn:E.
    + rewrite encodeContent_ok by (apply filter_forall; exact V). cbv zeta. cbn [fst snd l_ds l_data setLinkType setContent d_name d_sig d_meta mi_freshness mi_final mi_other]. split; [split; [apply filter_forall; exact V|split; [reflexivity|left; reflexivity]]|]. split; [eexists; reflexivity|]. repeat split.
    + cbv zeta. cbn [fst snd l_ds l_data]. rewrite (remove_none _ _ E). split; [split; [exact V|split; [exact T|exact C]]|]. split; [eexists; reflexivity|]. repeat split.
  - split; [split; [exact V|split; [exact T|exact C]]|]. split; [eexists; reflexivity|]. repeat split.
  - split; [split; [exact V|split; [exact T|exact C]]|]. split; [eexists; reflexivity|]. repeat split.
  - split; [split; [exact V|split; [exact T|exact C]]|]. split; [eexists; reflexivity|]. repeat split.
Qed.
Lemma lrun_ok : forall h l, linv l -> Forall lop_ok h -> let l' := fst (lrun h l) in
  linv l' /\ Forall (fun r => exists b, r = Ok b) (snd (lrun h l)) /\ ds_run (ds_ops h) (l_ds l) = Ok (l_ds l') /\
  d_name (l_data l') = last_name (d_name (l_data l)) h /\ d_sig (l_data l') = last_signature (d_sig (l_data l)) h /\ mi_freshness (d_meta (l_data l')) = last_freshness (mi_freshness (d_meta (l_data l))) h /\
  mi_final (d_meta (l_data l')) = mi_final (d_meta (l_data l)) /\ mi_other (d_meta (l_data l')) = mi_other (d_meta (l_data l)).
Proof.
  intros h l I0. induction h as [|o h IH] using rev_ind; intro F; [split; [exact I0|]; split; [constructor|]; repeat split|].
  apply Forall_app in F. destruct F as [F1 F2]. inversion F2 as [|x y Ho _]; subst. specialize (IH F1). cbv zeta in *. destruct IH as (J & R & D & A1 & A2 & A3 & A4 & A5). unfold lrun in *. rewrite fold_left_app. cbn [fold_left]. set (x := fold_left _ h (l, [])) in *. cbn [fst snd].
  destruct (lstep_ok (fst x) o J Ho) as (J' & R' & D' & B1 & B2 & B3 & B4 & B5). cbv zeta in *. split; [exact J'|]. split; [apply Forall_app; split; [exact R|constructor; [exact R'|constructor]]|].
  split. { unfold ds_ops. rewrite flat_map_app. unfold ds_run in *. rewrite fold_left_app. unfold ds_ops in D. rewrite D. destruct o; cbn [flat_map app fold_left rbind]; try exact D'. all: injection D' as ->; reflexivity. }
  unfold last_name, last_signature, last_freshness, last_set in *. rewrite !fold_left_app. cbn [fold_left]. rewrite <- A1, <- A2, <- A3. destruct o; repeat split; congruence.
Qed.
Lemma carry : forall l, linv l -> ds_size (l_ds l) < 2 ^ 64 -> carries l.
Proof.
  intros l (V & T & [B|C]) L; [|exact C]. split; [exact T|]. rewrite B. destruct (C22_wire_round_trip (l_ds l) V L) as (w & _ & -> & D). exact D.
Qed.
Lemma new_inv : forall n, linv (link_new n).
Proof. intro n. split; [constructor|]. split; [reflexivity|]. right. split; reflexivity. Qed.

(** ** The delegations of a Link are those that were added and not removed, and its packet carries them *)
Theorem C94_history : forall n h, name_ok n -> Forall lop_ok h -> let l := fst (lrun h (link_new n)) in
  Forall (fun r => exists b, r = Ok b) (snd (lrun h (link_new n))) /\
  StronglySorted dlt (l_ds l) /\ NoDup (map snd (l_ds l)) /\ (forall p m, In (p, m) (l_ds l) <-> pref_after (ds_ops h) m p) /\
  d_name (l_data l) = last_name n h /\ d_sig (l_data l) = last_signature (d_sig data_new) h /\ mi_freshness (d_meta (l_data l)) = last_freshness None h /\
  (ds_size (l_ds l) < 2 ^ 64 -> carries l).
Proof.
  intros n h Hn F l. destruct (lrun_ok h (link_new n) (new_inv n) F) as (J & R & D & A1 & A2 & A3 & _). fold l in J, D, A1, A2, A3. split; [exact R|].
  assert (Vo : Forall ds_op_valid (ds_ops h)). { clear - F. induction F as [|o h Ho F IH]; [constructor|]. unfold ds_ops. cbn [flat_map]. apply Forall_app. split; [|exact IH]. destruct o; cbn [lop_ok] in Ho; constructor; try constructor; cbn [ds_op_valid]; apply valid_ok; apply Ho. }
  destruct (C22_sorted_map _ Vo) as (ds & E & S & N & M). change (l_ds (link_new n)) with (@nil delegation) in D. rewrite D in E. injection E as <-. split; [exact S|]. split; [exact N|]. split; [exact M|]. split; [exact A1|]. split; [exact A2|]. split; [exact A3|]. exact (carry l J).
Qed.
(** Also when the Link was received: it goes on carrying its delegations *)
Theorem C94_history_received : forall l0 h, carries l0 -> Forall deleg_ok (l_ds l0) -> Forall lop_ok h -> let l := fst (lrun h l0) in
  Forall (fun r => exists b, r = Ok b) (snd (lrun h l0)) /\ ds_run (ds_ops h) (l_ds l0) = Ok (l_ds l) /\ (ds_size (l_ds l) < 2 ^ 64 -> carries l).
Proof.
  intros l0 h C V F l. destruct (lrun_ok h l0 (conj V (conj (proj1 C) (or_intror C))) F) as (J & R & D & _). split; [exact R|]. split; [exact D|]. exact (carry l J).
Qed.
(** ** Adding and removing, in any Link: only the delegation of that name is changed *)
Theorem C94_add : forall l p n, Forall deleg_ok (l_ds l) -> 0 <= p < 2 ^ 64 -> name_ok n -> let l' := fst (addDelegation l p n) in
  snd (addDelegation l p n) = Ok tt /\ (forall q, In (q, n) (l_ds l') <-> q = p) /\
  filter (fun d => negb (n_equals (snd d) n)) (l_ds l') = filter (fun d => negb (n_equals (snd d) n)) (l_ds l).
Proof.
  intros l p n V P N. unfold addDelegation, ds_add. destruct (insert_ok (p, n) (fst (ds_remove n (l_ds l)))) as (a & b & Ea & Ei). rewrite Ei. pose proof (valid_ok n N) as Vn.
  assert (X : Forall deleg_ok (a ++ b)) by (rewrite <- Ea; apply filter_forall; exact V). pose proof X as X'. apply Forall_app in X. destruct X as [X Y].
  assert (Va : Forall deleg_ok (a ++ (p, n) :: b)). { apply Forall_app. split; [exact X|]. constructor; [|exact Y]. split; [exact P|exact N]. }
  rewrite encodeContent_ok by exact Va. cbv zeta. cbn [fst snd l_ds]. split; [reflexivity|].
  assert (Vd : Forall dvalid (l_ds l)). { eapply Forall_impl; [|exact V]. intros d D. exact (valid_ok _ (proj2 D)). }
  assert (Q : forall d, In d (a ++ b) -> snd d <> n). { intros d D. rewrite <- Ea in D. apply (ds_remove_In n (l_ds l) d Vd Vn) in D. exact (proj2 D). }
  split.
  - intro q. split; [|intros ->; apply in_or_app; right; left; reflexivity]. intro H. apply in_app_or in H. destruct H as [H|[H|H]]; [|congruence|]; exfalso; apply (Q (q, n)); try reflexivity; apply in_or_app; auto.
  - assert (En : n_equals n n = true) by (apply (valid_equals n n Vn Vn); reflexivity).
    assert (K : forall m, (forall d, In d m -> In d (a ++ b)) -> filter (fun d => negb (n_equals (snd d) n)) m = m).
    { intros m Hm. induction m as [|d m IH]; [reflexivity|]. cbn [filter]. assert (Ed : n_equals (snd d) n = false). { destruct (n_equals (snd d) n) eqn:E; [|reflexivity]. exfalso. pose proof (Hm d (or_introl eq_refl)) as Hd. apply (Q d Hd). rewrite Forall_forall in X'. apply (valid_equals _ _ (valid_ok _ (proj2 (X' d Hd))) Vn). exact E. } rewrite Ed. cbn [negb]. rewrite IH; [reflexivity|]. intros x Hx. apply Hm. right. exact Hx. }
    assert (Ka := K a (fun d D => in_or_app a b d (or_introl D))). assert (Kb := K b (fun d D => in_or_app a b d (or_intror D))).
    etransitivity; [apply filter_app|]. cbn [filter snd]. rewrite En. cbn [negb]. etransitivity; [exact (f_equal2 (@app delegation) Ka Kb)|]. symmetry. exact Ea.
Qed.
Theorem C94_remove : forall l n, Forall deleg_ok (l_ds l) -> name_ok n -> let l' := fst (removeDelegation l n) in
  (exists b, snd (removeDelegation l n) = Ok b /\ (b = true <-> In n (map snd (l_ds l)))) /\ ~ In n (map snd (l_ds l')) /\
  l_ds l' = filter (fun d => negb (n_equals (snd d) n)) (l_ds l).
Proof.
  intros l n V N. pose proof (valid_ok n N) as Vn. assert (Vd : Forall dvalid (l_ds l)). { eapply Forall_impl; [|exact V]. intros d D. exact (valid_ok _ (proj2 D)). }
  assert (Ne : ~ In n (map snd (filter (fun d => negb (n_equals (snd d) n)) (l_ds l)))). { intro H. apply in_map_iff in H. destruct H as (d & E & D). apply (ds_remove_In n (l_ds l) d Vd Vn) in D. exact (proj2 D E). }
  assert (Iff : snd (ds_remove n (l_ds l)) = true <-> In n (map snd (l_ds l))).
  { unfold ds_remove. cbn [snd]. rewrite existsb_exists, in_map_iff. rewrite Forall_forall in Vd. split; intros (d & A & B); exists d; [split; [apply (valid_equals _ _ (Vd d A) Vn); exact B|exact A]|split; [exact B|apply (valid_equals _ _ (Vd d B) Vn); exact A]]. }
  unfold removeDelegation. destruct (snd (ds_remove n (l_ds l))) eqn:E.
  - rewrite encodeContent_ok by (apply filter_forall; exact V). cbv zeta. cbn [fst snd l_ds]. split; [exists true; split; [reflexivity|exact Iff]|]. split; [exact Ne|reflexivity].
  - cbv zeta. cbn [fst snd l_ds]. split; [exists false; split; [reflexivity|exact Iff]|]. split; [exact Ne|reflexivity].
Qed.

Lemma tlv_le : forall t v, zlen v <= zlen (tlv t v).
Proof. intros t v. unfold tlv. rewrite !zlen_app. pose proof (zlen_nonneg _ (varnum t)). pose proof (zlen_nonneg _ (varnum (zlen v))). lia. Qed.
Lemma elems_le : forall es t v, In (t, v) es -> zlen v <= zlen (elems es).
Proof.
  intros es t v. induction es as [|e es IH]; intro H; [destruct H|]. unfold elems. cbn [map concat]. rewrite zlen_app. fold (elems es). destruct H as [->|H].
  - cbn [fst snd]. pose proof (tlv_le t v). pose proof (zlen_nonneg _ (elems es)). lia.
  - specialize (IH H). match goal with |- context [zlen ?x + zlen (elems es)] => pose proof (zlen_nonneg _ x) end. lia.
Qed.
(** ** What is sent is what is received *)
Theorem C94_round_trip : forall n h partData partSet l0, name_ok n -> Forall lop_ok h -> let l := fst (lrun h (link_new n)) in
  zlen (data_bytes (l_data l)) < 2 ^ 64 -> exists w offs l', encodeData (l_data l) = Ok (w, offs) /\ wireDecode partData partSet l0 w = (l', Ok tt) /\
    l_ds l' = l_ds l /\ d_name (l_data l') = d_name (l_data l) /\ mi_freshness (d_meta (l_data l')) = mi_freshness (d_meta (l_data l)) /\ d_sig (l_data l') = sig_seen (d_sig (l_data l)) /\ carries l'.
Proof.
  intros n h pD pS l0 Hn F l L. destruct (lrun_ok h (link_new n) (new_inv n) F) as (J & R & D & A1 & A2 & A3 & A4 & A5). fold l in J, D, A1, A2, A3, A4, A5.
  assert (Ok1 : data_ok (l_data l)).
  { split; [rewrite A1|split].
    - clear - Hn F. unfold last_name, last_set. cbn [link_new l_data setLinkType setName d_name]. revert n Hn. induction F as [|o h Ho F IH]; intros n Hn; [exact Hn|]. cbn [fold_left]. apply IH. destruct o; try exact Hn. exact Ho.
    - destruct J as (_ & T & _). split; [left; rewrite T; lia|]. split; [rewrite A3|rewrite A4; apply gen_ok; reflexivity].
      clear - F. unfold last_freshness, last_set. cbn [link_new l_data setLinkType setName d_meta mi_freshness data_new mi_empty]. generalize (None : option Z) (Logic.I : float_ok None). induction F as [|o h Ho F IH]; intros x Hx; [exact Hx|]. cbn [fold_left]. apply IH. destruct o; try exact Hx. exact Ho.
    - rewrite A2. clear - F. unfold last_signature, last_set. cbn [link_new l_data setLinkType setName d_sig data_new]. assert (S0 : sig_ok (SigRsa kl_empty vp_none None)) by (split; [exact Logic.I|left; reflexivity]). revert S0. generalize (SigRsa kl_empty vp_none None). induction F as [|o h Ho F IH]; intros x Hx; [exact Hx|]. cbn [fold_left]. apply IH. destruct o; try exact Hx. exact Ho. }
  destruct (C18_data_round_trip (l_data l0) (l_data l) Ok1 L) as (offs & E1 & E2). exists (data_bytes (l_data l)), offs. unfold wireDecode. rewrite E2.
  pose proof J as J0. destruct J as (V & T & _). cbn [data_seen d_meta mi_seen mi_type d_content]. rewrite T. cbn [Z.eqb Pos.eqb negb].
  assert (Sz : zlen (blob_bytes (d_content (l_data l))) < 2 ^ 64).
  { pose proof (tlv_le 6 (data_signed (l_data l) ++ elems [(23, blob_bytes (sig_bits (d_sig (l_data l))))])) as L1. fold (data_bytes (l_data l)) in L1. rewrite zlen_app in L1. pose proof (zlen_nonneg _ (elems [(23, blob_bytes (sig_bits (d_sig (l_data l))))])) as L2.
    unfold data_signed in L1. rewrite zlen_app in L1. pose proof (zlen_nonneg _ (siginfo (d_sig (l_data l)))) as L3. pose proof (elems_le [name_el (d_name (l_data l)); mi_el (d_meta (l_data l)); (21, blob_bytes (d_content (l_data l)))] 21 _ (or_intror (or_intror (or_introl eq_refl)))) as L4. lia. }
  assert (Dc : decodeDelegationSet (blob_bytes (d_content (l_data l))) = Ok (l_ds l)).
  { destruct (d_content (l_data l)) as [c|] eqn:Ec.
    - destruct J0 as (_ & _ & [B|[_ C]]); [|rewrite Ec in C; exact C]. unfold bytes_of in B. rewrite Ec in B. injection B as ->. destruct (C22_wire_round_trip (l_ds l) V Sz) as (w & _ & -> & X). exact X.
    - destruct J0 as (_ & _ & [B|[_ C]]); [unfold bytes_of in B; congruence|]. rewrite Ec in C. rewrite C. reflexivity. }
  rewrite Dc. eexists. split; [exact E1|]. split; [reflexivity|]. cbn [l_ds l_data d_name d_meta mi_freshness d_sig]. split; [reflexivity|]. split; [reflexivity|]. split; [reflexivity|]. split; [reflexivity|]. split; [exact T|exact Dc].
Qed.
(** ** wireDecode accepts exactly LINK packets whose content are delegations, for every input and every object it is called on *)
Theorem C94_decode : forall partData partSet l0 input, (exists l, wireDecode partData partSet l0 input = (l, Ok tt)) <->
  exists d offs c ds, decodeData (l_data l0) input = Ok (d, offs) /\ mi_type (d_meta d) = 1 /\ d_content d = Some c /\ decodeDelegationSet c = Ok ds.
Proof.
  intros pD pS l0 inp. unfold wireDecode. split.
  - intros [l H]. destruct (decodeData (l_data l0) inp) as [[d offs]|]; [|discriminate H]. destruct (Z.eqb_spec (mi_type (d_meta d)) 1) as [T|T]; cbn [negb] in H; [|discriminate H]. destruct (d_content d) as [c|] eqn:C; [|discriminate H]. destruct (decodeDelegationSet c) as [ds|] eqn:D; [|discriminate H]. exists d, offs, c, ds. auto.
  - intros (d & offs & c & ds & E & T & C & D). rewrite E, T. cbn [Z.eqb Pos.eqb negb]. rewrite C, D. eexists. reflexivity.
Qed.
Theorem C94_decode_carries : forall partData partSet l0 input l, wireDecode partData partSet l0 input = (l, Ok tt) -> carries l /\ d_content (l_data l) <> None.
Proof.
  intros pD pS l0 inp l H. unfold wireDecode in H. destruct (decodeData (l_data l0) inp) as [[d offs]|]; [|discriminate H]. destruct (Z.eqb_spec (mi_type (d_meta d)) 1) as [T|T]; cbn [negb] in H; [|discriminate H]. destruct (d_content d) as [c|] eqn:C; [|discriminate H]. destruct (decodeDelegationSet c) as [ds|] eqn:D; [|discriminate H]. injection H as <-. unfold carries. cbn [l_data l_ds]. rewrite C. split; [split; [exact T|exact D]|discriminate].
Qed.
(** ** Link(data): the same packet, with the delegations of its content; it is a Link packet when there are any *)
Theorem C94_copy : forall d, let l := link_copy d in
  d_name (l_data l) = d_name d /\ d_content (l_data l) = d_content d /\ d_sig (l_data l) = d_sig d /\ mi_freshness (d_meta (l_data l)) = mi_freshness (d_meta d) /\ mi_final (d_meta (l_data l)) = mi_final (d_meta d) /\
  (forall c ds, d_content d = Some c -> decodeDelegationSet c = Ok ds -> l_ds l = ds /\ carries l) /\
  (l_ds l <> [] -> carries l) /\ (~ carries l -> l_data l = d /\ l_ds l = []).
Proof.
  intro d. unfold link_copy, carries. destruct (d_content d) as [c|] eqn:C; [destruct (decodeDelegationSet c) as [ds|e] eqn:D|]; cbv zeta; cbn [l_data l_ds setLinkType d_name d_content d_sig d_meta mi_freshness mi_final mi_type]; rewrite ?C; repeat (split; [reflexivity|]).
  - split; [intros c' ds' X Y; injection X as <-; rewrite D in Y; injection Y as <-; auto|]. split; [auto|]. intro X. exfalso. apply X. auto.
  - split; [intros c' ds' X Y; injection X as <-; rewrite D in Y; discriminate Y|]. split; [congruence|auto].
  - split; [intros c' ds' X; discriminate X|]. split; [congruence|auto].
Qed.
(** a Link that carries its delegations is copied with them *)
Theorem C94_copy_link : forall l, carries l -> l_ds (link_copy (l_data l)) = l_ds l /\ carries (link_copy (l_data l)) /\ d_meta (l_data (link_copy (l_data l))) = d_meta (l_data l).
Proof.
  intros [d ds] [T C]. cbn [l_data l_ds] in *. unfold link_copy, carries. destruct (d_content d) as [c|] eqn:E; [rewrite C|subst ds]; cbn [l_data l_ds setLinkType d_content d_meta mi_type]; rewrite ?E; repeat (split; [first [reflexivity|exact T|split; [reflexivity|first [reflexivity|exact C]]|split; [exact T|reflexivity]]|]); [|reflexivity]. destruct (d_meta d) as [t o f b]. cbn in *. subst t. reflexivity.
Qed.

(** ** What one may expect, but is not so *)
Definition lk_a : name := [c_generic [65]].
Definition lk_ex : list lop := [LAdd 20 lk_a; LAdd 10 [c_generic [66]]; LSetName [c_generic [76]]; LAdd 5 lk_a; LRemove [c_generic [66]]].
Example C94_ex : Forall lop_ok lk_ex /\ name_ok lk_a /\ let l := fst (lrun lk_ex (link_new lk_a)) in
  snd (lrun lk_ex (link_new lk_a)) = [Ok true; Ok true; Ok true; Ok true; Ok true] /\ l_ds l = [(5, lk_a)] /\ zlen (data_bytes (l_data l)) < 2 ^ 64 /\ carries l /\ ds_size (l_ds l) = 10.
Proof.
  assert (A : forall b, is_byte b -> name_ok [c_generic [b]]). { intros b B. constructor; [|constructor]. split; [split; [constructor; [exact B|constructor]|right; split; [right; right; reflexivity|reflexivity]]|]. split; [reflexivity|]. cbn. unfold CT_IMPLICIT, CT_PARAMS. intros [K|K]; discriminate K. }
  assert (B : forall b, 0 <= b < 256 -> name_ok [c_generic [b]]) by (intros b B; apply A; exact B).
  split; [repeat (constructor; [cbn [lop_ok]; try split; try lia; apply B; lia|]); constructor|]. split; [apply B; lia|]. cbv zeta. split; [vm_compute; reflexivity|]. split; [vm_compute; reflexivity|]. split; [vm_compute; reflexivity|]. split; [split; [vm_compute; reflexivity|vm_compute; reflexivity]|]. vm_compute. reflexivity.
Qed.
(** Link(data) need not be a Link packet, even without an exception *)
Theorem C94_copy_type_refuted : exists d, l_data (link_copy d) = d /\ mi_type (d_meta d) = 0 /\ d_content d = None.
Proof. exists data_new. repeat split. Qed.
(** After addDelegation has raised (a negative preference), the delegation is there, but not in the packet; no further delegation can be added. *)
Theorem C94_negative_refuted : exists l p n, l = link_new [] /\ snd (addDelegation l p n) = Err ValueError /\ l_ds (fst (addDelegation l p n)) = [(p, n)] /\
  d_content (l_data (fst (addDelegation l p n))) = None /\ snd (addDelegation (fst (addDelegation l p n)) 1 [c_generic [66]]) = Err ValueError.
Proof. exists (link_new []), (-1), lk_a. split; [reflexivity|]. split; [vm_compute; reflexivity|]. split; [vm_compute; reflexivity|]. split; [vm_compute; reflexivity|vm_compute; reflexivity]. Qed.
(** After wireDecode has raised because the packet is not a LINK, the object has the fields of that packet and the delegations from before. *)
Theorem C94_wrong_type_refuted : exists l d w offs, carries l /\ l_ds l = [(5, lk_a)] /\ encodeData d = Ok (w, offs) /\ forall partData partSet,
  snd (wireDecode partData partSet l w) = Err RuntimeError /\ l_ds (fst (wireDecode partData partSet l w)) = l_ds l /\ d_name (l_data (fst (wireDecode partData partSet l w))) = d_name d /\ d_name d <> d_name (l_data l).
Proof.
  exists (fst (lrun lk_ex (link_new lk_a))), (Data [c_generic [88]] mi_empty (Some [1]) (SigDigest (Some [7]))). eexists. eexists. split; [exact (proj1 (proj2 (proj2 (proj2 (proj2 (proj2 C94_ex))))))|]. split; [vm_compute; reflexivity|]. split; [vm_compute; reflexivity|].
  intros pD pS. split; [vm_compute; reflexivity|]. split; [vm_compute; reflexivity|]. split; [vm_compute; reflexivity|]. vm_compute. discriminate.
Qed.

Print Assumptions C94_history.
Print Assumptions C94_history_received.
Print Assumptions C94_add.
Print Assumptions C94_remove.
Print Assumptions C94_round_trip.
Print Assumptions C94_decode.
Print Assumptions C94_decode_carries.
Print Assumptions C94_copy.
Print Assumptions C94_copy_link.
Print Assumptions C94_copy_type_refuted.
Print Assumptions C94_negative_refuted.
Print Assumptions C94_wrong_type_refuted.
