(** * KeyChain: calls of the PIB, and signing *)
From Verif Require Import Base BaseLemmas TlvSpec NameModel NameSpec NameProofs DictModel DictProofs WireModel WireSpec CertProofs HierModel HierSpec HierProps PibModel PibSpec PibProps FrontModel FrontSpec FrontProofs FrontProofs5 FrontProps ChainModel ChainSpec ChainProofs.
From Coq Require Import Permutation.

Section K.
Variable P : Type.
Variable derive : P -> bytes.
Variable psign : Z -> P -> bytes -> bytes.
Variable pverify : bytes -> bytes -> bytes -> res bool.
Variable ktype : bytes -> res Z.
Variable sha : bytes -> bytes.
Variable load : bytes -> option bytes -> res P.
Variable ord : list name -> list name.
Hypothesis Ho : forall l, Permutation l (ord l).
Variable h0 : list (call data).
Notation call := (call data).
Notation trace := (trace data).
Notation kcall := (kcall P).
Notation kstate := (kstate P).
Notation tpmst := (tpmst P).
Notation km := (sm kstate).
Notation hist := (hist x_name).
Notation ident := (ident x_name).
Notation def_id := (def_id x_name).
Notation key_bits := (key_bits x_name x_content).
Notation cert := (cert x_name).
Notation def_key := (def_key x_name x_content).
Notation def_cert := (def_cert x_name).
Notation proper := (proper x_name x_content x_check ktype).
Notation answers := (answers x_name x_content).
Notation all_answers := (all_answers x_name x_content).
Notation reached := (reached x_name x_content x_check ktype).
Notation pcall := (pcall P ktype ord).
Notation nget := (dget n_equals).
Notation Hist s := (hist h0 (k_log s)).
Notation dkey s i := (default_key h0 (k_log s) i).

Record base (s : kstate) : Prop := {
  b_reached : reached h0 (k_log s) (k_pib s);
  b_heap : heap_ok ktype (k_pib s);
  b_answers : all_answers h0 (k_log s);
  b_proper : all_proper x_name x_content x_check ktype h0 (k_log s);
  b_tkeys : gd (t_keys (k_tpm s));
  b_thandles : gd (t_handles (k_tpm s));
  b_cache : forall k p, nval k -> nget (t_handles (k_tpm s)) k = Some p -> nget (t_keys (k_tpm s)) k = Some p }.

Lemma bind_ok : forall (S A B : Type) (m : sm S A) (k : A -> sm S B) s s' a, m s = (s', Ok a) -> bind m k s = k a s'.
Proof. intros. unfold bind. rewrite H. reflexivity. Qed.

Lemma pcall_step : forall s o, base s -> proper h0 (k_log s) o -> exists s' r, pcall o s = (s', r) /\ base s' /\ answers h0 (k_log s) o r /\ k_log s' = (o, r) :: k_log s /\ k_tpm s' = k_tpm s.
Proof.
  intros s o [B1 B2 B3 B4 B5 B6 B7] Po. pose proof (step x_name x_content x_check ord ktype Ho h0 _ _ o B1 Po) as G. pose proof (k_fexec x_name x_content x_check ord ktype o _ B2) as H. unfold ChainModel.pcall. destruct (fexec x_name x_content x_check ord ktype o (k_pib s)) as [p r] eqn:E. cbn [fst] in H. destruct G as [G1 G2].
  eexists. exists r. split; [reflexivity|]. split; [constructor; cbn; auto|]. auto.
Qed.

(** ** Reading changes nothing *)
Definition quiet (s s' : kstate) : Prop :=
  Hist s' = Hist s /\ (forall i, dkey s' i = dkey s i) /\ t_keys (k_tpm s') = t_keys (k_tpm s) /\
  (forall hd, live_id (k_log s) hd -> live_id (k_log s') hd) /\ (forall hd, live_key (k_log s) hd -> live_key (k_log s') hd).
Lemma quiet_refl : forall s, quiet s s. Proof. intros s. repeat split; auto. Qed.
Lemma quiet_trans : forall a b c, quiet a b -> quiet b c -> quiet a c.
Proof. intros a b c (A1 & A2 & A3 & A4 & A5) (B1 & B2 & B3 & B4 & B5). repeat split; [congruence|intros; rewrite B2; apply A2|congruence|auto|auto]. Qed.

Lemma reads_quiet : forall t o r, reads o -> answers h0 t o r -> hist h0 ((o, r) :: t) = hist h0 t /\ (forall i, default_key h0 ((o, r) :: t) i = default_key h0 t i) /\
  (forall hd, live_id t hd -> live_id ((o, r) :: t) hd) /\ (forall hd, live_key t hd -> live_key ((o, r) :: t) hd).
Proof.
  intros t o r R A. assert (Eh : hist h0 ((o, r) :: t) = hist h0 t) by (destruct o, r; try contradiction; reflexivity). split; [exact Eh|]. split; [|split].
  - intros i. unfold default_key. rewrite Eh. destruct o; try contradiction; try reflexivity. cbn [FrontSpec.answers chosen] in *. destruct r as [[|x|x|x|x]|e]; try reflexivity. destruct (name_dec (h_name h) i) as [<-|]; [|reflexivity].
    destruct (chosen t (h_name h)) as [k|].
    + destruct A as (hd & [= <-] & <-). reflexivity.
    + destruct (def_key (hist h0 t) (h_name h)) as [k|]; [|discriminate A]. destruct A as (hd & [= <-] & <-). reflexivity.
  - intros hd L. destruct o; try contradiction; destruct r as [[|x|x|x|x]|e]; cbn; auto.
  - intros hd L. destruct o; try contradiction; destruct r as [[|x|x|x|x]|e]; cbn; auto.
Qed.
Lemma pcall_read : forall s o, base s -> reads o -> proper h0 (k_log s) o -> exists s' r, pcall o s = (s', r) /\ base s' /\ answers h0 (k_log s) o r /\ quiet s s' /\ k_log s' = (o, r) :: k_log s.
Proof.
  intros s o B R Po. destruct (pcall_step s o B Po) as (s' & r & E & B' & A & L & T). exists s', r. split; [exact E|]. split; [exact B'|]. split; [exact A|]. split; [|exact L].
  unfold quiet. rewrite L, T. destruct (reads_quiet _ o r R A) as (Q1 & Q2 & Q3 & Q4). repeat split; auto.
Qed.
Lemma live_id_answer : forall (t : trace) o hd, match o with FRemoveIdentity _ | FReset => False | _ => True end -> live_id ((o, Ok (AId hd)) :: t) hd.
Proof. intros t o hd N. destruct o; try contradiction; cbn; auto. Qed.
Lemma live_key_answer : forall (t : trace) o hd, match o with FRemoveIdentity _ | FRemoveKey _ _ | FReset => False | _ => True end -> live_key ((o, Ok (AKey hd)) :: t) hd.
Proof. intros t o hd N. destruct o; try contradiction; cbn; auto. Qed.

Lemma base_inv : forall s, base s -> exists I K, Inv x_name x_content x_check ktype (Hist s) (chosen (k_log s)) I K (k_pib s).
Proof. intros s [(I & K & V & _) _ _ _ _ _ _]. eauto. Qed.
Lemma base_sane : forall s, base s -> Forall (sane x_name x_check) (Hist s).
Proof. intros s B. destruct (base_inv s B) as (I & K & V). apply V. Qed.
Lemma live_id_val : forall s hd, base s -> live_id (k_log s) hd -> nval (h_name hd) /\ ident (Hist s) (h_name hd) = true.
Proof. intros s hd [(I & K & V & HI & _) _ _ _ _ _ _] L. destruct (HI hd L) as [o Eo]. destruct (i_id _ _ _ _ _ _ _ _ _ V _ _ _ Eo) as (A & _ & _ & B & _). auto. Qed.
Lemma live_key_val : forall s hd, base s -> live_key (k_log s) hd -> exists ko, nval (h_name hd) /\ a_key (h_name hd) /\ nth_error (keyheap (k_pib s)) (h_ref hd) = Some ko /\
  ko_name ko = h_name hd /\ key_bits (Hist s) (h_name hd) = Some (ko_bits ko) /\ key_extractIdentity (h_name hd) = Ok (ko_identity ko) /\ ktype (ko_bits ko) = Ok (ko_type ko).
Proof.
  intros s hd [(I & K & V & _ & HK) Hp _ _ _ _ _] L. destruct (HK hd L) as [o Eo]. destruct (i_key _ _ _ _ _ _ _ _ _ V _ _ _ Eo) as (A & B & _ & D & E1 & E2 & _). exists o. repeat split; auto.
  - unfold heap_ok in Hp. rewrite Forall_forall in Hp. destruct (Hp o (nth_error_In _ _ D)) as [X _]. rewrite E1 in X. exact X.
  - unfold heap_ok in Hp. rewrite Forall_forall in Hp. apply (Hp o (nth_error_In _ _ D)).
Qed.
Lemma dkey_there : forall s i k, base s -> dkey s i = Some k -> key_bits (Hist s) k <> None /\ owner k = i.
Proof.
  intros s i k B E. unfold default_key in E. destruct (chosen (k_log s) i) as [k'|] eqn:Ec.
  - injection E as <-. destruct (chosen_key x_name x_content x_check ktype _ _ _ _ _ (b_reached s B) Ec) as (A1 & A2 & _). auto.
  - destruct (spec_closed x_name x_content x_check _ (base_sane s B)) as (_ & _ & _ & X & _). destruct (X _ _ E). auto.
Qed.
Lemma key_there : forall s k b, base s -> key_bits (Hist s) k = Some b -> a_key k /\ Forall c_valid k /\ ident (Hist s) (owner k) = true.
Proof. intros s k b B E. destruct (spec_closed x_name x_content x_check _ (base_sane s B)) as (_ & X & _). eauto. Qed.

(** ** The reading calls *)
Lemma r_identity : forall s i, base s -> Forall c_valid i -> exists s', base s' /\ quiet s s' /\
  (if ident (Hist s) i then exists hd, pcall (FGetIdentity i) s = (s', Ok (AId hd)) /\ h_name hd = i /\ live_id (k_log s') hd else pcall (FGetIdentity i) s = (s', Err OtherError)).
Proof.
  intros s i B V. destruct (pcall_read s (FGetIdentity i) B Logic.I V) as (s' & r & E & B' & A & Q & L). exists s'. split; [exact B'|]. split; [exact Q|]. cbn [FrontSpec.answers] in A. destruct (ident (Hist s) i); [|congruence].
  destruct A as (hd & -> & N). exists hd. split; [exact E|]. split; [exact N|]. rewrite L. apply live_id_answer. exact Logic.I.
Qed.
Lemma r_default_identity : forall s, base s -> exists s', base s' /\ quiet s s' /\
  match def_id (Hist s) with Some i => exists hd, pcall FDefaultIdentity s = (s', Ok (AId hd)) /\ h_name hd = i /\ live_id (k_log s') hd | None => pcall FDefaultIdentity s = (s', Err OtherError) end.
Proof.
  intros s B. destruct (pcall_read s FDefaultIdentity B Logic.I Logic.I) as (s' & r & E & B' & A & Q & L). exists s'. split; [exact B'|]. split; [exact Q|]. cbn [FrontSpec.answers] in A. destruct (def_id (Hist s)); [|congruence].
  destruct A as (hd & -> & N). exists hd. split; [exact E|]. split; [exact N|]. rewrite L. apply live_id_answer. exact Logic.I.
Qed.
Lemma r_default_key : forall s hd, base s -> live_id (k_log s) hd -> exists s', base s' /\ quiet s s' /\
  match dkey s (h_name hd) with Some k => exists x, pcall (FDefaultKey hd) s = (s', Ok (AKey x)) /\ h_name x = k /\ live_key (k_log s') x | None => pcall (FDefaultKey hd) s = (s', Err OtherError) end.
Proof.
  intros s hd B Lv. destruct (pcall_read s (FDefaultKey hd) B Logic.I Lv) as (s' & r & E & B' & A & Q & L). exists s'. split; [exact B'|]. split; [exact Q|]. cbn [FrontSpec.answers] in A. unfold default_key.
  destruct (chosen (k_log s) (h_name hd)) as [k|].
  - destruct A as (x & -> & N). exists x. split; [exact E|]. split; [exact N|]. rewrite L. apply live_key_answer. exact Logic.I.
  - destruct (def_key (Hist s) (h_name hd)) as [k|]; [|unfold pib_error in A; congruence]. destruct A as (x & -> & N). exists x. split; [exact E|]. split; [exact N|]. rewrite L. apply live_key_answer. exact Logic.I.
Qed.
Lemma r_key : forall s hd k, base s -> live_id (k_log s) hd -> Forall c_valid k -> key_of (h_name hd) k -> exists s', base s' /\ quiet s s' /\
  match key_bits (Hist s) k with Some _ => exists x, pcall (FGetKey hd k) s = (s', Ok (AKey x)) /\ h_name x = k /\ live_key (k_log s') x | None => pcall (FGetKey hd k) s = (s', Err OtherError) end.
Proof.
  intros s hd k B Lv V K. destruct (pcall_read s (FGetKey hd k) B Logic.I (conj Lv V)) as (s' & r & E & B' & A & Q & L). exists s'. split; [exact B'|]. split; [exact Q|]. destruct A as [A _]. specialize (A K).
  destruct (key_bits (Hist s) k) as [b|]; [|unfold pib_error in A; congruence]. destruct A as (x & -> & N). exists x. split; [exact E|]. split; [exact N|]. rewrite L. apply live_key_answer. exact Logic.I.
Qed.
Lemma r_public : forall s hk, base s -> live_key (k_log s) hk -> exists s' b, base s' /\ quiet s s' /\ pcall (FPublicKey hk) s = (s', Ok (ABits b)) /\ key_bits (Hist s) (h_name hk) = Some b.
Proof. intros s hk B Lv. destruct (pcall_read s (FPublicKey hk) B Logic.I Lv) as (s' & r & E & B' & (b & Eb & ->) & Q & L). exists s', b. auto. Qed.
Lemma r_default_cert : forall s hk, base s -> live_key (k_log s) hk -> exists s', base s' /\ quiet s s' /\
  match def_cert (Hist s) (h_name hk) with Some n => exists c, cert (Hist s) n = Some c /\ pcall (FDefaultCert hk) s = (s', Ok (ACert c)) | None => pcall (FDefaultCert hk) s = (s', Err OtherError) end.
Proof.
  intros s hk B Lv. destruct (pcall_read s (FDefaultCert hk) B Logic.I Lv) as (s' & r & E & B' & A & Q & L). exists s'. split; [exact B'|]. split; [exact Q|]. cbn [FrontSpec.answers] in A. destruct (def_cert (Hist s) (h_name hk)); [|unfold pib_error in A; congruence]. destruct A as (c & Ec & ->). eauto.
Qed.

(** ** The TPM *)
Notation tpm_find := (tpm_find P).
Lemma find_ok : forall s k, base s -> nval k -> exists s', tpm_find k s = (s', Ok (private P s k)) /\ base s' /\ quiet s s' /\ k_log s' = k_log s /\ k_pib s' = k_pib s.
Proof.
  intros s k B V. unfold ChainModel.tpm_find, bind, get, private. destruct (nget (t_handles (k_tpm s)) k) as [p|] eqn:E.
  - rewrite (b_cache s B k p V E). exists s. split; [reflexivity|]. split; [exact B|]. split; [apply quiet_refl|auto].
  - destruct (nget (t_keys (k_tpm s)) k) as [p|] eqn:E2; [|exists s; split; [reflexivity|]; split; [exact B|]; split; [apply quiet_refl|auto]].
    unfold w_tpm, put. eexists. split; [reflexivity|]. destruct B as [B1 B2 B3 B4 B5 B6 B7]. split; [|split; [repeat split; auto|auto]].
    constructor; cbn [k_log k_pib k_tpm t_keys t_handles]; auto; [apply gd_set; assumption|]. intros k' p' V'. rewrite set_n by assumption. destruct (name_dec k k') as [<-|]; [congruence|auto].
Qed.
Lemma quiet_private : forall s s' k, quiet s s' -> private P s' k = private P s k.
Proof. intros s s' k (_ & _ & T & _). unfold private. rewrite T. reflexivity. Qed.
Lemma quiet_hist : forall s s', quiet s s' -> Hist s' = Hist s. Proof. intros s s' Q. apply Q. Qed.
Lemma quiet_dkey : forall s s' i, quiet s s' -> dkey s' i = dkey s i. Proof. intros s s' i Q. apply Q. Qed.

(** ** The key to sign with *)
Notation signing_key := (signing_key P ktype ord).
Notation signer := (signer).
Lemma catch_ok : forall (S A : Type) cl (m h : sm S A) s s' a, m s = (s', Ok a) -> catch cl m h s = (s', Ok a).
Proof. intros. unfold catch. rewrite H. reflexivity. Qed.
Lemma catch_err : forall (S A : Type) cl (m h : sm S A) s s' e, m s = (s', Err e) -> catch cl m h s = if cl e then h s' else (s', Err e).
Proof. intros. unfold catch. rewrite H. reflexivity. Qed.
Lemma an_key_ok : forall (m : km (answer data)) s s' x, m s = (s', Ok (AKey x)) -> an_key P m s = (s', Ok x).
Proof. intros. unfold an_key. rewrite (bind_ok _ _ _ _ _ _ _ _ H). reflexivity. Qed.
Lemma an_id_ok : forall (m : km (answer data)) s s' x, m s = (s', Ok (AId x)) -> an_id P m s = (s', Ok x).
Proof. intros. unfold an_id. rewrite (bind_ok _ _ _ _ _ _ _ _ H). reflexivity. Qed.
Lemma an_cert_ok : forall (m : km (answer data)) s s' x, m s = (s', Ok (ACert x)) -> an_cert P m s = (s', Ok x).
Proof. intros. unfold an_cert. rewrite (bind_ok _ _ _ _ _ _ _ _ H). reflexivity. Qed.
Lemma an_bits_ok : forall (m : km (answer data)) s s' x, m s = (s', Ok (ABits x)) -> an_bits P m s = (s', Ok x).
Proof. intros. unfold an_bits. rewrite (bind_ok _ _ _ _ _ _ _ _ H). reflexivity. Qed.
Lemma an_none_ok : forall (m : km (answer data)) s s', m s = (s', Ok ANone) -> an_none P m s = (s', Ok tt).
Proof. intros. unfold an_none. rewrite (bind_ok _ _ _ _ _ _ _ _ H). reflexivity. Qed.
Lemma an_key_err : forall (m : km (answer data)) s s' e, m s = (s', Err e) -> an_key P m s = (s', Err e). Proof. intros. apply bind_err, H. Qed.
Lemma an_id_err : forall (m : km (answer data)) s s' e, m s = (s', Err e) -> an_id P m s = (s', Err e). Proof. intros. apply bind_err, H. Qed.
Lemma an_cert_err : forall (m : km (answer data)) s s' e, m s = (s', Err e) -> an_cert P m s = (s', Err e). Proof. intros. apply bind_err, H. Qed.
Lemma an_none_err : forall (m : km (answer data)) s s' e, m s = (s', Err e) -> an_none P m s = (s', Err e). Proof. intros. apply bind_err, H. Qed.

Definition picks (s : kstate) (m : km (option handle)) (w : who) : Prop := exists s', base s' /\ quiet s s' /\
  match w with
  | Digest => m s = (s', Ok None)
  | WithKey k => exists x, m s = (s', Ok (Some x)) /\ h_name x = k /\ live_key (k_log s') x
  | NoKey => m s = (s', Err RuntimeError)
  | BadName => m s = (s', Err ValueError)
  end.
Lemma of_identity_ok : forall s hd, base s -> live_id (k_log s) hd ->
  picks s (bind (catch is_pib_error (an_key P (pcall (FDefaultKey hd))) (raise RuntimeError)) (fun k => ret (Some k))) (by_default h0 (k_log s) (h_name hd)).
Proof.
  intros s hd B L. destruct (r_default_key s hd B L) as (s' & B' & Q & A). exists s'. split; [exact B'|]. split; [exact Q|]. unfold by_default. destruct (dkey s (h_name hd)) as [k|].
  - destruct A as (x & E & N & Lx). exists x. split; [|auto]. rewrite (bind_ok _ _ _ _ _ _ _ _ (catch_ok _ _ _ _ _ _ _ _ (an_key_ok _ _ _ _ E))). reflexivity.
  - unfold bind. rewrite (catch_err _ _ _ _ _ _ _ _ (an_key_err _ _ _ _ A)). reflexivity.
Qed.
Lemma picks_step : forall s s' (m m' : km (option handle)) w, base s -> quiet s s' -> m s = m' s' -> picks s' m' w -> picks s m w.
Proof.
  intros s s' m m' w B Q E (s2 & B2 & Q2 & A). exists s2. split; [exact B2|]. split; [eapply quiet_trans; eassumption|]. destruct w; rewrite E; exact A.
Qed.
Lemma by_default_quiet : forall s s' i, quiet s s' -> by_default h0 (k_log s') i = by_default h0 (k_log s) i.
Proof. intros s s' i Q. unfold by_default. rewrite (quiet_dkey _ _ i Q). reflexivity. Qed.
(** identity, then key *)
Lemma of_key_ok : forall s k, base s -> Forall c_valid k -> a_key k -> exists s', base s' /\ quiet s s' /\
  match key_bits (Hist s) k with
  | Some _ => exists hd x s1, pcall (FGetIdentity (owner k)) s = (s1, Ok (AId hd)) /\ pcall (FGetKey hd k) s1 = (s', Ok (AKey x)) /\ h_name x = k /\ live_key (k_log s') x
  | None => pcall (FGetIdentity (owner k)) s = (s', Err OtherError) \/ exists hd s1, pcall (FGetIdentity (owner k)) s = (s1, Ok (AId hd)) /\ pcall (FGetKey hd k) s1 = (s', Err OtherError)
  end.
Proof.
  intros s k B V A. destruct (r_identity s (owner k) B (owner_val k V)) as (s1 & B1 & Q1 & A1). destruct (ident (Hist s) (owner k)) eqn:Ei.
  - destruct A1 as (hd & E1 & N1 & L1). assert (K : key_of (h_name hd) k). { destruct A as (i & kid & Ni & ->). rewrite N1, owner_key. split; [exact Ni|eauto]. }
    destruct (r_key s1 hd k B1 L1 V K) as (s2 & B2 & Q2 & A2). exists s2. split; [exact B2|]. split; [eapply quiet_trans; eassumption|]. rewrite (quiet_hist _ _ Q1) in A2. destruct (key_bits (Hist s) k) as [b|].
    + destruct A2 as (x & E2 & N2 & L2). exists hd, x, s1. auto.
    + right. exists hd, s1. auto.
  - exists s1. split; [exact B1|]. split; [exact Q1|]. destruct (key_bits (Hist s) k) as [b|] eqn:Eb; [|left; exact A1]. destruct (key_there s k b B Eb) as (_ & _ & X). congruence.
Qed.
Theorem signing_key_ok : forall s si w, base s -> si_proper (k_log s) si -> signer h0 (k_log s) si w -> picks s (signing_key si) w.
Proof.
  intros s si w B (T & Vn & _ & Hi & Hk & Hc) (W0 & W1 & W2 & W3 & W4). unfold ChainModel.signing_key. cbv zeta. assert (C : si_type si = 0 \/ si_type si = 1 \/ si_type si = 2 \/ si_type si = 3 \/ si_type si = 4) by lia.
  destruct C as [C|[C|[C|[C|C]]]]; rewrite C in *; [specialize (W0 eq_refl)|specialize (W1 eq_refl)|specialize (W2 eq_refl)|specialize (W3 eq_refl)|specialize (W4 eq_refl)].
  - change (0 =? SI_NULL) with true. cbv iota. destruct (r_default_identity s B) as (s1 & B1 & Q1 & A1). destruct (def_id (Hist s)) as [i|].
    + destruct A1 as (hd & E1 & N1 & L1). subst w. rewrite <- N1, <- (by_default_quiet _ _ _ Q1). eapply picks_step; [exact B|exact Q1| |apply of_identity_ok; eassumption].
      rewrite (bind_ok _ _ _ _ _ s s1 (Some hd)); [reflexivity|]. apply catch_ok. rewrite (bind_ok _ _ _ _ _ _ _ _ (an_id_ok _ _ _ _ E1)). reflexivity.
    + subst w. exists s1. split; [exact B1|]. split; [exact Q1|]. rewrite (bind_ok _ _ _ _ _ s s1 None); [reflexivity|]. erewrite catch_err; cycle 1; [apply bind_err, an_id_err, A1|reflexivity].
  - change (1 =? SI_NULL) with false. change (1 =? SI_ID) with true. cbv iota. destruct (si_identity si) as [hd|].
    + subst w. eapply picks_step; [exact B|apply quiet_refl| |apply of_identity_ok; [exact B|apply Hi; reflexivity]]. reflexivity.
    + destruct (r_identity s (si_name si) B Vn) as (s1 & B1 & Q1 & A1). destruct (ident (Hist s) (si_name si)).
      * destruct A1 as (hd & E1 & N1 & L1). subst w. rewrite <- N1, <- (by_default_quiet _ _ _ Q1). eapply picks_step; [exact B|exact Q1| |apply of_identity_ok; eassumption].
        rewrite N1. erewrite bind_ok; cycle 1; [apply catch_ok; apply an_id_ok; exact E1|reflexivity].
      * subst w. exists s1. split; [exact B1|]. split; [exact Q1|]. apply bind_err. erewrite catch_err; cycle 1; [apply an_id_err, A1|reflexivity].
  - change (2 =? SI_NULL) with false. change (2 =? SI_ID) with false. change (2 =? SI_KEY) with true. cbv iota. destruct (si_key si) as [hk|].
    + subst w. exists s. split; [exact B|]. split; [apply quiet_refl|]. exists hk. auto.
    + destruct W2 as [Wg Wb]. destruct (C53_key_name _ Vn) as (b & Eb & Hb). destruct b.
      * assert (A : a_key (si_name si)). { destruct (proj1 Hb eq_refl) as (i & kid & Ni & E). exists i, kid. auto. } specialize (Wg A). subst w. destruct (a_key_owner _ A) as [No Ex]. rewrite Ex. unfold by_key.
        destruct (of_key_ok s _ B Vn A) as (s2 & B2 & Q2 & Y). exists s2. split; [exact B2|]. split; [exact Q2|]. destruct (key_bits (Hist s) (si_name si)) as [bits|].
        -- destruct Y as (hd & x & s1 & E1 & E2 & N2 & L2). exists x. split; [|auto]. rewrite (bind_ok _ _ _ (lift (Ok (owner (si_name si)))) _ s s (owner (si_name si)) eq_refl). erewrite bind_ok; cycle 1; [apply catch_ok; rewrite (bind_ok _ _ _ _ _ _ _ _ (an_id_ok _ _ _ _ E1)); apply an_key_ok; exact E2|reflexivity].
        -- rewrite (bind_ok _ _ _ (lift (Ok (owner (si_name si)))) _ s s (owner (si_name si)) eq_refl). apply bind_err. destruct Y as [E1|(hd & s1 & E1 & E2)].
           ++ erewrite catch_err; cycle 1; [apply bind_err, an_id_err, E1|reflexivity].
           ++ erewrite catch_err; cycle 1; [rewrite (bind_ok _ _ _ _ _ _ _ _ (an_id_ok _ _ _ _ E1)); apply an_key_err, E2|reflexivity].
      * assert (N : ~ a_key (si_name si)). { intros (i & kid & Ni & E). assert (X : false = true) by (apply Hb; exists i, kid; auto). discriminate X. } rewrite (Wb N). exists s. split; [exact B|]. split; [apply quiet_refl|]. apply bind_err. unfold lift. rewrite (C53_key_refused _ Vn); [reflexivity|]. intros i kid Ni E. apply N. exists i, kid. auto.
  - change (3 =? SI_NULL) with false. change (3 =? SI_ID) with false. change (3 =? SI_KEY) with false. change (3 =? SI_CERT) with true. cbv iota. destruct W3 as [Wg Wb]. destruct (C53_certificate_name _ Vn) as (b & Eb & Hb). rewrite Eb. eapply picks_step; [exact B|apply quiet_refl|exact (bind_ok _ _ _ (lift (Ok b)) _ s s b eq_refl)|]. cbv beta. destruct b; cbn [negb].
    + destruct (proj1 Hb eq_refl) as (i & kid & iss & v & E). assert (A : a_cert (si_name si)). { exists i, kid, iss, v. split; [|exact E]. intros ->. apply (Hc eq_refl kid iss v). exact E. } specialize (Wg A). subst w. destruct (a_cert_owner _ A) as (Ak & Ex & _ & Eg). unfold cert_getIdentity in Eg. rewrite Eg, Ex. unfold by_key.
      destruct (of_key_ok s _ B (owner_val _ Vn) Ak) as (s2 & B2 & Q2 & Y). exists s2. split; [exact B2|]. split; [exact Q2|]. rewrite (bind_ok _ _ _ (lift (Ok (owner (owner (si_name si))))) _ s s _ eq_refl). destruct (key_bits (Hist s) (owner (si_name si))) as [bits|].
      * destruct Y as (hd & x & s1 & E1 & E2 & N2 & L2). exists x. split; [|auto]. erewrite bind_ok; cycle 1; [apply catch_ok; rewrite (bind_ok _ _ _ _ _ _ _ _ (an_id_ok _ _ _ _ E1)); rewrite (bind_ok _ _ _ (lift (Ok (owner (si_name si)))) _ s1 s1 _ eq_refl); apply an_key_ok; exact E2|reflexivity].
      * apply bind_err. destruct Y as [E1|(hd & s1 & E1 & E2)].
        -- erewrite catch_err; cycle 1; [apply bind_err, an_id_err, E1|reflexivity].
        -- erewrite catch_err; cycle 1; [rewrite (bind_ok _ _ _ _ _ _ _ _ (an_id_ok _ _ _ _ E1)); rewrite (bind_ok _ _ _ (lift (Ok (owner (si_name si)))) _ s1 s1 _ eq_refl); apply an_key_err, E2|reflexivity].
    + rewrite (Wb); [exists s; split; [exact B|]; split; [apply quiet_refl|reflexivity]|]. intros i kid iss v E. assert (X : false = true) by (apply Hb; do 4 eexists; exact E). discriminate X.
  - change (4 =? SI_NULL) with false. change (4 =? SI_ID) with false. change (4 =? SI_KEY) with false. change (4 =? SI_CERT) with false. change (4 =? SI_SHA256) with true. cbv iota. subst w. exists s. split; [exact B|]. split; [apply quiet_refl|reflexivity].
Qed.
End K.
