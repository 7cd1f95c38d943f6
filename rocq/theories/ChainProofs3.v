(** * KeyChain: signing *)
From Verif Require Import Base BaseLemmas TlvSpec TlvProofs TlvDecProofs NameModel NameSpec NameProofs DictModel DictProofs CalProofs WireModel WireSpec WireProofs WireProofs2 WireProofs3 WireProofs4 WireProofs5 WireProps CtlModel CertProofs HierModel HierSpec HierProps PibModel PibSpec PibProps FrontModel FrontSpec FrontProofs FrontProofs5 FrontProps ChainModel ChainSpec ChainProofs ChainProofs2.
From Coq Require Import Permutation.

(** ** Bytes *)
Lemma tlv_bytes : forall t v, 0 <= t -> bytes_ok v -> bytes_ok (tlv t v).
Proof. intros t v Ht Hv. unfold tlv. apply Forall_app. split; [apply varnum_ok; exact Ht|]. apply Forall_app. split; [apply varnum_ok, zlen_nonneg|exact Hv]. Qed.
Lemma elems_bytes : forall es, Forall (fun e => 0 <= fst e /\ bytes_ok (snd e)) es -> bytes_ok (elems es).
Proof. induction es as [|e es IH]; intros H; [constructor|]. inversion H as [|? ? [H1 H2] H3]; subst. unfold elems. cbn. apply Forall_app. split; [apply tlv_bytes; assumption|apply IH, H3]. Qed.
Lemma name_bytes : forall n, name_ok n -> bytes_ok (elems (map comp_el n)).
Proof.
  intros n H. apply elems_bytes. apply Forall_map. eapply Forall_impl; [|exact H]. intros c ([B V] & _). cbn. split; [|exact B]. unfold c_code. destruct V as [(E & E2 & _)|[[E|[E|E]] E2]]; rewrite E; cbn; unfold CT_IMPLICIT, CT_PARAMS, CT_GENERIC in *; lia.
Qed.
Lemma iso_bytes : forall ms, iso_time ms -> bytes_ok (iso_str ms).
Proof. intros ms (x & -> & R). destruct (iso_round_trip x R) as (str & E & _ & _ & B & _). unfold iso_str. rewrite E. exact B. Qed.
Lemma siginfo_bytes : forall ty k v b, name_ok k -> vp_ok v -> bytes_ok (siginfo (sig_of ty k v b)).
Proof.
  intros ty k v b Hk Hv. assert (X : forall t, 0 <= t -> bytes_ok (tlv 22 (elems ((27, nonneg t) :: kl_el 28 (KL (Some 1) k None) :: vp_els v)))).
  { intros t Ht. apply tlv_bytes; [lia|]. apply elems_bytes. constructor; [cbn; split; [lia|apply nonneg_ok; exact Ht]|]. constructor.
    - unfold kl_el. cbn [fst snd]. split; [lia|]. unfold kl_body. cbn [kl_type kl_name]. cbn [Z.eqb Pos.eqb]. apply elems_bytes. constructor; [|constructor]. split; [cbn; lia|]. apply name_bytes, Hk.
    - unfold vp_els. destruct (vp_hasPeriod v) eqn:E; [|constructor]. destruct Hv as [->|[Hb Ha]]; [vm_compute in E; discriminate E|]. constructor; [|constructor]. cbn [fst snd]. split; [lia|]. apply elems_bytes. constructor; [cbn; split; [lia|apply iso_bytes, Hb]|]. constructor; [cbn; split; [lia|apply iso_bytes, Ha]|constructor]. }
  unfold sig_of. destruct (ty =? KT_RSA); apply X; lia.
Qed.
Lemma generic_ok : forall b, bytes_ok b -> comp_ok (c_generic b).
Proof. intros b H. split; [|split]; [split; [exact H|right; split; [right; right; reflexivity|reflexivity]]|vm_compute; reflexivity|intros [E|E]; discriminate E]. Qed.
Lemma generic_valid : forall b, bytes_ok b -> c_valid (c_generic b). Proof. intros b H. apply (generic_ok b H). Qed.

(** ** The signed portion *)
Lemma data_slice : forall d, data_ok d -> exists w b e, encodeData d = Ok (w, (b, e)) /\ zslice w b e = data_signed d.
Proof.
  intros d H. eexists. eexists. eexists. split; [exact (encodeData_ok d H)|]. unfold data_bytes. set (body := data_signed d ++ elems [(23, blob_bytes (sig_bits (d_sig d)))]).
  assert (Hh : hdr 6 body = zlen (varnum 6 ++ varnum (zlen body))) by (unfold hdr; zlia).
  assert (T : tlv 6 body = (varnum 6 ++ varnum (zlen body)) ++ data_signed d ++ tlv 23 (blob_bytes (sig_bits (d_sig d)))).
  { unfold tlv at 1. unfold body at 2. rewrite elems_one, <- app_assoc. reflexivity. }
  rewrite T. apply zslice_app'; lia.
Qed.
Lemma interest_slice_ok : forall rn i, interest_ok i -> exists w b e, encodeInterest rn i = Ok (w, (b, e)) /\ zslice w b e = elems (map comp_el (removelast (i_name i))).
Proof.
  intros rn i H. unfold encodeInterest. destruct (0 <? blob_size (i_params i)) eqn:E.
  - pose proof (encodeV03_ok rn i H ltac:(lia)) as X. cbn zeta in X. rewrite X. do 3 eexists. split; [reflexivity|]. apply interest_slice.
  - destruct (link_el i H) as [lv L]. pose proof (encodeV02_ok rn i lv H L) as X. cbn zeta in X. rewrite X. do 3 eexists. split; [reflexivity|]. apply interest_slice.
Qed.

Section K.
Variable P : Type.
Variable derive : P -> bytes.
Variable psign : Z -> P -> bytes -> bytes.
Variable pverify : bytes -> bytes -> bytes -> res bool.
Variable ktype : bytes -> res Z.
Variable sha : bytes -> bytes.
Variable ord : list name -> list name.
Hypothesis Ho : forall l, Permutation l (ord l).
Hypothesis Hkt : forall b t, ktype b = Ok t -> t = KT_RSA \/ t = KT_EC.
Variable h0 : list (call data).
Notation call := (call data).
Notation trace := (trace data).
Notation kstate := (kstate P).
Notation km := (sm kstate).
Notation hist := (hist x_name).
Notation ident := (ident x_name).
Notation def_id := (def_id x_name).
Notation key_bits := (key_bits x_name x_content).
Notation pcall := (pcall P ktype ord).
Notation nget := (dget n_equals).
Notation Hist s := (hist h0 (k_log s)).
Notation base := (base P ktype h0).
Notation quiet := (quiet P h0).
Notation coherent := (coherent P psign pverify h0).
Notation private := (private P).
Notation public := (public P h0).
Notation prepare := (prepare P ktype ord).
Notation signBuffer := (signBuffer P psign sha).
Notation sign_data := (sign_data P psign ktype sha ord).
Notation sign_interest := (sign_interest P psign ktype sha ord).
Notation sign_buffer := (sign_buffer P psign ktype sha ord).
Notation signature_by := (signature_by P psign pverify ktype sha h0).
Notation signed_data := (signed_data P psign pverify ktype sha h0).
Notation signed_buffer := (signed_buffer P psign pverify ktype sha h0).
Notation signed_interest := (signed_interest P psign pverify ktype sha h0).

Definition prepared (s : kstate) (si : signinginfo) (w : who) (r : res (signature * name)) : Prop :=
  match w with
  | Digest => r = Ok (SigDigest None, digest_identity)
  | WithKey k => exists b ty, key_bits (Hist s) k = Some b /\ ktype b = Ok ty /\ r = Ok (sig_of ty k (period_of si) None, k)
  | NoKey => r = Err RuntimeError
  | BadName => r = Err ValueError
  end.
Lemma prepare_ok : forall s si w, base s -> si_proper (k_log s) si -> signer h0 (k_log s) si w -> exists s' r, prepare si s = (s', r) /\ base s' /\ quiet s s' /\ prepared s si w r.
Proof.
  intros s si w B Ps W. destruct (signing_key_ok P ktype ord Ho h0 s si w B Ps W) as (s1 & B1 & Q1 & A). unfold ChainModel.prepare. destruct w as [|k| |].
  - rewrite (bind_ok _ _ _ _ _ _ _ _ A). do 2 eexists. split; [reflexivity|]. split; [exact B1|]. split; [exact Q1|reflexivity].
  - destruct A as (x & E & N & L). rewrite (bind_ok _ _ _ _ _ _ _ _ E). destruct (live_key_val P ktype h0 s1 x B1 L) as (ko & V & Ak & Hn & Hnm & Hb & Hi & Ht).
    unfold bind at 1, pview at 1. unfold bind at 1, the_key at 1. rewrite Hn. cbn [snd ret]. destruct Ps as (_ & _ & Dg & _). rewrite Dg. rewrite N in *. rewrite (quiet_hist P h0 _ _ Q1) in Hb.
    destruct (Hkt _ _ Ht) as [T|T]; rewrite T in *; cbv beta; cbn [Z.eqb KT_RSA KT_EC DA_SHA256 Pos.eqb andb]; (do 2 eexists; split; [reflexivity|]; split; [exact B1|]; split; [exact Q1|]; do 2 eexists; split; [exact Hb|]; split; [exact Ht|reflexivity]).
  - unfold bind. rewrite A. do 2 eexists. split; [reflexivity|]. split; [exact B1|]. split; [exact Q1|reflexivity].
  - unfold bind. rewrite A. do 2 eexists. split; [reflexivity|]. split; [exact B1|]. split; [exact Q1|reflexivity].
Qed.
Lemma digest_not_key : forall k, nval k -> a_key k -> n_equals k digest_identity = false.
Proof.
  intros k V (i & kid & Ni & ->). rewrite equals_dec; [|exact V|unfold nval; apply validb_ok; reflexivity]. destruct (name_dec _ _) as [E|]; [exfalso|reflexivity]. unfold key_name, digest_identity in E. destruct i as [|a [|b [|c i]]]; [congruence| |cbn in E; discriminate E|cbn in E; destruct i; discriminate E]. cbn [app] in E. injection E as _ E _. vm_compute in E. discriminate E.
Qed.
Lemma signBuffer_key : forall s rnd m k, base s -> nval k -> a_key k -> exists s', signBuffer rnd m k DA_SHA256 s = (s', Ok (match private s k with Some p => Some (psign rnd p m) | None => None end)) /\ base s' /\ quiet s s'.
Proof.
  intros s rnd m k B V A. unfold ChainModel.signBuffer, tpm_sign. rewrite (digest_not_key k V A). destruct (find_ok P ktype h0 s k B V) as (s' & E & B' & Q & _). exists s'. rewrite (bind_ok _ _ _ _ _ _ _ _ E). auto.
Qed.
Lemma signBuffer_digest : forall s rnd m d, signBuffer rnd m digest_identity d s = (s, Ok (Some (sha m))).
Proof. intros. unfold ChainModel.signBuffer. replace (n_equals digest_identity digest_identity) with true by reflexivity. reflexivity. Qed.

(** The signature of a message by the signer *)
Lemma sign_core : forall s si w rnd, base s -> coherent s -> si_proper (k_log s) si -> signer h0 (k_log s) si w ->
  match w with
  | NoKey => exists s', base s' /\ quiet s s' /\ prepare si s = (s', Err RuntimeError)
  | BadName => exists s', base s' /\ quiet s s' /\ prepare si s = (s', Err ValueError)
  | _ => exists s1 sg k, base s1 /\ quiet s s1 /\ prepare si s = (s1, Ok (sg, k)) /\
           forall m, exists s2 bits, base s2 /\ quiet s s2 /\ signBuffer rnd m k DA_SHA256 s1 = (s2, Ok (Some bits)) /\ signature_by s si w rnd m (fun b => sig_setBits sg b) bits
  end.
Proof.
  intros s si w rnd B Co Ps W. destruct (prepare_ok s si w B Ps W) as (s1 & r & E & B1 & Q1 & R). destruct w as [|k| |]; cbn [prepared] in R; subst; eauto.
  - do 3 eexists. split; [exact B1|]. split; [exact Q1|]. split; [exact E|]. intros m. exists s1, (sha m). split; [exact B1|]. split; [exact Q1|]. split; [apply signBuffer_digest|]. split; reflexivity.
  - destruct R as (b & ty & Eb & Et & ->). do 3 eexists. split; [exact B1|]. split; [exact Q1|]. split; [exact E|]. intros m. destruct (key_there P ktype h0 s k b B Eb) as (Ak & V & _).
    destruct (signBuffer_key s1 rnd m k B1 V Ak) as (s2 & E2 & B2 & Q2). destruct (Co k b Eb) as (p & Ep & Hv). rewrite (quiet_private P h0 _ _ k Q1), Ep in E2.
    exists s2, (psign rnd p m). split; [exact B2|]. split; [exact (quiet_trans P h0 _ _ _ Q1 Q2)|]. split; [exact E2|]. exists b, ty, p. split; [exact Eb|]. split; [exact Et|]. split; [exact Ep|]. split; [|split; [reflexivity|apply Hv]]. intros x. unfold sig_of. destruct (ty =? KT_RSA); reflexivity.
Qed.
Lemma sig_of_ok : forall ty k v b, name_ok k -> vp_ok v -> sig_ok (sig_of ty k v b).
Proof. intros. unfold sig_of. destruct (ty =? KT_RSA); split; auto; left; auto. Qed.
Lemma by_sig_ok : forall s si w rnd m sg bits, signature_by s si w rnd m sg bits -> signable si w -> forall b, sig_ok (sg b).
Proof. intros s si w rnd m sg bits X [V N] b. destruct w as [|k| |]; cbn [ChainSpec.signature_by] in X; try contradiction; [destruct X as [X _]; rewrite X; exact Logic.I|]. destruct X as (b0 & ty & p & _ & _ & _ & X & _). rewrite X. apply sig_of_ok; auto. Qed.
Lemma sig_reset : forall sg, sig_setBits (sig_setBits sg None) None = sig_setBits sg None. Proof. intros []; reflexivity. Qed.
Lemma prepared_null : forall s si w sg k, prepared s si w (Ok (sg, k)) -> sig_setBits sg None = sg.
Proof. intros s si w sg k H. destruct w; cbn in H; try discriminate H; [injection H as -> _; reflexivity|]. destruct H as (b & ty & _ & _ & [= -> _]). unfold sig_of. destruct (ty =? KT_RSA); reflexivity. Qed.

Lemma signed_same : forall d sg b, data_signed (with_sig d (sig_setBits sg b)) = data_signed (with_sig d sg).
Proof. intros d sg b. unfold data_signed, with_sig. cbn. destruct sg; reflexivity. Qed.

Theorem sign_data_ok : forall s si w rnd d, base s -> coherent s -> si_proper (k_log s) si -> signer h0 (k_log s) si w -> signable si w -> name_ok (d_name d) -> mi_ok (d_meta d) ->
  exists s' r, sign_data si rnd d s = (s', r) /\ base s' /\ quiet s s' /\ signed_data s si w rnd d r.
Proof.
  intros s si w rnd d B Co Ps W Sa Hn Hm. pose proof (sign_core s si w rnd B Co Ps W) as X. destruct (prepare_ok s si w B Ps W) as (s1' & r' & E' & _ & _ & R'). unfold ChainModel.sign_data. destruct Ps as (_ & _ & Dg & _). rewrite Dg.
  assert (Y : (exists s1 sg k, base s1 /\ quiet s s1 /\ prepare si s = (s1, Ok (sg, k)) /\
           forall m, exists s2 bits, base s2 /\ quiet s s2 /\ signBuffer rnd m k DA_SHA256 s1 = (s2, Ok (Some bits)) /\ signature_by s si w rnd m (fun b => sig_setBits sg b) bits) ->
    exists s' r, bind (prepare si) (fun sk : signature * name =>
      let d1 := Data (d_name d) (d_meta d) (d_content d) (fst sk) in
      bind (lift (encodeData d1)) (fun e => bind (signBuffer rnd (signed_bytes e) (snd sk) DA_SHA256) (fun bits => let d2 := Data (d_name d) (d_meta d) (d_content d) (sig_setBits (fst sk) bits) in bind (lift (encodeData d2)) (fun _ => ret d2)))) s = (s', r) /\ base s' /\ quiet s s' /\
      exists sg bits, r = Ok (with_sig d (sg (Some bits))) /\ signature_by s si w rnd (data_signed (with_sig d (sg (Some bits)))) sg bits).
  { intros (s1 & sg & k & B1 & Q1 & E1 & F). rewrite (bind_ok _ _ _ _ _ _ _ _ E1). cbn [fst snd]. cbv zeta. rewrite E1 in E'. injection E' as <- <-. pose proof (prepared_null _ _ _ _ _ R') as Nl. fold (with_sig d sg).
    destruct (F (data_signed (with_sig d sg))) as (s2 & bits & B2 & Q2 & E2 & G). pose proof (by_sig_ok _ _ _ _ _ _ _ G Sa) as So. cbv beta in So.
    assert (D1 : data_ok (with_sig d sg)). { split; [exact Hn|]. split; [exact Hm|]. specialize (So None). rewrite Nl in So. exact So. }
    assert (D2 : data_ok (with_sig d (sig_setBits sg (Some bits)))). { split; [exact Hn|]. split; [exact Hm|]. apply So. }
    destruct (data_slice _ D1) as (w1 & b1 & e1 & En1 & Sl1). rewrite En1. rewrite (bind_ok _ _ _ (lift (Ok (w1, (b1, e1)))) _ s1 s1 _ eq_refl). cbn [signed_bytes]. rewrite Sl1. rewrite (bind_ok _ _ _ _ _ _ _ _ E2). fold (with_sig d (sig_setBits sg (Some bits))).
    destruct (data_slice _ D2) as (w2 & b2 & e2 & En2 & Sl2). rewrite En2. rewrite (bind_ok _ _ _ (lift (Ok (w2, (b2, e2)))) _ s2 s2 _ eq_refl). do 2 eexists. split; [reflexivity|]. split; [exact B2|]. split; [exact Q2|]. exists (fun b => sig_setBits sg b), bits. split; [reflexivity|]. rewrite signed_same. exact G. }
  destruct w as [|k| |]; cbn [ChainSpec.signed_data]; auto.
  - destruct X as (s' & B' & Q' & E). unfold bind. rewrite E. eauto 10.
  - destruct X as (s' & B' & Q' & E). unfold bind. rewrite E. eauto 10.
Qed.
(** Whatever the packet is, signing changes nothing but the signature. *)
Lemma sign_data_frame : forall s si w rnd d, base s -> si_proper (k_log s) si -> signer h0 (k_log s) si w ->
  exists s' r, sign_data si rnd d s = (s', r) /\ base s' /\ quiet s s' /\ forall d', r = Ok d' -> exists sg, d' = with_sig d sg.
Proof.
  intros s si w rnd d B Ps W. destruct (prepare_ok s si w B Ps W) as (s1 & r1 & E1 & B1 & Q1 & R1). unfold ChainModel.sign_data. destruct Ps as (_ & _ & Dg & _). rewrite Dg. destruct r1 as [[sg k]|e]; [|unfold bind; rewrite E1; do 2 eexists; split; [reflexivity|]; split; [exact B1|]; split; [exact Q1|discriminate]].
  rewrite (bind_ok _ _ _ _ _ _ _ _ E1). cbn [fst snd]. cbv zeta. destruct (encodeData _) as [e|er]; [|unfold bind, lift; do 2 eexists; split; [reflexivity|]; split; [exact B1|]; split; [exact Q1|discriminate]].
  rewrite (bind_ok _ _ _ (lift (Ok e)) _ s1 s1 _ eq_refl).
  assert (X : exists s2 bits, signBuffer rnd (signed_bytes e) k DA_SHA256 s1 = (s2, Ok bits) /\ base s2 /\ quiet s s2).
  { destruct w as [|k'| |]; cbn [prepared] in R1; try discriminate R1.
    - injection R1 as -> ->. exists s1. eexists. split; [apply signBuffer_digest|]. auto.
    - destruct R1 as (b & ty & Eb & _ & [= -> ->]). destruct (key_there P ktype h0 s k' b B Eb) as (Ak & V & _). destruct (signBuffer_key s1 rnd (signed_bytes e) k' B1 V Ak) as (s2 & E2 & B2 & Q2). exists s2. eexists. split; [exact E2|]. split; [exact B2|exact (quiet_trans P h0 _ _ _ Q1 Q2)]. }
  destruct X as (s2 & bits & E2 & B2 & Q2). rewrite (bind_ok _ _ _ _ _ _ _ _ E2). destruct (encodeData _) as [e2|er]; [|unfold bind, lift; do 2 eexists; split; [reflexivity|]; split; [exact B2|]; split; [exact Q2|discriminate]].
  do 2 eexists. split; [reflexivity|]. split; [exact B2|]. split; [exact Q2|]. intros d' [= <-]. eexists. reflexivity.
Qed.

Theorem sign_buffer_ok : forall s si w rnd m, base s -> coherent s -> si_proper (k_log s) si -> signer h0 (k_log s) si w ->
  exists s' r, sign_buffer si rnd m s = (s', r) /\ base s' /\ quiet s s' /\ signed_buffer s si w rnd m r.
Proof.
  intros s si w rnd m B Co Ps W. pose proof (sign_core s si w rnd B Co Ps W) as X. unfold ChainModel.sign_buffer. destruct Ps as (_ & _ & Dg & _). rewrite Dg. destruct w as [|k| |].
  1,2: destruct X as (s1 & sg & k0 & B1 & Q1 & E1 & F); destruct (F m) as (s2 & bits & B2 & Q2 & E2 & G); rewrite (bind_ok _ _ _ _ _ _ _ _ E1); cbn [snd]; do 2 eexists; (split; [exact E2|]); (split; [exact B2|]); (split; [exact Q2|]); do 2 eexists; split; [reflexivity|exact G].
  1,2: destruct X as (s' & B' & Q' & E); unfold bind; rewrite E; do 2 eexists; (split; [reflexivity|]); (split; [exact B'|]); split; [exact Q'|reflexivity].
Qed.

Lemma by_sig_bytes : forall s si w rnd m sg bits, signature_by s si w rnd m sg bits -> signable si w -> forall b, bytes_ok (siginfo (sg b)).
Proof. intros s si w rnd m sg bits X [V N] b. destruct w as [|k| |]; cbn [ChainSpec.signature_by] in X; try contradiction; [destruct X as [X _]; rewrite X; cbn; repeat constructor; unfold is_byte; lia|]. destruct X as (b0 & ty & p & _ & _ & _ & X & _). rewrite X. apply siginfo_bytes; auto. Qed.
Lemma rename_ok : forall i n, interest_ok i -> name_ok n -> interest_ok (i_setName i n).
Proof. intros i n (_ & H) Hn. split; [exact Hn|exact H]. Qed.
Theorem sign_interest_ok : forall s si w rnd rn i, base s -> coherent s -> si_proper (k_log s) si -> signer h0 (k_log s) si w -> signable si w -> interest_ok i ->
  exists s' r, sign_interest si rnd rn i s = (s', r) /\ base s' /\ quiet s s' /\ signed_interest s si w rnd i r.
Proof.
  intros s si w rnd rn i B Co Ps W Sa Hi. pose proof (sign_core s si w rnd B Co Ps W) as X. destruct (prepare_ok s si w B Ps W) as (s1' & r' & E' & _ & _ & R'). unfold ChainModel.sign_interest. destruct Ps as (_ & _ & Dg & _). rewrite Dg.
  assert (Y : forall s1 sg k, base s1 -> quiet s s1 -> prepare si s = (s1, Ok (sg, k)) ->
     (forall m, exists s2 bits, base s2 /\ quiet s s2 /\ signBuffer rnd m k DA_SHA256 s1 = (s2, Ok (Some bits)) /\ signature_by s si w rnd m (fun b => sig_setBits sg b) bits) ->
     exists s' r, bind (lift (encodeSignatureInfo sg)) (fun info => bind (lift (encodeInterest rn (i_setName i (i_name i ++ [c_generic info; c_generic []])))) (fun e => bind (signBuffer rnd (signed_bytes e) k DA_SHA256) (fun bits => bind (lift (n_getPrefix (i_name i ++ [c_generic info; c_generic []]) (-1))) (fun p => ret (i_setName i (p ++ [c_generic (encodeSignatureValue (sig_setBits sg bits))])))))) s1 = (s', r) /\ base s' /\ quiet s s' /\
       exists sg bits, r = Ok (i_setName i (i_name i ++ [c_generic (siginfo (sg None)); c_generic (tlv 23 bits)])) /\ signature_by s si w rnd (elems (map comp_el (i_name i ++ [c_generic (siginfo (sg None))]))) sg bits).
  { intros s1 sg k B1 Q1 E1 F. rewrite E1 in E'. injection E' as <- <-. pose proof (prepared_null _ _ _ _ _ R') as Nl.
    set (m := elems (map comp_el (i_name i ++ [c_generic (siginfo sg)]))). destruct (F m) as (s2 & bits & B2 & Q2 & E2 & G). pose proof (by_sig_ok _ _ _ _ _ _ _ G Sa None) as So. pose proof (by_sig_bytes _ _ _ _ _ _ _ G Sa None) as Sb. cbv beta in So, Sb. rewrite Nl in So, Sb.
    destruct (sig_ok_el sg So) as (v & Ev & Es & _). unfold encodeSignatureInfo. rewrite Es, app_nil_r. rewrite elems_one. cbn [fst snd]. rewrite <- Ev. rewrite (bind_ok _ _ _ (lift (Ok (siginfo sg))) _ s1 s1 _ eq_refl).
    set (n1 := i_name i ++ [c_generic (siginfo sg); c_generic []]).
    assert (Hn1 : name_ok n1). { unfold n1. apply Forall_app. split; [apply Hi|]. constructor; [apply generic_ok; exact Sb|]. constructor; [apply generic_ok; constructor|constructor]. }
    destruct (interest_slice_ok rn (i_setName i n1) (rename_ok i n1 Hi Hn1)) as (w1 & b1 & e1 & En & Sl). rewrite En. rewrite (bind_ok _ _ _ (lift (Ok (w1, (b1, e1)))) _ s1 s1 _ eq_refl). cbn [signed_bytes]. rewrite Sl. cbn [i_name i_setName].
    assert (Rl : removelast n1 = i_name i ++ [c_generic (siginfo sg)]). { unfold n1. change [c_generic (siginfo sg); c_generic []] with ([c_generic (siginfo sg)] ++ [c_generic []]). rewrite app_assoc. apply removelast_last. }
    rewrite Rl. fold m. rewrite (bind_ok _ _ _ _ _ _ _ _ E2). assert (Gp : n_getPrefix n1 (-1) = Ok (i_name i ++ [c_generic (siginfo sg)])).
    { unfold n1. change [c_generic (siginfo sg); c_generic []] with ([c_generic (siginfo sg)] ++ [c_generic []]). rewrite app_assoc. apply (getPrefix_app (i_name i ++ [c_generic (siginfo sg)]) [c_generic []]). intros X0; discriminate X0. }
    rewrite Gp. rewrite (bind_ok _ _ _ (lift (Ok (i_name i ++ [c_generic (siginfo sg)]))) _ s2 s2 _ eq_refl). do 2 eexists. split; [reflexivity|]. split; [exact B2|]. split; [exact Q2|]. exists (fun b => sig_setBits sg b), bits. cbv beta. rewrite Nl. fold m. split; [|exact G]. do 2 f_equal. rewrite <- app_assoc. cbn [app]. unfold encodeSignatureValue. do 4 f_equal. rewrite e_blobTlv_tlv by lia. rewrite app_nil_r. destruct sg; reflexivity. }
  destruct w as [|k| |]; cbn [ChainSpec.signed_interest].
  1,2: destruct X as (s1 & sg & k0 & B1 & Q1 & E1 & F); rewrite (bind_ok _ _ _ _ _ _ _ _ E1); cbn [fst snd]; exact (Y s1 sg k0 B1 Q1 E1 F).
  1,2: destruct X as (s' & B' & Q' & E); unfold bind; rewrite E; do 2 eexists; (split; [reflexivity|]); (split; [exact B'|]); split; [exact Q'|reflexivity].
Qed.
End K.
