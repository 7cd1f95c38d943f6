(** * C67, C68, C69: KeyChain *)
From Verif Require Import Base BaseLemmas TlvSpec NameModel NameSpec NameProofs DictModel DictProofs WireModel WireSpec CtlModel SegPubProps CertProofs HierModel HierSpec HierProps PibModel PibSpec PibProps FrontModel FrontSpec FrontProofs FrontProofs5 FrontProps ChainModel ChainSpec ChainProofs ChainProofs2 ChainProofs3 ChainProofs4 ChainProofs5 ChainProofs6 ChainProofs7.
From Coq Require Import Permutation.

Section K.
Variable P : Type.
Variable derive : P -> bytes.
Variable psign : Z -> P -> bytes -> bytes.
Variable pverify : bytes -> bytes -> bytes -> res bool.
Variable ktype : bytes -> res Z.
Variable sha : bytes -> bytes.
Variable load : bytes -> option bytes -> res P.
Variable dump : P -> option bytes -> bytes.
Variable ord : list name -> list name.
Notation call := (call data).
Notation kstate := (kstate P).
Notation kcall := (kcall P).
Notation hist := (hist x_name).
Notation Hist h0 s := (pib_hist P h0 s).
Notation public := (public P).
Notation private := (private P).
Notation coherent := (coherent P psign pverify).
Notation belongs := (belongs P psign pverify).
Notation crypto := (crypto P derive psign pverify ktype sha).
Notation kexec := (kexec P derive psign pverify ktype sha load ord).
Notation krun := (krun P derive psign pverify ktype sha load ord).
Notation kproper := (kproper P derive ktype sha).
Notation all_kproper := (all_kproper P derive psign pverify ktype sha load ord).
Notation begin := (begin P ord).
Notation begins := (begins P psign pverify ktype ord).
Notation reach := (reach P derive psign pverify ktype sha load ord).
Notation base := (base P ktype).
Notation signature_by := (signature_by P psign pverify ktype sha).
Notation exportSafeBag := (exportSafeBag P dump).
Notation new_id := (new_id P derive sha).
Notation cert := (cert x_name).
Notation def_cert := (def_cert x_name).
Notation dkey h0 s i := (default_key h0 (k_log s) i).

(** [ord] is the order in which Python iterates over a set. *)
Definition order : Prop := forall l, Permutation l (ord l).

Lemma begin_base : forall h0 keys0, order -> begins h0 keys0 -> base h0 (begin h0 keys0).
Proof.
  intros h0 keys0 Ho (U & V & N & _). constructor; cbn; auto.
  - apply start; assumption.
  - apply new_ok.
  - split; [exact V|exact N].
  - apply gd_nil.
  - intros k p _ X. discriminate X.
Qed.
Lemma run_kept : forall l h0 s, crypto -> order -> base h0 s -> coherent h0 s -> all_kproper h0 s l -> kept P psign pverify ktype h0 s (krun s l).
Proof.
  induction l as [|o l IH]; intros h0 s Cr Or B Co Pr; [apply kept_quiet; auto; apply quiet_refl|]. destruct Pr as [Po Pl]. pose proof Cr as (C1 & C2 & C3 & C4 & C5).
  destruct (kkeeps P derive psign pverify ktype sha ord Or C1 C2 C3 C4 h0 load C5 o s B Co Po) as (s' & r & E & K). unfold ChainModel.krun. cbn [fold_left]. fold (krun (fst (kexec o s)) l). rewrite E in *. cbn [fst] in *.
  apply (kept_trans _ _ _ _ _ _ _ _ K). apply IH; auto; apply K.
Qed.
Lemma reach_ok : forall h0 keys0 s, crypto -> order -> reach h0 keys0 s -> base h0 s /\ coherent h0 s.
Proof. intros h0 keys0 s Cr Or (Bg & l & Pl & ->). pose proof (begin_base _ _ Or Bg) as B. destruct Bg as (_ & _ & _ & Co). destruct (run_kept l h0 _ Cr Or B Co Pl) as (X & Y & _). auto. Qed.
Lemma reach_step : forall h0 keys0 s o, reach h0 keys0 s -> kproper h0 s o -> reach h0 keys0 (fst (kexec o s)).
Proof.
  intros h0 keys0 s o (Bg & l & Pl & ->) Po. split; [exact Bg|]. exists (l ++ [o]). split; [|unfold ChainModel.krun; rewrite fold_left_app; reflexivity].
  clear Bg. revert Pl Po. generalize (begin h0 keys0). induction l as [|a l IH]; intros s0 Pl Po; [split; [exact Po|exact Logic.I]|]. destruct Pl as [Pa Pl]. split; [exact Pa|]. apply IH; assumption.
Qed.

(** ** C67: the PIB and the TPM *)
(** The history tells the state of the PIB. *)
Theorem C67_view : forall h0 keys0 s k, crypto -> order -> reach h0 keys0 s -> Forall c_valid k ->
  getKeyBits (impl (k_pib s)) k = match public h0 s k with Some b => Ok b | None => Err OtherError end /\
  hasKey (impl (k_pib s)) k = (match public h0 s k with Some _ => true | None => false end) /\
  snd (tpm_has P k s) = Ok (match private s k with Some _ => true | None => false end).
Proof.
  intros h0 keys0 s k Cr Or R V. destruct (reach_ok h0 keys0 s Cr Or R) as [B _]. destruct (base_inv P ktype h0 s B) as (I & K & W). pose proof (e_key _ _ (i_view _ _ _ _ _ _ _ _ _ W) k V) as X. cbn [spec_fn f_key] in X.
  unfold getKeyBits, hasKey, ChainSpec.public, pib_hist, tpm_has, get. rewrite !din_get, X. cbn [snd]. auto.
Qed.
(** After every history of proper calls, each key in the PIB has its private key in the TPM. *)
Theorem C67_keys : forall h0 keys0 s k b, crypto -> order -> reach h0 keys0 s -> Forall c_valid k -> getKeyBits (impl (k_pib s)) k = Ok b -> exists p, private s k = Some p /\ belongs b p.
Proof. intros h0 keys0 s k b Cr Or R V E. destruct (C67_view h0 keys0 s k Cr Or R V) as [X _]. destruct (reach_ok h0 keys0 s Cr Or R) as [_ Co]. apply Co. rewrite X in E. destruct (public h0 s k); congruence. Qed.
(** If both were empty at first, each private key in the TPM has its public key in the PIB. *)
Theorem C67_no_orphans : forall s k p, crypto -> order -> reach [] [] s -> Forall c_valid k -> private s k = Some p -> hasKey (impl (k_pib s)) k = true.
Proof.
  intros s k p Cr Or R V E. destruct (C67_view [] [] s k Cr Or R V) as (_ & X & _). rewrite X. destruct R as (Bg & l & Pl & ->). pose proof (begin_base _ _ Or Bg) as B. destruct Bg as (_ & _ & _ & Co). destruct (run_kept l [] _ Cr Or B Co Pl) as (_ & _ & Z).
  assert (Z0 : no_orphans P [] (begin [] [])) by (intros k' p' _ X'; discriminate X'). specialize (Z eq_refl Z0 k p V E). destruct (public [] _ k); [reflexivity|congruence].
Qed.
(** deleteKey removes the key from both, or refuses a key of another identity. *)
Theorem C67_delete_key : forall h0 keys0 s h hk, crypto -> order -> reach h0 keys0 s -> live_id (k_log s) h -> live_key (k_log s) hk -> exists s' r, kexec (KDeleteKey h hk) s = (s', r) /\
  (h_name h = owner (h_name hk) -> r = Ok KNone /\ hasKey (impl (k_pib s')) (h_name hk) = false /\ private s' (h_name hk) = None) /\ (h_name h <> owner (h_name hk) -> r = Err ValueError /\ s' = s).
Proof.
  intros h0 keys0 s h hk Cr Or R L Lk. destruct (reach_ok h0 keys0 s Cr Or R) as [B Co]. destruct (deleteKey_ok P psign pverify ktype ord Or h0 s h hk B Co L Lk) as (s' & r & E & K & Er & D). destruct (live_key_val P ktype h0 s hk B Lk) as (ko & V & _). pose proof (reach_step h0 keys0 s (KDeleteKey h hk) R (conj L Lk)) as R'.
  cbn [ChainModel.kexec] in *. unfold kout in *. destruct (name_dec (h_name h) (owner (h_name hk))) as [Eo|No]; rewrite Er in *.
  - rewrite (bind_ok _ _ _ _ _ _ _ _ E) in *. do 2 eexists. split; [reflexivity|]. cbn [fst ret] in R'. split; [|congruence]. intros _. split; [reflexivity|]. destruct (D eq_refl) as [D1 D2]. split; [|exact D2]. destruct (C67_view h0 keys0 s' (h_name hk) Cr Or R' V) as (_ & X & _). rewrite X, D1. reflexivity.
  - rewrite (bind_err _ _ _ _ _ _ _ _ E) in *. do 2 eexists. split; [reflexivity|]. split; [congruence|]. intros _. split; [reflexivity|].
    destruct (same_identity_ok P ktype h0 s h hk B L Lk) as (Es & _). unfold deleteKey in E. rewrite (bind_ok _ _ _ _ _ _ _ _ Es) in E. destruct (name_dec (h_name h) (owner (h_name hk))); [congruence|]. cbn in E. unfold raise in E. congruence.
Qed.
(** deleteIdentity removes every key of the identity from the PIB, and from the TPM if both were
    empty at first. *)
Theorem C67_delete_identity : forall h0 keys0 s h, crypto -> order -> reach h0 keys0 s -> live_id (k_log s) h -> exists s', kexec (KDeleteIdentity h) s = (s', Ok KNone) /\
  hasIdentity (impl (k_pib s')) (h_name h) = false /\ forall k, Forall c_valid k -> owner k = h_name h -> hasKey (impl (k_pib s')) k = false /\ (h0 = [] -> keys0 = [] -> private s' k = None).
Proof.
  intros h0 keys0 s h Cr Or R L. destruct (reach_ok h0 keys0 s Cr Or R) as [B Co]. destruct (deleteIdentity_ok P psign pverify ktype ord Or h0 s h B Co L) as (s' & E & K & Lg). pose proof (reach_step h0 keys0 s (KDeleteIdentity h) R L) as R'. destruct (live_id_val P ktype h0 s h B L) as [Vi _].
  cbn [ChainModel.kexec] in *. unfold kout in *. rewrite (bind_ok _ _ _ _ _ _ _ _ E) in *. exists s'. split; [reflexivity|]. cbn [fst ret] in R'. split.
  - destruct (reach_ok h0 keys0 s' Cr Or R') as [B' _]. destruct (base_inv P ktype h0 s' B') as (I & KK & W). pose proof (e_id _ _ (i_view _ _ _ _ _ _ _ _ _ W) (h_name h) Vi) as X. cbn [spec_fn f_id] in X. unfold hasIdentity. rewrite din_get, X, Lg. cbn [FrontSpec.hist PibSpec.ident]. destruct (name_dec (h_name h) (h_name h)); [reflexivity|congruence].
  - intros k V Ow. destruct (C67_view h0 keys0 s' k Cr Or R' V) as (_ & X & _). assert (Pn : public h0 s' k = None). { unfold ChainSpec.public, pib_hist. rewrite Lg. cbn [FrontSpec.hist PibSpec.key_bits]. destruct (name_dec (owner k) (h_name h)); [reflexivity|contradiction]. }
    rewrite Pn in X. split; [exact X|]. intros -> ->. destruct (private s' k) as [p|] eqn:Ep; [|reflexivity]. rewrite (C67_no_orphans s' k p Cr Or R' V Ep) in X. discriminate X.
Qed.

(** ** C68: signing *)
(** There is exactly one signer. *)
Theorem C68_signer : forall h0 (t : trace data) si, si_proper t si -> exists w, signer h0 t si w /\ forall w', signer h0 t si w' -> w' = w.
Proof.
  intros h0 t si Ps. destruct (signer_total h0 t si Ps) as [w W]. exists w. split; [exact W|]. intros w' W'. destruct Ps as (T & Vn & _ & _ & _ & Hc). destruct W as (A0 & A1 & A2 & A3 & A4), W' as (B0 & B1 & B2 & B3 & B4). unfold SI_NULL, SI_ID, SI_KEY, SI_CERT, SI_SHA256 in *.
  assert (C : si_type si = 0 \/ si_type si = 1 \/ si_type si = 2 \/ si_type si = 3 \/ si_type si = 4) by lia. destruct C as [C|[C|[C|[C|C]]]].
  - rewrite (A0 C), (B0 C). reflexivity.
  - specialize (A1 C). specialize (B1 C). destruct (si_identity si); congruence.
  - specialize (A2 C). specialize (B2 C). destruct (si_key si); [congruence|]. destruct A2 as [X Y], B2 as [X' Y']. destruct (a_key_dec (si_name si)) as [A|N]; [rewrite (X A), (X' A)|rewrite (Y N), (Y' N)]; reflexivity.
  - destruct (A3 C) as [X Y], (B3 C) as [X' Y']. destruct (a_cert_dec (si_name si)) as [A|N]; [rewrite (X A), (X' A); reflexivity|]. rewrite Y, Y'; [reflexivity| |]; intros i kid s v E; destruct i as [|a i]; [exact (Hc C _ _ _ E)|apply N; exists (a :: i), kid, s, v; split; [discriminate|exact E]|exact (Hc C _ _ _ E)|apply N; exists (a :: i), kid, s, v; split; [discriminate|exact E]].
  - rewrite (A4 C), (B4 C). reflexivity.
Qed.
(** Signing leaves the PIB, the TPM and the default keys alone. *)
Definition unchanged (h0 : list call) (s s' : kstate) : Prop :=
  Hist h0 s' = Hist h0 s /\ t_keys (k_tpm s') = t_keys (k_tpm s) /\ forall i, default_key h0 (k_log s') i = default_key h0 (k_log s) i.
Lemma quiet_unchanged : forall h0 s s', quiet P h0 s s' -> unchanged h0 s s'. Proof. intros h0 s s' (A & B & C & _). split; [exact A|]. split; [exact C|exact B]. Qed.
Theorem C68_data : forall h0 keys0 s si w rnd d, crypto -> order -> reach h0 keys0 s -> si_proper (k_log s) si -> signer h0 (k_log s) si w -> signable si w -> name_ok (d_name d) -> mi_ok (d_meta d) ->
  exists s' r, kexec (KSignData si rnd d) s = (s', rbind r (fun x => Ok (KData x))) /\ signed_data P psign pverify ktype sha h0 s si w rnd d r /\ unchanged h0 s s'.
Proof.
  intros h0 keys0 s si w rnd d Cr Or R Ps W Sa Hn Hm. destruct (reach_ok h0 keys0 s Cr Or R) as [B Co]. pose proof Cr as (C1 & _). destruct (sign_data_ok P psign pverify ktype sha ord Or (Hkt7 ktype C1) h0 s si w rnd d B Co Ps W Sa Hn Hm) as (s' & r & E & B' & Q & G). exists s', r. split; [|split; [exact G|apply quiet_unchanged, Q]].
  cbn [ChainModel.kexec]. unfold kout, bind. rewrite E. destruct r; reflexivity.
Qed.
Theorem C68_interest : forall h0 keys0 s si w rnd rn i, crypto -> order -> reach h0 keys0 s -> si_proper (k_log s) si -> signer h0 (k_log s) si w -> signable si w -> interest_ok i ->
  exists s' r, kexec (KSignInterest si rnd rn i) s = (s', rbind r (fun x => Ok (KInterest x))) /\ signed_interest P psign pverify ktype sha h0 s si w rnd i r /\ unchanged h0 s s'.
Proof.
  intros h0 keys0 s si w rnd rn i Cr Or R Ps W Sa Hi. destruct (reach_ok h0 keys0 s Cr Or R) as [B Co]. pose proof Cr as (C1 & _). destruct (sign_interest_ok P psign pverify ktype sha ord Or (Hkt7 ktype C1) h0 s si w rnd rn i B Co Ps W Sa Hi) as (s' & r & E & B' & Q & G). exists s', r. split; [|split; [exact G|apply quiet_unchanged, Q]].
  cbn [ChainModel.kexec]. unfold kout, bind. rewrite E. destruct r; reflexivity.
Qed.
Theorem C68_buffer : forall h0 keys0 s si w rnd m, crypto -> order -> reach h0 keys0 s -> si_proper (k_log s) si -> signer h0 (k_log s) si w ->
  exists s' r, kexec (KSignBuffer si rnd m) s = (s', rbind r (fun x => Ok (KBits x))) /\ signed_buffer P psign pverify ktype sha h0 s si w rnd m r /\ unchanged h0 s s'.
Proof.
  intros h0 keys0 s si w rnd m Cr Or R Ps W. destruct (reach_ok h0 keys0 s Cr Or R) as [B Co]. pose proof Cr as (C1 & _). destruct (sign_buffer_ok P psign pverify ktype sha ord Or (Hkt7 ktype C1) h0 s si w rnd m B Co Ps W) as (s' & r & E & B' & Q & G). exists s', r. split; [|split; [exact G|apply quiet_unchanged, Q]].
  cbn [ChainModel.kexec]. unfold kout, bind. rewrite E. destruct r; reflexivity.
Qed.
(** The key that signs is in the PIB: a signer is never a removed key. *)
Theorem C68_signer_there : forall h0 keys0 s si k, crypto -> order -> reach h0 keys0 s -> si_proper (k_log s) si -> signer h0 (k_log s) si (WithKey k) -> exists b p, getKeyBits (impl (k_pib s)) k = Ok b /\ private s k = Some p /\ belongs b p.
Proof.
  intros h0 keys0 s si k Cr Or R Ps W. destruct (reach_ok h0 keys0 s Cr Or R) as [B Co]. pose proof Cr as (C1 & _). destruct (prepare_ok P ktype ord Or (Hkt7 ktype C1) h0 s si _ B Ps W) as (s1 & r1 & E1 & B1 & Q1 & b & ty & Eb & _). destruct (key_there P ktype h0 s k b B Eb) as (_ & V & _).
  destruct (C67_view h0 keys0 s k Cr Or R V) as [X _]. unfold ChainSpec.public, pib_hist in X. rewrite Eb in X. destruct (Co k b Eb) as (p & Ep & Hb). exists b, p. auto.
Qed.

(** ** C69: creating identities and keys, self-signed certificates, and moving keys *)
(** The new key [k] of [i]: its two halves are in the PIB and in the TPM, and its default
    certificate is self-signed. *)
Definition made (h0 : list call) (s s' : kstate) (i : name) (gen : P) (now rnd : Z) (k : name) : Prop :=
  exists hk sg b, let x := with_sig (self_data k now (derive gen)) (sg (Some b)) in
  h_name hk = k /\ public h0 s' k = Some (derive gen) /\ (forall k', Forall c_valid k' -> private s' k' = if name_dec k k' then Some gen else private s k') /\
  def_cert (Hist h0 s') k = Some (d_name x) /\ cert (Hist h0 s') (d_name x) = Some x /\ cert_checkFormat x = Ok tt /\
  signature_by h0 s' (self_info hk now) (WithKey k) rnd (data_signed x) sg b.
Lemma self_check' : forall s h0 i c now gen sg, crypto -> base h0 s -> key_bits x_name x_content (Hist h0 s) (key_name i c) = Some (derive gen) -> 0 <= now -> cert_checkFormat (with_sig (self_data (key_name i c) now (derive gen)) sg) = Ok tt.
Proof. intros s h0 i c now gen sg (C1 & C2 & _) B E Hn. destruct (key_there P ktype h0 s _ _ B E) as (A & V & _). apply self_check; auto. destruct (C2 gen) as [t Et]. apply (C1 _ _ Et). Qed.
Theorem C69_create_identity : forall h0 keys0 s i kp gen rs now rnd c, crypto -> order -> reach h0 keys0 s -> Forall c_valid i -> params_proper P derive sha s i kp gen rs now ->
  dkey h0 s i = None -> new_id s i kp gen rs c -> in_time now -> name_ok (key_name i c) ->
  exists s' hd, kexec (KCreateIdentity i kp gen rs now rnd) s = (s', Ok (KHandle hd)) /\ h_name hd = i /\ live_id (k_log s') hd /\ hasIdentity (impl (k_pib s')) i = true /\
    (forall j, dkey h0 s' j = if name_dec i j then Some (key_name i c) else dkey h0 s j) /\ (forall x, live_id (k_log s) x -> live_id (k_log s') x) /\ made h0 s s' i gen now rnd (key_name i c).
Proof.
  intros h0 keys0 s i kp gen rs now rnd c Cr Or R Vi Pp Dk Nw Ti Nm. destruct (reach_ok h0 keys0 s Cr Or R) as [B Co]. pose proof Cr as (C1 & C2 & C3 & C4 & C5).
  destruct (createIdentity_ok P derive psign pverify ktype sha ord Or C1 C2 C3 C4 h0 s i kp gen rs now rnd B Co Vi Pp) as (s' & r & E & (B' & _) & L & _ & _ & F). destruct (F c Dk Nw Ti Nm) as (hd & sg & b & hk & -> & N & Lh & Nk & Dk' & Pb & Pv & Dc & Ct & Sg). exists s', hd.
  split; [cbn [ChainModel.kexec]; unfold kout; rewrite (bind_ok _ _ _ _ _ _ _ _ E); reflexivity|]. split; [exact N|]. split; [exact Lh|]. split; [|split; [exact Dk'|split; [apply L|]]].
  - destruct (base_inv P ktype h0 s' B') as (I & KK & W). pose proof (e_id _ _ (i_view _ _ _ _ _ _ _ _ _ W) i Vi) as X. cbn [spec_fn f_id] in X. unfold hasIdentity. rewrite din_get, X. destruct (live_id_val P ktype h0 s' hd B' Lh) as [_ Y]. rewrite N in Y. rewrite Y. reflexivity.
  - exists hk, sg, b. cbv zeta. split; [exact Nk|]. split; [exact Pb|]. split; [exact Pv|]. split; [exact Dc|]. split; [exact Ct|]. split; [|exact Sg]. apply (self_check' s' h0); auto. apply Ti.
Qed.
(** An identity with a default key and certificate is left as it is. *)
Theorem C69_existing_identity : forall h0 keys0 s i kp gen rs now rnd k n, crypto -> order -> reach h0 keys0 s -> Forall c_valid i -> params_proper P derive sha s i kp gen rs now ->
  dkey h0 s i = Some k -> def_cert (Hist h0 s) k = Some n ->
  exists s' hd, kexec (KCreateIdentity i kp gen rs now rnd) s = (s', Ok (KHandle hd)) /\ h_name hd = i /\ live_id (k_log s') hd /\ (forall k', public h0 s' k' = public h0 s k') /\ (forall m, cert (Hist h0 s') m = cert (Hist h0 s) m) /\ t_keys (k_tpm s') = t_keys (k_tpm s) /\ forall j, dkey h0 s' j = dkey h0 s j.
Proof.
  intros h0 keys0 s i kp gen rs now rnd k n Cr Or R Vi Pp Dk Dc. destruct (reach_ok h0 keys0 s Cr Or R) as [B Co]. pose proof Cr as (C1 & C2 & C3 & C4 & C5).
  destruct (createIdentity_ok P derive psign pverify ktype sha ord Or C1 C2 C3 C4 h0 s i kp gen rs now rnd B Co Vi Pp) as (s' & r & E & _ & L & F & _). destruct (F k n Dk Dc) as (hd & -> & N & Lh & Ct & Pb & T & D). exists s', hd.
  split; [cbn [ChainModel.kexec]; unfold kout; rewrite (bind_ok _ _ _ _ _ _ _ _ E); reflexivity|]. auto 10.
Qed.
(** createKey; an earlier default key stays. *)
Theorem C69_create_key : forall h0 keys0 s hd kp gen rs now rnd c, crypto -> order -> reach h0 keys0 s -> live_id (k_log s) hd -> params_proper P derive sha s (h_name hd) kp gen rs now ->
  new_id s (h_name hd) kp gen rs c -> in_time now -> name_ok (key_name (h_name hd) c) -> let k := key_name (h_name hd) c in
  exists s' hk, kexec (KCreateKey hd kp gen rs now rnd) s = (s', Ok (KHandle hk)) /\ h_name hk = k /\ live_key (k_log s') hk /\
    (forall j, dkey h0 s' j = match dkey h0 s j with Some d => Some d | None => if name_dec (h_name hd) j then Some k else None end) /\ made h0 s s' (h_name hd) gen now rnd k.
Proof.
  intros h0 keys0 s hd kp gen rs now rnd c Cr Or R L Pp Nw Ti Nm k. destruct (reach_ok h0 keys0 s Cr Or R) as [B Co]. pose proof Cr as (C1 & C2 & C3 & C4 & C5).
  destruct (createKey_ok P derive psign pverify ktype sha ord Or C1 C2 C3 C4 h0 s hd kp gen rs now rnd B Co L Pp) as (s' & r & E & B' & _ & _ & _ & _ & F). destruct (F c Nw Ti Nm) as (hk & sg & b & -> & (N & Lk & H & D) & Pv & Sg). fold k in N, H, D, Pv, Sg. exists s', hk.
  split; [cbn [ChainModel.kexec]; unfold kout; rewrite (bind_ok _ _ _ _ _ _ _ _ E); reflexivity|]. split; [exact N|]. split; [exact Lk|]. split; [exact D|].
  assert (Ow : owner (self_name k now) = k) by apply owner_app2. assert (Kn : key_bits x_name x_content (Hist h0 s) k = None) by (apply (coh_none P psign pverify h0); [exact Co|apply Nw]). destruct (no_key_no_cert P ktype h0 s k B Kn) as [Dn _].
  assert (Pb : public h0 s' k = Some (derive gen)). { unfold ChainSpec.public, pib_hist. rewrite H. cbn [PibSpec.key_bits]. cbn [x_name d_name with_sig self_data]. rewrite Ow. destruct (name_dec k k); [reflexivity|congruence]. }
  exists hk, sg, b. cbv zeta. split; [exact N|]. split; [exact Pb|]. split; [exact Pv|]. unfold pib_hist. rewrite H.
  split; [cbn [PibSpec.def_cert]; unfold pib_hist in Dn; rewrite Dn; cbn [x_name d_name with_sig self_data]; rewrite Ow; destruct (name_dec k k); [reflexivity|congruence]|].
  split; [cbn [PibSpec.cert]; cbn [x_name d_name with_sig self_data]; destruct (name_dec (self_name k now) (self_name k now)); [reflexivity|congruence]|]. split; [|exact Sg]. apply (self_check' s' h0); auto. apply Ti.
Qed.
(** selfSign of a key that is there *)
Theorem C69_self_sign : forall h0 keys0 s hk now rnd, crypto -> order -> reach h0 keys0 s -> live_key (k_log s) hk -> in_time now -> name_ok (h_name hk) -> cert (Hist h0 s) (self_name (h_name hk) now) = None ->
  exists s' sg b bits, let x := with_sig (self_data (h_name hk) now bits) (sg (Some b)) in
  kexec (KSelfSign hk now rnd) s = (s', Ok (KData x)) /\ public h0 s (h_name hk) = Some bits /\ signature_by h0 s (self_info hk now) (WithKey (h_name hk)) rnd (data_signed x) sg b /\
  cert (Hist h0 s') (d_name x) = Some x /\ (forall k, public h0 s' k = public h0 s k) /\ t_keys (k_tpm s') = t_keys (k_tpm s).
Proof.
  intros h0 keys0 s hk now rnd Cr Or R L Ti Nm Nc. destruct (reach_ok h0 keys0 s Cr Or R) as [B Co]. pose proof Cr as (C1 & C2 & C3 & C4 & C5).
  destruct (selfSign_ok P psign pverify ktype sha ord Or C1 h0 s hk now rnd B L (proj1 Ti) Nc) as (s' & r & bits & E & B' & _ & T & Kb & Cs & F). destruct (F Co Ti Nm) as (sg & b & -> & Sg). destruct Cs as [(e & X & _)|(sg0 & X & H & _)]; [discriminate X|]. injection X as X.
  exists s', sg, b, bits. cbv zeta. split; [cbn [ChainModel.kexec]; unfold kout; rewrite (bind_ok _ _ _ _ _ _ _ _ E); reflexivity|]. split; [exact Kb|]. split; [exact Sg|].
  unfold pib_hist, ChainSpec.public, pib_hist. rewrite H. split; [cbn [PibSpec.cert]; cbn [x_name d_name with_sig self_data]; rewrite X; destruct (name_dec (self_name (h_name hk) now) (self_name (h_name hk) now)); [reflexivity|congruence]|]. split; [|exact T].
  intros k. apply addCert_bits. cbn [d_name with_sig self_data]. assert (Ow : owner (self_name (h_name hk) now) = h_name hk) by apply owner_app2. rewrite Ow. exact Kb.
Qed.
(** A key exported from one KeyChain and imported into another, where it is not known, signs there. *)
Theorem C69_transfer : forall h0 keys0 s h1 keys1 s1 c pw bag rnd p ty, crypto -> order -> reach h0 keys0 s -> reach h1 keys1 s1 -> (forall q w, load (dump q w) w = Ok q) ->
  Forall c_valid (d_name c) -> (forall kid v w, d_name c <> cert_name [] kid v w) -> cert_checkFormat c = Ok tt -> let k := owner (d_name c) in
  private s k = Some p -> belongs (x_content c) p -> ktype (x_content c) = Ok ty -> private s1 k = None -> snd (exportSafeBag c pw s) = Ok (c, bag) ->
  exists s', kexec (KImport c bag pw rnd) s1 = (s', Ok KNone) /\ getKeyBits (impl (k_pib s')) k = Ok (x_content c) /\ private s' k = Some p /\ cert (Hist h1 s') (d_name c) = Some c.
Proof.
  intros h0 keys0 s h1 keys1 s1 c pw bag rnd p ty Cr Or R R1 Hl Vc Nr Ck k Ep Hb Et Np Ex. destruct (reach_ok h1 keys1 s1 Cr Or R1) as [B Co]. pose proof Cr as (C1 & C2 & C3 & C4 & C5). assert (Vk : Forall c_valid k) by (apply owner_val, Vc).
  assert (Ebag : bag = dump p pw). { unfold ChainModel.exportSafeBag in Ex. unfold bind, lift in Ex. rewrite getKeyName_owner in Ex. fold k in Ex. unfold catch, tpm_export, bind, get in Ex. unfold ChainSpec.private in Ep. rewrite Ep in Ex. cbn in Ex. congruence. } subst bag.
  destruct (import_ok P psign pverify ktype ord Or h1 load C5 s1 c (dump p pw) pw rnd B Co Vc Nr) as (s' & r & E & K & L & F & _). destruct (F p ty Ck Np (Hl p pw) Et (Hb _ _)) as (-> & Pb & Pv & Ct). pose proof (reach_step h1 keys1 s1 (KImport c (dump p pw) pw rnd) R1 (conj Vc Nr)) as R'.
  cbn [ChainModel.kexec] in *. unfold kout in *. rewrite (bind_ok _ _ _ _ _ _ _ _ E) in *. exists s'. split; [reflexivity|]. destruct (C67_view h1 keys1 s' k Cr Or R' Vk) as (X & _). rewrite X. fold k in Pb. rewrite Pb. auto.
Qed.
(** A failed import leaves the keys as they were. *)
Theorem C69_failed_import : forall h0 keys0 s c bag pw rnd s' e k, crypto -> order -> reach h0 keys0 s -> Forall c_valid (d_name c) -> (forall kid v w, d_name c <> cert_name [] kid v w) ->
  kexec (KImport c bag pw rnd) s = (s', Err e) -> Forall c_valid k -> public h0 s' k = public h0 s k /\ private s' k = private s k.
Proof.
  intros h0 keys0 s c bag pw rnd s' e k Cr Or R Vc Nr E V. destruct (reach_ok h0 keys0 s Cr Or R) as [B Co]. pose proof Cr as (C1 & C2 & C3 & C4 & C5). destruct (import_ok P psign pverify ktype ord Or h0 load C5 s c bag pw rnd B Co Vc Nr) as (s2 & r & E2 & K & L & _ & F).
  cbn [ChainModel.kexec] in E. unfold kout, bind in E. rewrite E2 in E. destruct r as [a|e2]; [discriminate E|]. injection E as <- _. apply F; [eauto|exact V].
Qed.
End K.

(** The validity period of the certificate *)
Theorem C69_validity : forall hk now t, in_time now -> vp_isValid (period_of (self_info hk now)) t = true <-> exists m, 1000 * m <= t /\ now <= 1000 * m /\ exists n, t <= 1000 * n /\ 1000 * n <= now + 20 * 365 * 24 * 3600 * 1000.
Proof.
  intros hk now t Ti. unfold in_time in Ti. unfold self_info, si_setValidity, period_of. cbn [si_validity]. set (v := vp_setPeriod now (now + YEARS_20)).
  assert (Hp : vp_hasPeriod v = true). { unfold vp_hasPeriod, v, vp_setPeriod. cbn [vp_notBefore vp_notAfter]. replace (ceil1000 now =? VP_INF) with false; [reflexivity|]. symmetry. apply Z.eqb_neq. unfold ceil1000. assert (X : - (- now / 1000) <= now + 1) by (Z.to_euclidean_division_equations; lia). assert (Y : 10 ^ 30 < VP_INF) by reflexivity. set (z := VP_INF) in *. clearbody z. lia. }
  rewrite Hp. unfold v, vp_setPeriod, vp_isValid. cbn [vp_notBefore vp_notAfter]. unfold ceil1000, floor1000, YEARS_20. rewrite Bool.andb_true_iff, !Z.leb_le. rewrite <- Z.mul_opp_l, !Z.div_mul by lia. split.
  - intros [H1 H2]. exists (- (- now / 1000)). split; [lia|]. split; [Z.to_euclidean_division_equations; lia|]. exists ((now + 20 * 365 * 24 * 3600 * 1000) / 1000). Z.to_euclidean_division_equations; lia.
  - intros (m & H1 & H2 & n & H3 & H4). Z.to_euclidean_division_equations; lia.
Qed.
