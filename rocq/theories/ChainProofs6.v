(** * KeyChain: every call keeps the PIB and the TPM together *)
From Verif Require Import Base BaseLemmas TlvSpec NameModel NameSpec NameProofs DictModel DictProofs WireModel WireSpec SegPubProps CertProofs HierModel HierSpec HierProps PibModel PibSpec PibProps FrontModel FrontSpec FrontProofs FrontProofs5 FrontProps ChainModel ChainSpec ChainProofs ChainProofs2 ChainProofs3 ChainProofs4 ChainProofs5.
From Coq Require Import Permutation.

Section K.
Variable P : Type.
Variable derive : P -> bytes.
Variable psign : Z -> P -> bytes -> bytes.
Variable pverify : bytes -> bytes -> bytes -> res bool.
Variable ktype : bytes -> res Z.
Variable sha : bytes -> bytes.
Variable ord : list name -> list name.
Hypothesis Ho : forall l, Permutation l (ord l).
Hypothesis Hkt : forall b t, ktype b = Ok t -> b <> [] /\ (t = KT_RSA \/ t = KT_EC).
Hypothesis Hder : forall p, exists t, ktype (derive p) = Ok t.
Hypothesis Hver : forall p, belongs P psign pverify (derive p) p.
Hypothesis Hsha : forall m, bytes_ok (sha m).
Variable h0 : list (call data).
Notation call := (call data).
Notation trace := (trace data).
Notation kstate := (kstate P).
Notation km := (sm kstate).
Notation hist := (hist x_name).
Notation ident := (ident x_name).
Notation def_id := (def_id x_name).
Notation key_bits := (key_bits x_name x_content).
Notation cert := (cert x_name).
Notation def_key := (def_key x_name x_content).
Notation def_cert := (def_cert x_name).
Notation pcall := (pcall P ktype ord).
Notation nget := (dget n_equals).
Notation Hist s := (hist h0 (k_log s)).
Notation dkey s i := (default_key h0 (k_log s) i).
Notation base := (base P ktype h0).
Notation quiet := (quiet P h0).
Notation coherent := (coherent P psign pverify h0).
Notation no_orphans := (no_orphans P h0).
Notation private := (private P).
Notation public := (public P h0).
Notation sign_data := (sign_data P psign ktype sha ord).
Notation signature_by := (signature_by P psign pverify ktype sha h0).
Notation selfSign := (selfSign P psign ktype sha ord).
Notation createKey := (createKey P derive psign ktype sha ord).
Notation createIdentity := (createIdentity P derive psign ktype sha ord).
Notation tpm_create := (tpm_create P derive sha).
Notation tpm_delete := (tpm_delete P).
Notation tpm_deletes := (tpm_deletes P).
Notation new_id := (new_id P derive sha).
Notation lives_on := (lives_on P).
Notation params_proper := (params_proper P derive sha).
Variable load : bytes -> option bytes -> res P.
(** A key that the test of importSafeBag accepts belongs to the certificate. *)
Hypothesis Htest : forall b r p, pverify b [1; 2; 3; 4] (psign r p [1; 2; 3; 4]) = Ok true -> belongs P psign pverify b p.
Notation new_key := (new_key P derive h0).

Definition kept (s s' : kstate) : Prop := base s' /\ coherent s' /\ (h0 = [] -> no_orphans s -> no_orphans s').
Definition keeps_k {A} (s : kstate) (m : km A) : Prop := exists s' r, m s = (s', r) /\ kept s s'.
Lemma kept_same : forall s s', base s' -> coherent s -> (forall k, key_bits (Hist s') k = key_bits (Hist s) k) -> t_keys (k_tpm s') = t_keys (k_tpm s) -> kept s s'.
Proof.
  intros s s' B Co Kb T. assert (Pv : forall k, private s' k = private s k) by (intros k; unfold ChainSpec.private; rewrite T; reflexivity). split; [exact B|]. split.
  - intros k b E. unfold ChainSpec.public, pib_hist in E. rewrite Kb in E. rewrite Pv. apply Co, E.
  - intros _ Or k p V E. unfold ChainSpec.public, pib_hist. rewrite Kb. rewrite Pv in E. exact (Or k p V E).
Qed.
Lemma kept_quiet : forall s s', base s' -> coherent s -> quiet s s' -> kept s s'.
Proof. intros s s' B Co Q. apply kept_same; auto; [intros k; rewrite (quiet_hist P h0 _ _ Q); reflexivity|apply Q]. Qed.
Lemma kept_trans : forall a b c, kept a b -> kept b c -> kept a c.
Proof. intros a b c (_ & _ & A) (B & C & D). split; [exact B|]. split; [exact C|auto]. Qed.
Lemma keeps_err : forall A B s s' e (m : km A) (k : A -> km B), m s = (s', Err e) -> kept s s' -> keeps_k s (bind m k).
Proof. intros. do 2 eexists. split; [apply bind_err; eassumption|assumption]. Qed.
Lemma keeps_out : forall A B (f : A -> B) s (m : km A), keeps_k s m -> keeps_k s (bind m (fun a => ret (f a))).
Proof. intros A B f s m (s' & r & E & K). unfold keeps_k, bind. rewrite E. destruct r; do 2 eexists; (split; [reflexivity|exact K]). Qed.
Lemma keeps_step : forall A B s s' (m : km A) (m' : km B), kept s s' -> keeps_k s' m' -> (exists r, forall s2 x, m' s' = (s2, x) -> m s = (s2, r x)) -> keeps_k s m.
Proof. intros A B s s' m m' K (s2 & x & E & K2) [r R]. do 2 eexists. split; [apply R, E|exact (kept_trans _ _ _ K K2)]. Qed.
Lemma keeps_bind : forall A B s s' a (m : km A) (k : A -> km B), m s = (s', Ok a) -> kept s s' -> keeps_k s' (k a) -> keeps_k s (bind m k).
Proof. intros A B s s' a m k E K (s2 & r & E2 & K2). exists s2, r. split; [rewrite (bind_ok _ _ _ _ _ _ _ _ E); exact E2|exact (kept_trans _ _ _ K K2)]. Qed.

(** A call of the PIB that leaves the bits of the keys alone *)
Definition still (o : fcall data) : Prop :=
  match o with FRemoveIdentity _ | FReset | FRemoveKey _ _ | FAddKey _ _ _ => False | _ => True end.
Lemma still_ok : forall s o, base s -> coherent s -> still o -> proper x_name x_content x_check ktype h0 (k_log s) o -> exists s' r, pcall o s = (s', r) /\ kept s s' /\ k_log s' = (o, r) :: k_log s /\ t_keys (k_tpm s') = t_keys (k_tpm s) /\ answers x_name x_content h0 (k_log s) o r.
Proof.
  intros s o B Co St Pr. destruct (pcall_step P ktype ord Ho h0 s o B Pr) as (s' & r & E & B' & A & Lg & T). exists s', r. split; [exact E|]. split; [|rewrite T; auto]. apply kept_same; [exact B'|exact Co| |rewrite T; reflexivity].
  intros k. rewrite Lg. cbn [FrontSpec.hist]. destruct r as [a|e]; [|reflexivity]. destruct o; try contradiction; try reflexivity.
  - destruct (PibSpec.ident x_name (Hist s) i); reflexivity.
  - cbn [FrontSpec.proper] in Pr. destruct Pr as (_ & _ & _ & Pr). cbn [FrontSpec.answers] in A. destruct (name_dec (owner (x_name c)) (h_name h)) as [Eo|N]; [|destruct A as [_ A]; specialize (A N); discriminate A]. destruct (Pr Eo) as (_ & Kb & _). apply addCert_bits. unfold x_name in Eo. rewrite Eo. exact Kb.
Qed.
Lemma keeps_pcall : forall s o, base s -> coherent s -> still o -> proper x_name x_content x_check ktype h0 (k_log s) o -> keeps_k s (pcall o).
Proof. intros s o B Co St Pr. destruct (still_ok s o B Co St Pr) as (s' & r & E & K & _). do 2 eexists. split; [exact E|exact K]. Qed.
Lemma keeps_an : forall A (f : km (answer data) -> km A) s m, (forall s s' e, m s = (s', Err e) -> f m s = (s', Err e)) -> (forall s s' a, m s = (s', Ok a) -> exists r, f m s = (s', r)) -> keeps_k s m -> keeps_k s (f m).
Proof. intros A f s m He Ha (s' & r & E & K). destruct r as [a|e]; [destruct (Ha _ _ _ E) as [r Er]; exists s', r; auto|exists s', (Err e); auto]. Qed.
Lemma keeps_none : forall s m, keeps_k s m -> keeps_k s (an_none P m).
Proof. intros s m. apply keeps_an; [intros; apply an_none_err; assumption|]. intros s0 s' a E. unfold an_none. rewrite (bind_ok _ _ _ _ _ _ _ _ E). destruct a; eexists; reflexivity. Qed.
Lemma keeps_id : forall s m, keeps_k s m -> keeps_k s (an_id P m).
Proof. intros s m. apply keeps_an; [intros; apply an_id_err; assumption|]. intros s0 s' a E. unfold an_id. rewrite (bind_ok _ _ _ _ _ _ _ _ E). destruct a; eexists; reflexivity. Qed.
Lemma keeps_key : forall s m, keeps_k s m -> keeps_k s (an_key P m).
Proof. intros s m. apply keeps_an; [intros; apply an_key_err; assumption|]. intros s0 s' a E. unfold an_key. rewrite (bind_ok _ _ _ _ _ _ _ _ E). destruct a; eexists; reflexivity. Qed.
Lemma keeps_cert : forall s m, keeps_k s m -> keeps_k s (an_cert P m).
Proof. intros s m. apply keeps_an; [intros; apply an_cert_err; assumption|]. intros s0 s' a E. unfold an_cert. rewrite (bind_ok _ _ _ _ _ _ _ _ E). destruct a; eexists; reflexivity. Qed.
Lemma keeps_then : forall A B s (m : km A) (k : A -> km B), keeps_k s m -> (forall s' a, kept s s' -> m s = (s', Ok a) -> keeps_k s' (k a)) -> keeps_k s (bind m k).
Proof. intros A B s m k (s' & r & E & K) H. destruct r as [a|e]; [apply (keeps_bind _ _ _ _ _ _ _ E K), (H s' a K E)|apply (keeps_err _ _ _ _ _ _ _ E K)]. Qed.
Lemma keeps_ret : forall A s (a : A), base s -> coherent s -> keeps_k s (ret a).
Proof. intros. do 2 eexists. split; [reflexivity|]. apply kept_quiet; auto. apply quiet_refl. Qed.
Lemma keeps_raise : forall A s e, base s -> coherent s -> keeps_k s (@raise kstate A e).
Proof. intros. do 2 eexists. split; [reflexivity|]. apply kept_quiet; auto. apply quiet_refl. Qed.
Lemma keeps_lift : forall A s (r : res A), base s -> coherent s -> keeps_k s (lift r).
Proof. intros. do 2 eexists. split; [reflexivity|]. apply kept_quiet; auto. apply quiet_refl. Qed.
Lemma keeps_catch : forall A cl s (m h : km A), keeps_k s m -> (forall s', kept s s' -> keeps_k s' h) -> keeps_k s (catch cl m h).
Proof.
  intros A cl s m h (s' & r & E & K) H. unfold keeps_k, catch. rewrite E. destruct r as [a|e]; [do 2 eexists; split; [reflexivity|exact K]|]. destruct (cl e); [|do 2 eexists; split; [reflexivity|exact K]]. destruct (H s' K) as (s2 & r2 & E2 & K2). exists s2, r2. split; [exact E2|exact (kept_trans _ _ _ K K2)].
Qed.

(** ** Keys of a PIB that was empty at first *)
Lemma all_live : forall t, all_answers x_name x_content [] t -> all_proper x_name x_content x_check ktype [] t -> forall k b, key_bits (hist [] t) k = Some b -> exists hd, live_key t hd /\ h_name hd = k.
Proof.
  induction t as [|[o r] t IH]; intros A Pr k b E; [discriminate E|]. destruct A as [A At], Pr as [Pr Pt]. specialize (IH At Pt). set (h := hist [] t) in *.
  destruct r as [a|e].
  2: { cbn [FrontSpec.hist] in E. fold h in E. destruct (IH k b E) as (hd & L & N). exists hd. split; [|exact N]. destruct o; cbn [live_key FrontSpec.answers] in *; auto; discriminate A. }
  destruct o as [i|i|i| |i| |h1 bb k0|h1 k0|h1 k0|h1 k0|h1|h1 c|h1 n|h1 n|h1 n|h1|h1]; cbn [FrontSpec.hist] in E; fold h in E.
  all: try (destruct (IH k b E) as (hd & L & N); exists hd; split; [|exact N]; destruct a; cbn [live_key]; auto; fail).
  - assert (E' : key_bits h k = Some b) by (destruct (PibSpec.ident x_name h i); exact E). destruct (IH k b E') as (hd & L & N). exists hd. split; [|exact N]. destruct a; cbn [live_key]; auto.
  - cbn in E. destruct (name_dec (owner k) i) as [|Ne]; [discriminate E|]. destruct (IH k b E) as (hd & L & N). exists hd. split; [|exact N]. cbn [live_key]. subst k. auto.
  - discriminate E.
  - cbn [FrontSpec.answers] in A. destruct (key_of_dec (h_name h1) k0) as [Kf|Nf]; [|destruct A as [_ A]; specialize (A Nf); discriminate A]. destruct A as [A _]. destruct (A Kf) as (x & [= ->] & Nx). cbn in E. destruct (name_dec k0 k) as [<-|Ne].
    + exists x. split; [left; reflexivity|exact Nx].
    + destruct (IH k b E) as (hd & L & N). exists hd. split; [right; exact L|exact N].
  - cbn in E. destruct (name_dec k0 k) as [|Ne]; [discriminate E|]. destruct (IH k b E) as (hd & L & N). exists hd. split; [|exact N]. cbn [live_key]. subst k. auto.
  - cbn [FrontSpec.answers FrontSpec.proper] in A, Pr. destruct (name_dec (owner (x_name c)) (h_name h1)) as [Eo|Nf]; [|destruct A as [_ A]; specialize (A Nf); discriminate A]. destruct A as [A _]. specialize (A Eo). injection A as ->. cbn in E. destruct (name_dec (owner (x_name c)) k) as [<-|Ne].
    + exists h1. split; [cbn; apply Pr|symmetry; exact Eo].
    + destruct (IH k b E) as (hd & L & N). exists hd. split; [exact L|exact N].
Qed.
Lemma key_names_ok : forall s hd, base s -> live_id (k_log s) hd -> exists ks, snd (id_keyNames (h_ref hd) (k_pib s)) = Ok ks /\ (forall k, In k ks -> nval k /\ owner k = h_name hd) /\
  (h0 = [] -> forall k b, key_bits (Hist s) k = Some b -> owner k = h_name hd -> In k ks).
Proof.
  intros s hd B L. pose proof B as [(I & K & V & HI & HK) Hp An Al B5 B6 B7]. destruct (HI hd L) as [o Eo]. destruct (i_id _ _ _ _ _ _ _ _ _ V _ _ _ Eo) as (Vn & Hn & N1 & _ & _ & Gk & _ & Kk & _).
  unfold id_keyNames, bind, the_id. rewrite Hn. cbn [snd ret]. eexists. split; [reflexivity|]. split.
  - intros k Ik. unfold dkeys in Ik. apply in_map_iff in Ik. destruct Ik as ([k' q] & <- & Ik). destruct (in_n _ _ _ _ Gk Ik) as [Vk Gt]. cbn [fst]. split; [exact Vk|]. rewrite Kk in Gt by exact Vk. destruct (name_dec (owner k') (h_name hd)); [assumption|discriminate Gt].
  - intros Z k b Eb Ow. rewrite Z in *. destruct (all_live _ An Al k b Eb) as (x & Lx & Nx). destruct (HK x Lx) as [ko Eko]. destruct (i_key _ _ _ _ _ _ _ _ _ V _ _ _ Eko) as (Vk & _). rewrite Nx in *. unfold dkeys. apply in_map_iff. exists (k, h_ref x). split; [reflexivity|]. apply n_in; [exact Gk|exact Vk|]. rewrite Kk by exact Vk. destruct (name_dec (owner k) (h_name hd)); [|contradiction]. rewrite Eko. reflexivity.
Qed.

(** ** Deleting *)
Lemma delete_ok : forall s k, base s -> nval k -> exists s', tpm_delete k s = (s', Ok tt) /\ base s' /\ k_log s' = k_log s /\ k_pib s' = k_pib s /\ forall k', nval k' -> private s' k' = if name_dec k k' then None else private s k'.
Proof.
  intros s k B V. unfold ChainModel.tpm_delete. eexists. split; [reflexivity|]. split; [|split; [reflexivity|]; split; [reflexivity|]].
  - apply base_tpm; [exact B|apply gd_drop, B|apply gd_drop, B|]. intros k' p V'. rewrite !drop_n by (try apply B; assumption). destruct (name_dec _ _); [auto|apply (b_cache _ _ _ _ B); exact V'].
  - intros k' V'. unfold ChainSpec.private. cbn [k_tpm t_keys]. apply drop_n; [apply B|exact V|exact V'].
Qed.
Lemma deletes_ok : forall ks s, base s -> (forall k, In k ks -> nval k) -> exists s', tpm_deletes ks s = (s', Ok tt) /\ base s' /\ k_log s' = k_log s /\ k_pib s' = k_pib s /\ forall k', nval k' -> private s' k' = if in_dec name_dec k' ks then None else private s k'.
Proof.
  induction ks as [|k ks IH]; intros s B V.
  - exists s. split; [reflexivity|]. split; [exact B|]. split; [reflexivity|]. split; [reflexivity|]. reflexivity.
  - destruct (delete_ok s k B (V k (or_introl eq_refl))) as (s1 & E1 & B1 & L1 & P1 & D1). destruct (IH s1 B1 (fun x Ix => V x (or_intror Ix))) as (s2 & E2 & B2 & L2 & P2 & D2). exists s2. cbn [ChainModel.tpm_deletes]. rewrite (bind_ok _ _ _ _ _ _ _ _ E1).
    split; [exact E2|]. split; [exact B2|]. split; [congruence|]. split; [congruence|]. intros k' V'. rewrite D2, D1 by exact V'. destruct (in_dec name_dec k' ks) as [I|N], (in_dec name_dec k' (k :: ks)) as [I'|N'], (name_dec k k') as [<-|Ne]; cbn in *; try reflexivity; exfalso; intuition.
Qed.
Lemma deleteIdentity_ok : forall s hd, base s -> coherent s -> live_id (k_log s) hd -> exists s', deleteIdentity P ktype ord hd s = (s', Ok tt) /\ kept s s' /\ k_log s' = (FRemoveIdentity (h_name hd), Ok ANone) :: k_log s.
Proof.
  intros s hd B Co L. destruct (live_id_val P ktype h0 s hd B L) as [Vi _]. destruct (key_names_ok s hd B L) as (ks & Ek & Kv & Kall). unfold deleteIdentity. rewrite (bind_ok _ _ _ (pview P (id_keyNames (h_ref hd))) _ s s ks); [|unfold pview; rewrite Ek; reflexivity].
  destruct (deletes_ok ks s B (fun k Ik => proj1 (Kv k Ik))) as (s1 & E1 & B1 & L1 & P1 & D1). rewrite (bind_ok _ _ _ _ _ _ _ _ E1). destruct (pcall_step P ktype ord Ho h0 s1 (FRemoveIdentity (h_name hd)) B1 Vi) as (s2 & r & E2 & B2 & A & Lg & T). cbn [FrontSpec.answers] in A. subst r.
  exists s2. split; [apply an_none_ok, E2|]. rewrite L1 in Lg. split; [|exact Lg].
  assert (Kb : forall k, key_bits (Hist s2) k = if name_dec (owner k) (h_name hd) then None else key_bits (Hist s) k) by (intros k; rewrite Lg; reflexivity). assert (Pv : forall k, nval k -> private s2 k = if in_dec name_dec k ks then None else private s k) by (intros k Vk; unfold ChainSpec.private at 1; rewrite T; apply D1, Vk).
  split; [exact B2|]. split.
  - intros k b Eb. unfold ChainSpec.public, pib_hist in Eb. destruct (key_there P ktype h0 s2 k b B2 Eb) as (_ & Vk & _). rewrite Kb in Eb. destruct (name_dec (owner k) (h_name hd)) as [|N]; [discriminate Eb|]. rewrite Pv by exact Vk. destruct (in_dec name_dec k ks) as [Ik|_]; [destruct (Kv k Ik); contradiction|apply Co, Eb].
  - intros Z Or k p Vk Ep. rewrite Pv in Ep by exact Vk. destruct (in_dec name_dec k ks) as [|Nk]; [discriminate Ep|]. unfold ChainSpec.public, pib_hist. rewrite Kb. pose proof (Or k p Vk Ep) as X. unfold ChainSpec.public, pib_hist in X. destruct (name_dec (owner k) (h_name hd)) as [Ow|]; [|exact X]. destruct (key_bits (Hist s) k) as [b|] eqn:Eb; [|congruence]. destruct (Nk (Kall Z k b Eb Ow)).
Qed.
Lemma same_identity_ok : forall s h hk, base s -> live_id (k_log s) h -> live_key (k_log s) hk -> same_identity P h hk s = (s, Ok (if name_dec (h_name h) (owner (h_name hk)) then true else false)) /\ nval (h_name hk) /\ a_key (h_name hk).
Proof.
  intros s h hk B L Lk. destruct (live_id_val P ktype h0 s h B L) as [Vi _]. destruct (live_key_val P ktype h0 s hk B Lk) as (ko & V & Ak & Hn & Hnm & Hb & Hi & Ht). destruct (a_key_owner _ Ak) as [_ X]. rewrite X in Hi. injection Hi as Hi. split; [|auto].
  unfold same_identity, bind, pview, the_key. rewrite Hn. cbn [snd ret]. rewrite <- Hi. rewrite equals_dec by (try apply owner_val; assumption). reflexivity.
Qed.
Lemma deleteKey_ok : forall s h hk, base s -> coherent s -> live_id (k_log s) h -> live_key (k_log s) hk -> exists s' r, deleteKey P ktype ord h hk s = (s', r) /\ kept s s' /\
  r = (if name_dec (h_name h) (owner (h_name hk)) then Ok tt else Err ValueError) /\ (r = Ok tt -> public s' (h_name hk) = None /\ private s' (h_name hk) = None).
Proof.
  intros s h hk B Co L Lk. destruct (same_identity_ok s h hk B L Lk) as (E & V & Ak). unfold deleteKey. rewrite (bind_ok _ _ _ _ _ _ _ _ E). destruct (name_dec (h_name h) (owner (h_name hk))) as [Eo|N]; cbn [negb].
  2: { do 2 eexists. split; [reflexivity|]. split; [apply kept_quiet; auto; apply quiet_refl|]. split; [reflexivity|discriminate]. }
  destruct (pcall_step P ktype ord Ho h0 s (FRemoveKey h (h_name hk)) B (conj L V)) as (s1 & r & E1 & B1 & A & Lg & T). destruct A as [A _]. rewrite A in * by (destruct Ak as (i & kid & Ni & Ek); rewrite Ek, owner_key in *; rewrite Eo; split; [exact Ni|eauto]). clear A.
  rewrite (bind_ok _ _ _ _ _ _ _ _ (an_none_ok P _ _ _ E1)). destruct (delete_ok s1 (h_name hk) B1 V) as (s2 & E2 & B2 & L2 & P2 & D2). rewrite E2. do 2 eexists. split; [reflexivity|].
  assert (Kb : forall k, key_bits (Hist s2) k = if name_dec (h_name hk) k then None else key_bits (Hist s) k) by (intros k; rewrite L2, Lg; reflexivity).
  assert (Pv : forall k, nval k -> private s2 k = if name_dec (h_name hk) k then None else private s k). { intros k Vk. rewrite D2 by exact Vk. destruct (name_dec _ _); [reflexivity|]. unfold ChainSpec.private. rewrite T. reflexivity. }
  split; [split; [exact B2|split]|split; [reflexivity|intros _; split]].
  - intros k b Eb. unfold ChainSpec.public, pib_hist in Eb. destruct (key_there P ktype h0 s2 k b B2 Eb) as (_ & Vk & _). rewrite Kb in Eb. rewrite Pv by exact Vk. destruct (name_dec (h_name hk) k); [discriminate Eb|apply Co, Eb].
  - intros _ Or k p Vk Ep. rewrite Pv in Ep by exact Vk. unfold ChainSpec.public, pib_hist. rewrite Kb. destruct (name_dec (h_name hk) k); [discriminate Ep|exact (Or k p Vk Ep)].
  - unfold ChainSpec.public, pib_hist. rewrite Kb. destruct (name_dec _ _); [reflexivity|congruence].
  - rewrite Pv by exact V. destruct (name_dec _ _); [reflexivity|congruence].
Qed.
Lemma getKeyName_owner : forall n, cert_getKeyName n = Ok (owner n).
Proof. intros n. unfold cert_getKeyName. rewrite n_getPrefix_ok. change (-3 + 1) with (-2). change (-2 <? 0) with true. cbv iota. unfold owner. assert (X : Z.to_nat (zlen n + -2) = (length n - 2)%nat) by (unfold zlen; lia). rewrite X. reflexivity. Qed.
Lemma owner_two : forall n, owner n <> [] -> exists a b, n = owner n ++ [a; b].
Proof.
  intros n N. unfold owner in *. assert (Hl : (2 < length n)%nat). { destruct (le_lt_dec (length n) 2) as [H|H]; [|exact H]. replace (length n - 2)%nat with 0%nat in N by lia. cbn in N. congruence. }
  pose proof (firstn_skipn (length n - 2) n) as E. pose proof (skipn_length (length n - 2) n) as El. destruct (skipn (length n - 2) n) as [|a [|b [|c l]]]; cbn in El; try lia. exists a, b. symmetry. exact E.
Qed.
Lemma cert_of_owner : forall n, a_key (owner n) -> a_cert n.
Proof. intros n Ak. destruct (owner_two n) as (a & b & E); [destruct Ak as (i & kid & Ni & ->); unfold key_name; destruct i; discriminate|]. destruct Ak as (i & kid & Ni & Eo). exists i, kid, a, b. split; [exact Ni|]. rewrite cert_key, <- Eo. exact E. Qed.
Lemma addCertificate_ok : forall s hk c, base s -> coherent s -> live_key (k_log s) hk -> cert_proper P h0 s hk c -> exists s' r, addCertificate_k P ktype ord hk c s = (s', r) /\ kept s s' /\ live_key (k_log s') hk /\
  (r = Ok tt \/ r = Err ValueError) /\ (r = Ok tt <-> owner (d_name c) = h_name hk /\ d_content c = public s (h_name hk)) /\ (r = Ok tt -> cert (Hist s') (d_name c) = Some c) /\ (r <> Ok tt -> quiet s s').
Proof.
  intros s hk c B Co L [Vc Cp]. destruct (live_key_val P ktype h0 s hk B L) as (ko & V & Ak & _ & _ & Kb & _ & _). unfold addCertificate_k. rewrite getKeyName_owner. rewrite (bind_ok _ _ _ (lift (Ok (owner (d_name c)))) _ s s _ eq_refl).
  destruct (r_public P ktype ord Ho h0 s hk B L) as (s1 & bits & B1 & Q1 & E1 & Eb). rewrite (bind_ok _ _ _ _ _ _ _ _ (an_bits_ok P _ _ _ _ E1)). rewrite equals_dec by (try apply owner_val; assumption).
  assert (K1 : kept s s1) by (apply kept_quiet; assumption). assert (L1 : live_key (k_log s1) hk) by (apply (quiet_lives P h0 _ _ Q1), L). unfold ChainSpec.public, pib_hist in *. rewrite Eb.
  destruct (name_dec (h_name hk) (owner (d_name c))) as [Eo|N]; cbn [negb orb].
  2: { do 2 eexists. split; [reflexivity|]. split; [exact K1|]. split; [exact L1|]. split; [auto|]. split; [split; [discriminate|intros [X _]; congruence]|]. split; [discriminate|auto]. }
  assert (Xc : match d_content c with Some x => zlist_eqb x bits | None => false end = true <-> d_content c = Some bits). { destruct (d_content c) as [x|]; [rewrite zlist_eqb_eq; split; congruence|split; discriminate]. }
  destruct (match d_content c with Some x => zlist_eqb x bits | None => false end) eqn:Ec; cbn [negb].
  2: { do 2 eexists. split; [reflexivity|]. split; [exact K1|]. split; [exact L1|]. split; [auto|]. split; [split; [discriminate|intros [_ X]; apply Xc in X; discriminate X]|]. split; [discriminate|auto]. }
  apply proj1 in Xc. specialize (Xc eq_refl). destruct (Cp (eq_sym Eo)) as [Ck Nr].
  destruct (m_addCert P ktype ord Ho h0 s1 hk c B1 L1 Vc (eq_sym Eo)) as (s2 & E2 & B2 & T2 & V2 & H2 & C2).
  { apply cert_of_owner. rewrite <- Eo. exact Ak. } { exact Ck. } { rewrite (quiet_hist P h0 _ _ Q1), Eb. unfold x_content. rewrite Xc. reflexivity. } { intros x Ex. rewrite (quiet_hist P h0 _ _ Q1) in Ex. apply Nr, Ex. }
  exists s2, (Ok tt). split; [apply an_none_ok, E2|]. split; [|split; [apply V2, L1|]; split; [auto|]; split; [split; auto|]; split; [intros _; rewrite H2; cbn; unfold x_name; destruct (name_dec _ _); [reflexivity|congruence]|congruence]].
  apply (kept_trans _ _ _ K1). apply kept_same; [exact B2|apply K1| |rewrite T2; reflexivity]. intros k. rewrite H2. apply addCert_bits. rewrite <- Eo, (quiet_hist P h0 _ _ Q1), Eb. unfold x_content. rewrite Xc. reflexivity.
Qed.
End K.
