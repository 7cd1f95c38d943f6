(** * C66: Pib, PibIdentity and PibKey *)
From Verif Require Import Base BaseLemmas NameModel NameSpec NameProofs DictModel DictProofs CertProofs HierModel HierSpec HierProps PibModel PibSpec PibProps FrontModel FrontSpec FrontProofs FrontProofs2 FrontProofs3 FrontProofs4 FrontProofs5.
From Coq Require Import Permutation.

Section F.
Context {C : Type}.
Variable ct_name : C -> name.
Variable ct_content : C -> bytes.
Variable ct_check : C -> res unit.
Variable ord : list name -> list name.
Variable ktype : bytes -> res Z.
Hypothesis Ho : forall l, Permutation l (ord l).
Notation pib := (pib C).
Notation call := (call C).
Notation front := (front C).
Notation keyobj := (keyobj C).
Notation exec := (exec ct_name ct_content ct_check ord).
Notation sane := (sane ct_name ct_check).
Notation ident := (ident ct_name).
Notation def_id := (def_id ct_name).
Notation key_bits := (key_bits ct_name ct_content).
Notation cert := (cert ct_name).
Notation def_key := (def_key ct_name ct_content).
Notation def_cert := (def_cert ct_name).
Notation outcome := (outcome ct_name ct_content).
Notation spec_fn := (spec_fn ct_name ct_content).
Notation nget := (dget n_equals).
Notation nset := (dset n_equals).
Notation ndrop := (dremove n_equals).
Notation Inv := (Inv ct_name ct_content ct_check ktype).
Notation idgood := (idgood ct_name ct_content).
Notation keygood := (keygood ct_name ct_content).
Notation exec_view := (exec_view ct_name ct_content ct_check ord Ho).
Notation spec_closed := (spec_closed ct_name ct_content ct_check).


Ltac sm := unfold set_id, set_key, bind, ret, lift, get, put, raise; cbn [fst snd].
Notation b_exec := (b_exec ct_name ct_content ct_check ord ktype Ho).

Notation hist := (hist ct_name).
Notation proper := (proper ct_name ct_content ct_check ktype).
Notation answers := (answers ct_name ct_content).
Notation all_proper := (all_proper ct_name ct_content ct_check ktype).
Notation usable := (usable ct_name ct_content ct_check ktype).
Notation fexec := (fexec ct_name ct_content ct_check ord ktype).
Notation fstep := (fstep ct_name ct_content ct_check ord ktype).
Notation frun := (frun ct_name ct_content ct_check ord ktype).
Notation run := (PibModel.run ct_name ct_content ct_check ord).
Notation fcall := (fcall C).
Notation trace := (trace C).
Notation answer := (answer C).


Lemma reached_answers : forall h0 l, usable h0 -> let (s, t) := frun (run (rev h0)) l in all_proper h0 t -> all_answers ct_name ct_content h0 t.
Proof.
  intros h0 l U. unfold FrontModel.frun. induction l as [|o l IH] using rev_ind; [intros _; exact Logic.I|]. pose proof (all_steps ct_name ct_content ct_check ord ktype Ho h0 l U) as R. unfold FrontModel.frun in R. rewrite fold_left_app. cbn [fold_left]. destruct (fold_left fstep l (front_new (run (rev h0)), [])) as [s t]. unfold FrontModel.fstep at 1. cbn [fst snd]. destruct (fexec o s) as [s' r] eqn:E.
  intros [P A]. pose proof (step ct_name ct_content ct_check ord ktype Ho h0 t s o (R A) P) as G. rewrite E in G. split; [apply G|apply IH, A].
Qed.
(** Every answer of every proper history, on top of any back end that was used sanely, is the one
    that the history of calls determines: the containers, their caches and the back end stay in
    step. *)
Theorem C66_answers : forall h0 l o, usable h0 -> let (s, t) := frun (run (rev h0)) l in
  all_proper h0 t -> all_answers ct_name ct_content h0 t /\ (proper h0 t o -> answers h0 t o (snd (fexec o s))).
Proof.
  intros h0 l o U. pose proof (reached_answers h0 l U) as A. pose proof (all_steps ct_name ct_content ct_check ord ktype Ho h0 l U) as R. destruct (frun (run (rev h0)) l) as [s t]. intros P. split; [exact (A P)|]. intros Po. pose proof (step ct_name ct_content ct_check ord ktype Ho h0 t s o (R P) Po) as G. destruct (fexec o s). apply G.
Qed.
Lemma chosen_key : forall h0 t s i k, reached ct_name ct_content ct_check ktype h0 t s -> chosen t i = Some k -> key_bits (hist h0 t) k <> None /\ owner k = i /\ a_key k.
Proof.
  intros h0 t s i k (I & K & V & _) E. destruct (I i) as [[r o]|] eqn:Ei; [|rewrite (i_ch _ _ _ _ _ _ _ _ _ V i Ei) in E; discriminate E]. destruct (i_id _ _ _ _ _ _ _ _ _ V i r o Ei) as (_ & _ & _ & _ & _ & _ & _ & _ & D). destruct (io_default o) as [q|]; [|congruence].
  destruct D as (k' & ko & F1 & F2 & F3). assert (k' = k) by congruence. subst k'. destruct (i_key _ _ _ _ _ _ _ _ _ V k q ko F2) as (_ & Ak & _ & _ & _ & B & _). rewrite B. split; [discriminate|]. split; [exact F3|exact Ak].
Qed.
(** The default key that an identity answers is a key of that identity, and it is there. *)
Theorem C66_default_key_exists : forall h0 l hd x, usable h0 -> let (s, t) := frun (run (rev h0)) l in
  all_proper h0 t -> live_id t hd -> snd (fexec (FDefaultKey hd) s) = Ok (AKey x) ->
  key_bits (hist h0 t) (h_name x) <> None /\ owner (h_name x) = h_name hd.
Proof.
  intros h0 l hd x U. pose proof (C66_answers h0 l (FDefaultKey hd) U) as A. pose proof (all_steps ct_name ct_content ct_check ord ktype Ho h0 l U) as R. destruct (frun (run (rev h0)) l) as [s t]. intros P L E. specialize (R P). destruct (A P) as [_ B]. specialize (B L). rewrite E in B. cbn [FrontSpec.answers] in B.
  destruct (chosen t (h_name hd)) as [k|] eqn:Ec.
  - destruct B as (y & [= <-] & ->). destruct (chosen_key _ _ _ _ _ R Ec) as (X1 & X2 & _). auto.
  - destruct R as (I & K & V & _). destruct (def_key (hist h0 t) (h_name hd)) as [k|] eqn:Ed; [|discriminate B]. destruct B as (y & [= <-] & ->). destruct (spec_closed _ (i_sane _ _ _ _ _ _ _ _ _ V)) as (_ & _ & _ & X & _). destruct (X _ _ Ed). auto.
Qed.
(** As long as no key was removed, it is the default key of the back end. *)
Theorem C66_default_key_current : forall h0 l hd, usable h0 -> let (s, t) := frun (run (rev h0)) l in
  all_proper h0 t -> live_id t hd -> (forall x k r, ~ In (FRemoveKey x k, r) t) ->
  match def_key (hist h0 t) (h_name hd) with
  | Some k => gives_key k (snd (fexec (FDefaultKey hd) s))
  | None => pib_error (snd (fexec (FDefaultKey hd) s))
  end.
Proof.
  intros h0 l hd U. pose proof (C66_answers h0 l (FDefaultKey hd) U) as A. pose proof (all_steps ct_name ct_content ct_check ord ktype Ho h0 l U) as R. destruct (frun (run (rev h0)) l) as [s t]. intros P L N. destruct (A P) as [Al B]. specialize (B L). cbn [FrontSpec.answers] in B.
  assert (X : forall i k, chosen t i = Some k -> def_key (hist h0 t) i = Some k).
  { clear B R A L. clear s hd. induction t as [|[o r] t IH]; [discriminate|]. destruct P as [Po P], Al as [Ao Al]. assert (IH' := IH P (fun x k r' H => N x k r' (or_intror H)) Al). intros i k E.
    destruct r as [a|e]; [|destruct o; cbn [chosen FrontSpec.hist] in *; try (apply IH', E); try discriminate E; try (destruct (name_dec _ _); [discriminate E|apply IH', E]); cbn [FrontSpec.answers] in Ao; discriminate Ao].
    destruct o as [j|j|j| |j| |hd b k'|hd k'|hd k'|hd k'|hd|hd c|hd n|hd n|hd n|hd|hd]; cbn [chosen FrontSpec.hist PibSpec.def_key] in *.
    - destruct (PibSpec.ident _ _ _); [apply IH', E|cbn [PibSpec.def_key]; apply IH', E].
    - destruct (name_dec j i); [discriminate E|]. apply IH', E.
    - apply IH', E.
    - discriminate E.
    - apply IH', E.
    - apply IH', E.
    - rewrite (IH' _ _ E). reflexivity.
    - exfalso. eapply N. left. reflexivity.
    - cbn [FrontSpec.answers] in Ao. destruct Ao as [A1 A2]. destruct (key_of_dec (h_name hd) k') as [Kk|Nk]; [|discriminate (A2 Nk)]. specialize (A1 Kk). destruct (key_bits (hist h0 t) k') as [b|]; [|discriminate A1]. destruct A1 as (x & [= ->] & Ex). destruct (name_dec (h_name hd) i); [rewrite Ex in E; exact E|apply IH', E].
    - apply IH', E.
    - cbn [FrontSpec.answers] in Ao. destruct a as [|y|y|y|y]; try (apply IH', E). destruct (name_dec (h_name hd) i) as [<-|]; [|apply IH', E]. injection E as <-. destruct (chosen t (h_name hd)) as [k0|] eqn:Ec.
      + destruct Ao as (x & [= <-] & ->). apply IH', Ec.
      + destruct (def_key (hist h0 t) (h_name hd)) as [k0|]; [|discriminate Ao]. destruct Ao as (x & [= <-] & ->). reflexivity.
    - rewrite (IH' _ _ E). reflexivity.
    - apply IH', E.
    - apply IH', E.
    - apply IH', E.
    - apply IH', E.
    - apply IH', E. }
  destruct (chosen t (h_name hd)) as [k|] eqn:Ec; [rewrite (X _ _ Ec); exact B|exact B].
Qed.
(** isConsistent answers yes everywhere. *)
Lemma same_set_ok : forall (a : dict name unit) l, gd a -> gd (set_of l) -> (forall n, nval n -> nget a n = nget (set_of l) n) -> (forall n, In n l -> nval n) -> same_set a l = true.
Proof.
  intros a l Ga Gl E Vl. unfold same_set. apply andb_true_intro. split; apply forallb_forall; intros n In_.
  - unfold dkeys in In_. apply in_map_iff in In_. destruct In_ as ([m []] & Em & Im). cbn [fst] in Em. subst m. assert (Vn : nval n) by (destruct Ga as [Dm _]; unfold dom in Dm; rewrite Forall_forall in Dm; exact (Dm _ Im)). rewrite din_get, <- E by exact Vn. apply (in_n _ _ _ _ Ga) in Im. destruct Im as [_ Im]. rewrite Im. reflexivity.
  - rewrite din_get, E by auto. rewrite set_of_get by auto. destruct (in_dec name_dec n l); [reflexivity|contradiction].
Qed.
Theorem C66_consistent : forall h0 l, usable h0 -> let (s, t) := frun (run (rev h0)) l in
  all_proper h0 t ->
  ids_consistent s = true /\
  (forall hd, live_id t hd -> keys_consistent (h_ref hd) s = (s, Ok true)) /\
  (forall hd, live_key t hd -> certs_consistent ct_name (h_ref hd) s = (s, Ok true)).
Proof.
  intros h0 l U. pose proof (all_steps ct_name ct_content ct_check ord ktype Ho h0 l U) as R. destruct (frun (run (rev h0)) l) as [s t]. intros P. destruct (R P) as (I & K & V & HI & HK). clear R P. pose proof (i_view _ _ _ _ _ _ _ _ _ V) as W. split; [|split].
  - unfold ids_consistent. assert (Gi : forall n, In n (getIdentities (impl s)) -> nval n). { intros n In_. unfold getIdentities in In_. apply in_map_iff in In_. destruct In_ as ([m u] & <- & Im). destruct (v_ids _ _ W) as [Dm _]. unfold dom in Dm. rewrite Forall_forall in Dm. exact (Dm _ Im). }
    assert (G : gd (set_of (getIdentities (impl s)))) by (apply set_of_gd; [exact Gi|apply (v_ids _ _ W)]). apply same_set_ok; [apply (i_gnames _ _ _ _ _ _ _ _ _ V)|exact G| |exact Gi].
    intros n Vn. rewrite (i_names _ _ _ _ _ _ _ _ _ V n Vn), set_of_get by assumption. pose proof (e_id _ _ W n Vn) as E. cbn [f_id PibProps.spec_fn] in E. destruct (in_dec name_dec n (getIdentities (impl s))) as [In_|N].
    + unfold getIdentities in In_. apply in_map_iff in In_. destruct In_ as ([m []] & Em & Im). cbn [fst] in Em. subst m. apply (in_n _ _ _ _ (v_ids _ _ W)) in Im. destruct Im as [_ Im]. rewrite Im in E. destruct (ident (hist h0 t) n); [reflexivity|discriminate E].
    + destruct (ident (hist h0 t) n) eqn:Ei; [|reflexivity]. exfalso. apply N. apply (n_in _ _ _ _ (v_ids _ _ W) Vn) in E. unfold getIdentities. apply in_map_iff. exists (n, tt). split; [reflexivity|exact E].
  - intros hd L. destruct (HI hd L) as [o Eo]. destruct (i_id _ _ _ _ _ _ _ _ _ V _ _ _ Eo) as (Vi & _ & D1 & D2 & D3 & D4 & D5 & D6 & _). unfold keys_consistent. rewrite (bind_k _ _ _ _ _ _ _ _ (b_the_id _ _ _ _ _ _ _ _ _ V _ _ _ Eo)). unfold bind, ask, ret. destruct (b_keys _ _ _ _ _ _ _ _ _ V _ Vi) as (ks & El & Gl & Hl). rewrite D1, El.
    do 2 f_equal. apply same_set_ok; [exact D3|exact Gl| |].
    + intros n Vn. rewrite D5, Hl by exact Vn. reflexivity.
    + intros n In_. destruct Gl as [Dm _]. unfold dom in Dm. rewrite Forall_forall in Dm. apply (Dm (n, tt)). unfold set_of. apply in_map_iff. exists n. auto.
  - intros hd L. destruct (HK hd L) as [o Eo]. destruct (i_key _ _ _ _ _ _ _ _ _ V _ _ _ Eo) as (Vi & _ & _ & _ & D1 & D2 & D3 & D4 & D5 & D6 & _). unfold certs_consistent. rewrite (bind_k _ _ _ _ _ _ _ _ (b_the_key _ _ _ _ _ _ _ _ _ V _ _ _ Eo)). unfold bind, ask, ret. destruct (b_certs _ _ _ _ _ _ _ _ _ V _ Vi) as (ks & El & Gl & Hl). rewrite D1, El.
    do 2 f_equal. apply same_set_ok; [exact D3|exact Gl| |].
    + intros n Vn. rewrite D5, Hl by exact Vn. reflexivity.
    + intros n In_. destruct Gl as [Dm _]. unfold dom in Dm. rewrite Forall_forall in Dm. apply (Dm (n, tt)). unfold set_of. apply in_map_iff. exists n. auto.
Qed.
End F.

(** ** What does not hold *)
Section Ex.
Let CT : Type := (name * bytes)%type.
Let chk (c : CT) : res unit := Ok tt.
Let ord (l : list name) : list name := l.
(** the first byte of decodable bits is 48 *)
Let kt (b : bytes) : res Z := match b with 48 :: _ => Ok 1 | _ => Err ValueError end.
Let run' := PibModel.run (C := CT) (@fst name bytes) (@snd name bytes) chk ord.
Let fexec' := FrontModel.fexec (C := CT) (@fst name bytes) (@snd name bytes) chk ord kt.
Let frun' (l : list (fcall CT)) := FrontModel.frun (@fst name bytes) (@snd name bytes) chk ord kt (run' []) l.
Let state l := fst (frun' l).
Let result o l := snd (fexec' o (state l)).
Let g (b : Z) : comp := c_generic [b].
Let alice : name := [g 97].
Let k1 : name := key_name alice (g 1).
Let k2 : name := key_name alice (g 2).
Let cert1 (b : bytes) : CT := (cert_name alice (g 1) (g 9) (g 1), b).
Let ha : handle := Handle alice 0.
Let hk1 : handle := Handle k1 0.

(** getDefaultKey keeps its answer when the back end has forgotten it: PibMemory forgets the
    default key when another key of the identity is removed (C55). *)
Theorem C66_default_key_stale_refuted : ~ (forall l hd x, result (FDefaultKey hd) l = Ok (AKey x) -> getDefaultKeyOfIdentity (impl (state l)) (h_name hd) = Ok (h_name x)).
Proof. intros X. specialize (X [FAddIdentity alice; FAddKey ha [48;1] k1; FAddKey ha [48;2] k2; FDefaultKey ha; FRemoveKey ha k2] ha hk1 eq_refl). vm_compute in X. discriminate X. Qed.
(** A certificate with other key bits changes the key in the back end, not the PibKey. *)
Theorem C66_key_bits_stale_refuted : ~ (forall l hd b, result (FPublicKey hd) l = Ok (ABits b) -> getKeyBits (impl (state l)) (h_name hd) = Ok b).
Proof. intros X. specialize (X [FAddIdentity alice; FAddKey ha [48;1] k1; FAddCert hk1 (cert1 [48;7])] hk1 [48;1] eq_refl). vm_compute in X. discriminate X. Qed.
(** A certificate that replaces the default one is not answered as the default. *)
Theorem C66_default_certificate_stale_refuted : ~ (forall l hd c, result (FDefaultCert hd) l = Ok (ACert c) -> getDefaultCertificateOfKey chk (impl (state l)) (h_name hd) = Ok c).
Proof. intros X. specialize (X [FAddIdentity alice; FAddKey ha [48;1] k1; FAddCert hk1 (cert1 [48;1]); FDefaultCert hk1; FAddCert hk1 (cert1 [48;2])] hk1 (cert1 [48;1]) eq_refl). vm_compute in X. discriminate X. Qed.
(** Adding a key whose bits cannot be decoded raises, and leaves the container inconsistent. *)
Theorem C66_failed_add_key_refuted : ~ (forall l hd k b e, result (FAddKey hd b k) l = Err e -> snd (keys_consistent (h_ref hd) (fst (fexec' (FAddKey hd b k) (state l)))) = snd (keys_consistent (h_ref hd) (state l))).
Proof. intros X. specialize (X [FAddIdentity alice] ha k1 [1] ValueError eq_refl). vm_compute in X. discriminate X. Qed.
(** A handle of a removed identity goes on answering keys that are not there. *)
Theorem C66_removed_identity_refuted : ~ (forall l hd x, result (FDefaultKey hd) l = Ok (AKey x) -> hasIdentity (impl (state l)) (h_name hd) = true).
Proof. intros X. specialize (X [FAddIdentity alice; FAddKey ha [48;1] k1; FDefaultKey ha; FRemoveIdentity alice] ha hk1 eq_refl). vm_compute in X. discriminate X. Qed.
(** "If the tpmLocator is different from the existing one, the PIB will be reset" (pib.py 88):
    it is not, since pib.py 97 does not call _reset. *)
Theorem C66_tpm_locator_reset_refuted : ~ (forall l loc, loc <> tpm (impl (state l)) -> getIdentities (impl (fst (setTpmLocator_ loc (state l)))) = []).
Proof. intros X. specialize (X [FAddIdentity alice] [1]). assert (N : [1] <> tpm (impl (state [FAddIdentity alice]))) by (vm_compute; discriminate). specialize (X N). vm_compute in X. discriminate X. Qed.
(** getKeyNames gives the keys that were loaded, not the keys of the identity. *)
Theorem C66_key_names_refuted : ~ (forall h l hd ks k s, s = fst (FrontModel.frun (@fst name bytes) (@snd name bytes) chk ord kt (run' h) l) ->
  snd (id_keyNames (h_ref hd) s) = Ok ks -> owner k = h_name hd -> hasKey (impl s) k = true -> In k ks).
Proof. intros X. specialize (X [AddKey alice k1 [48;1]] [FGetIdentity alice] ha [] k1 _ eq_refl eq_refl eq_refl eq_refl). destruct X. Qed.

(** ** Example: a proper history, with its answers *)
Let demo : list (fcall CT) := [FAddIdentity alice; FAddKey ha [48;1] k1; FAddKey ha [48;2] k2; FAddCert hk1 (cert1 [48;1]); FDefaultKey ha; FGetCert hk1 (fst (cert1 [])); FRemoveKey ha k2; FGetKey ha k2; FDefaultCert hk1].
Example C66_example :
  usable (@fst name bytes) (@snd name bytes) chk kt [] /\
  all_proper (@fst name bytes) (@snd name bytes) chk kt [] (snd (frun' demo)) /\
  map snd (rev (snd (frun' demo))) = [Ok (AId ha); Ok (AKey hk1); Ok (AKey (Handle k2 1)); Ok ANone; Ok (AKey hk1); Ok (ACert (cert1 [48;1])); Ok ANone; Err OtherError; Ok (ACert (cert1 [48;1]))].
Proof.
  split; [split; [constructor|intros k b E; discriminate E]|]. split; [|vm_compute; reflexivity].
  set (res := [Ok (AId ha); Ok (AKey hk1); Ok (AKey (Handle k2 1)); Ok ANone; Ok (AKey hk1); Ok (ACert (cert1 [48;1])); Ok ANone; Err OtherError; Ok (ACert (cert1 [48;1]))]).
  assert (E : snd (frun' demo) = rev (combine demo res)) by (vm_compute; reflexivity). rewrite E. clear E. unfold demo, res. cbn [combine rev app].
  assert (L1 : forall n, n_validb n = true -> Forall c_valid n) by (exact validb_ok).
  assert (NA : alice <> []) by discriminate.
  cbn [all_proper proper live_id live_key].
  repeat match goal with
  | |- Forall c_valid _ => apply L1; reflexivity
  | |- key_of _ _ -> _ => intros _
  | |- _ = _ -> _ => intros _
  | |- _ = _ => reflexivity
  | |- True => exact Logic.I
  | |- ?A \/ ?B => first [left; reflexivity | right]
  | |- exists ty, kt _ = _ => exists 1
  | |- a_cert _ => exists alice, (g 1), (g 9), (g 1)
  | |- alice <> [] => exact NA
  | |- _ <> _ => vm_compute; discriminate
  | |- forall x, _ = Some x -> _ => let H := fresh in intros ? H; vm_compute in H; discriminate H
  | |- _ /\ _ => split
  end.
Qed.
End Ex.
Print Assumptions C66_answers.
Print Assumptions C66_default_key_exists.
Print Assumptions C66_default_key_current.
Print Assumptions C66_consistent.
