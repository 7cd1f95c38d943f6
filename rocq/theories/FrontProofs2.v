(** * Pib and its containers: every call keeps the invariant *)
From Verif Require Import Base BaseLemmas NameModel NameSpec NameProofs DictModel DictProofs CertProofs HierModel HierSpec HierProps PibModel PibSpec PibProps FrontModel FrontSpec FrontProofs.
From Coq Require Import Permutation.

Section F.
Context {C : Type}.
Variable ct_name : C -> name.
Variable ct_content : C -> bytes.
Variable ct_check : C -> res unit.
Variable ord : list name -> list name.
Variable ktype : bytes -> res Z.
Hypothesis Ho : forall l, Permutation l (ord l).
Notation pib := (pib C).
Notation call := (call C).
Notation front := (front C).
Notation keyobj := (keyobj C).
Notation exec := (exec ct_name ct_content ct_check ord).
Notation sane := (sane ct_name ct_check).
Notation ident := (ident ct_name).
Notation def_id := (def_id ct_name).
Notation key_bits := (key_bits ct_name ct_content).
Notation cert := (cert ct_name).
Notation def_key := (def_key ct_name ct_content).
Notation def_cert := (def_cert ct_name).
Notation outcome := (outcome ct_name ct_content).
Notation spec_fn := (spec_fn ct_name ct_content).
Notation nget := (dget n_equals).
Notation nset := (dset n_equals).
Notation ndrop := (dremove n_equals).
Notation Inv := (Inv ct_name ct_content ct_check ktype).
Notation idgood := (idgood ct_name ct_content).
Notation keygood := (keygood ct_name ct_content).
Notation exec_view := (exec_view ct_name ct_content ct_check ord Ho).
Notation spec_closed := (spec_closed ct_name ct_content ct_check).

(** ** The back end under the invariant *)
Section B.
Variables (h : list call) (ch : name -> option name) (I : name -> option (nat * idobj)) (K : name -> option (nat * keyobj)) (s : front).
Hypothesis V : Inv h ch I K s.
Lemma b_has : forall i, nval i -> hasIdentity (impl s) i = ident h i.
Proof. intros i Vi. unfold hasIdentity. rewrite din_get, (e_id _ _ (i_view _ _ _ _ _ _ _ _ _ V) i Vi). cbn. destruct (ident h i); reflexivity. Qed.
Lemma b_def : getDefaultIdentity (impl s) = match def_id h with Some i => Ok i | None => Err OtherError end.
Proof. unfold getDefaultIdentity. rewrite (e_def _ _ (i_view _ _ _ _ _ _ _ _ _ V)). reflexivity. Qed.
Lemma b_bits : forall k, nval k -> getKeyBits (impl s) k = match key_bits h k with Some b => Ok b | None => Err OtherError end.
Proof. intros k Vk. unfold getKeyBits. rewrite (e_key _ _ (i_view _ _ _ _ _ _ _ _ _ V) k Vk). reflexivity. Qed.
Lemma b_dk : forall i, nval i -> getDefaultKeyOfIdentity (impl s) i = match def_key h i with Some k => Ok k | None => Err OtherError end.
Proof. intros i Vi. unfold getDefaultKeyOfIdentity. rewrite (e_dk _ _ (i_view _ _ _ _ _ _ _ _ _ V) i Vi). reflexivity. Qed.
Lemma b_cert : forall n, nval n -> getCertificate ct_check (impl s) n = match cert h n with Some c => Ok c | None => Err OtherError end.
Proof.
  intros n Vn. unfold getCertificate. rewrite (e_cert _ _ (i_view _ _ _ _ _ _ _ _ _ V) n Vn). cbn [PibProps.spec_fn f_cert]. destruct (cert h n) as [c|] eqn:E; [|reflexivity].
  destruct (spec_closed h (i_sane _ _ _ _ _ _ _ _ _ V)) as (_ & _ & H3 & _). destruct (H3 n c E) as (_ & _ & _ & Kc & _). rewrite Kc. reflexivity.
Qed.
Lemma b_check : forall n c, cert h n = Some c -> ct_check c = Ok tt /\ ct_name c = n.
Proof. intros n c E. destruct (spec_closed h (i_sane _ _ _ _ _ _ _ _ _ V)) as (_ & _ & H3 & _). destruct (H3 n c E) as (N & _ & _ & Kc & _). auto. Qed.
Lemma b_dc : forall k, nval k -> getDefaultCertificateOfKey ct_check (impl s) k = match def_cert h k with Some n => match cert h n with Some c => Ok c | None => Err KeyError end | None => Err OtherError end.
Proof.
  intros k Vk. unfold getDefaultCertificateOfKey. rewrite (e_dc _ _ (i_view _ _ _ _ _ _ _ _ _ V) k Vk). cbn [PibProps.spec_fn f_dc]. destruct (def_cert h k) as [n|] eqn:En; [|reflexivity].
  pose proof (spec_fn_closed ct_name ct_content ct_check h (i_sane _ _ _ _ _ _ _ _ _ V)) as Cl. destruct (c_dc _ _ Cl k n Vk En) as (_ & Vn & _). rewrite (e_cert _ _ (i_view _ _ _ _ _ _ _ _ _ V) n Vn). cbn [PibProps.spec_fn f_cert]. destruct (cert h n) as [c|] eqn:E; [|reflexivity].
  destruct (b_check n c E) as [Kc _]. rewrite Kc. reflexivity.
Qed.
Lemma bool_in : forall (P : Prop) l n, (In n l <-> P) -> forall b : bool, (b = true <-> P) -> (if in_dec name_dec n l then Some tt else None) = if b then Some tt else None.
Proof. intros P l n E b B. destruct (in_dec name_dec n l) as [J|J]; destruct b; try reflexivity; exfalso; [assert (false = true); [|congruence]; tauto|assert (true = true) by reflexivity; tauto]. Qed.
Lemma yes_iff : forall A (x : option A) (a b : name), yes x && (if name_dec a b then true else false) = true <-> x <> None /\ a = b.
Proof. intros A x a b. unfold yes. destruct x, (name_dec a b); cbn; (split; [intros H; split; congruence|intros [H1 H2]; congruence]). Qed.
Lemma b_keys : forall i, nval i -> exists l, getKeysOfIdentity (impl s) i = Ok l /\ gd (set_of l) /\
  forall n, nval n -> nget (set_of l) n = if yes (key_bits h n) && (if name_dec (owner n) i then true else false) then Some tt else None.
Proof.
  intros i Vi. pose proof (i_view _ _ _ _ _ _ _ _ _ V) as Vw. pose proof (spec_fn_closed ct_name ct_content ct_check h (i_sane _ _ _ _ _ _ _ _ _ V)) as Cl. destruct (keys_in ct_name (impl s) _ i Vw Cl Vi) as (l & El & Hl & Hin). exists l. split; [exact El|].
  assert (G : gd (set_of l)). { apply set_of_gd; [intros n J; apply (Hl n J)|]. eapply nodup_keysOf; [|exact El]. apply (v_keys _ _ Vw). }
  split; [exact G|]. intros n Vn. rewrite set_of_get by assumption. eapply bool_in; [apply (Hin n Vn)|]. apply yes_iff.
Qed.
Lemma b_certs : forall k, nval k -> exists l, getCertificatesOfKey ct_name (impl s) k = Ok l /\ gd (set_of l) /\
  forall n, nval n -> nget (set_of l) n = if yes (cert h n) && (if name_dec (owner n) k then true else false) then Some tt else None.
Proof.
  intros k Vk. pose proof (i_view _ _ _ _ _ _ _ _ _ V) as Vw. pose proof (spec_fn_closed ct_name ct_content ct_check h (i_sane _ _ _ _ _ _ _ _ _ V)) as Cl. destruct (certs_in ct_name (impl s) _ k Vw Cl Vk) as (l & El & Hl & Hin). exists l. split; [exact El|].
  assert (G : gd (set_of l)). { apply set_of_gd; [exact Hl|]. eapply nodup_certificatesOf; [|exact El]. apply (v_certs _ _ Vw). }
  split; [exact G|]. intros n Vn. rewrite set_of_get by assumption. eapply bool_in; [apply (Hin n Vn)|]. apply yes_iff.
Qed.
Lemma b_exec : forall o, sane o -> exists b, exec (impl s) o = (b, outcome h o) /\ view b (spec_fn (o :: h)).
Proof. intros o So. apply exec_view; [apply (i_sane _ _ _ _ _ _ _ _ _ V)|exact So|apply (i_view _ _ _ _ _ _ _ _ _ V)]. Qed.
Lemma b_the_id : forall i r o, I i = Some (r, o) -> the_id r s = (s, Ok o).
Proof. intros i r o E. destruct (i_id _ _ _ _ _ _ _ _ _ V i r o E) as (_ & N & _). unfold the_id. rewrite N. reflexivity. Qed.
Lemma b_the_key : forall k q o, K k = Some (q, o) -> the_key q s = (s, Ok o).
Proof. intros i r o E. destruct (i_key _ _ _ _ _ _ _ _ _ V i r o E) as (_ & _ & _ & N & _). unfold the_key. rewrite N. reflexivity. Qed.
Lemma b_key_val : forall k b, key_bits h k = Some b -> a_key k /\ nval k /\ ident h (owner k) = true.
Proof. intros k b E. destruct (spec_closed h (i_sane _ _ _ _ _ _ _ _ _ V)) as (_ & H2 & _). exact (H2 k b E). Qed.
Lemma b_check_key : forall i r o k, I i = Some (r, o) -> nval k -> (key_of i k -> check_key_name o k = Ok tt) /\ (~ key_of i k -> check_key_name o k = Err ValueError).
Proof.
  intros i r o k E Vk. destruct (i_id _ _ _ _ _ _ _ _ _ V i r o E) as (Vi & _ & No & _). unfold check_key_name. rewrite No. split.
  - intros (Ni & kid & ->). destruct (a_key_owner (key_name i kid)) as [_ X]; [exists i, kid; auto|]. rewrite X, owner_key. cbn [rbind]. rewrite equals_dec by assumption. destruct (name_dec i i); congruence.
  - intros N. destruct (C53_key_name k Vk) as (b & Eb & B). destruct b.
    + destruct (proj1 B eq_refl) as (j & kid & Nj & ->). destruct (a_key_owner (key_name j kid)) as [_ X]; [exists j, kid; auto|]. rewrite X, owner_key. cbn [rbind].
      assert (Vj : nval j) by (rewrite <- (owner_key j kid); apply owner_val, Vk). rewrite equals_dec by assumption. destruct (name_dec i j) as [<-|]; [|reflexivity]. exfalso. apply N. split; [exact Nj|]. exists kid. reflexivity.
    + unfold key_extractIdentity. rewrite Eb. reflexivity.
Qed.
Lemma key_of_owner : forall i k, key_of i k -> a_key k /\ owner k = i.
Proof. intros i k (N & kid & ->). split; [exists i, kid; auto|apply owner_key]. Qed.
End B.

Ltac sm := unfold bind, ret, lift, get, put, set_id, set_key, raise; cbn [fst snd].

(** ** Keys of an identity *)
Lemma op_getKey : forall h ch I K s i r o k, Inv h ch I K s -> I i = Some (r, o) -> nval k ->
  (key_of i k -> match key_bits h k with
     | None => id_getKey ct_name ktype r k s = (s, Err OtherError)
     | Some _ => exists s' I' K' q ko o', id_getKey ct_name ktype r k s = (s', Ok q) /\ Inv h ch I' K' s' /\ ext I I' /\ ext K K' /\ I' i = Some (r, o') /\ K' k = Some (q, ko)
     end) /\
  (~ key_of i k -> id_getKey ct_name ktype r k s = (s, Err ValueError)).
Proof.
  intros h ch I K s i r o k V E Vk. destruct (b_check_key _ _ _ _ _ V i r o k E Vk) as [Ck Cn]. destruct (i_id _ _ _ _ _ _ _ _ _ V i r o E) as (Vi & Ei & D1 & D2 & D3 & D4 & D5 & D6 & D7).
  unfold id_getKey. sm. rewrite (b_the_id _ _ _ _ _ V i r o E). split; [|intros N; rewrite (Cn N); reflexivity]. intros Kk. rewrite (Ck Kk). destruct (key_of_owner i k Kk) as [Ak Ok]. rewrite (D6 k Vk). destruct (name_dec (owner k) i) as [_|]; [|contradiction].
  destruct (K k) as [[q ko]|] eqn:Ek; cbn [fst'].
  - destruct (i_key _ _ _ _ _ _ _ _ _ V k q ko Ek) as (_ & _ & _ & _ & G1 & G2 & _). rewrite G2. exists s, I, K, q, ko, o. repeat (split; [first [reflexivity|assumption|apply ext_refl]|]). assumption.
  - unfold keyimpl_load. sm. destruct (a_key_owner k Ak) as [_ X]. rewrite X. unfold ask. destruct (b_certs _ _ _ _ _ V k Vk) as (l & El & Gl & Hl). rewrite El, (b_bits _ _ _ _ _ V k Vk).
    destruct (key_bits h k) as [b|] eqn:Eb; [|reflexivity]. destruct (i_dec _ _ _ _ _ _ _ _ _ V k b Eb) as [ty Et]. rewrite Et. unfold new_key.
    assert (G : keygood h k (KeyObj (owner k) k b ty (set_of l) [] None)).
    { split; [reflexivity|]. split; [exact Eb|]. split; [exact Gl|]. split; [apply gd_nil|]. split; [exact Hl|]. split; [intros n c _ J; discriminate J|]. intros c J. discriminate J. }
    pose proof (inv_load _ _ _ _ _ _ _ _ _ _ _ _ _ _ V E Ek Vk Ak Ok G) as V'.
    do 3 eexists. exists (length (keyheap s)). do 2 eexists. split; [reflexivity|]. split; [exact V'|]. split; [eapply ext_upd, E|]. split; [apply ext_new, Ek|]. split; apply upd_same.
Qed.
Lemma op_addKey : forall h ch I K s i r o k b, Inv h ch I K s -> I i = Some (r, o) -> nval k ->
  (key_of i k -> key_bits h k = None -> (exists ty, ktype b = Ok ty) ->
     exists s' I' K' q ko o', id_addKey ct_name ct_content ct_check ord ktype r b k s = (s', Ok q) /\ Inv (AddKey i k b :: h) ch I' K' s' /\ ext I I' /\ ext K K' /\ I' i = Some (r, o') /\ K' k = Some (q, ko)) /\
  (~ key_of i k -> id_addKey ct_name ct_content ct_check ord ktype r b k s = (s, Err ValueError)).
Proof.
  intros h ch I K s i r o k b V E Vk. destruct (b_check_key _ _ _ _ _ V i r o k E Vk) as [Ck Cn]. destruct (i_id _ _ _ _ _ _ _ _ _ V i r o E) as (Vi & Ei & D1 & D2 & D3 & D4 & D5 & D6 & D7).
  unfold id_addKey. sm. rewrite (b_the_id _ _ _ _ _ V i r o E). split; [|intros N; rewrite (Cn N); reflexivity]. intros Kk Nb [ty Et]. rewrite (Ck Kk). destruct (key_of_owner i k Kk) as [Ak Ok].
  assert (Ek : K k = None). { destruct (K k) as [[q ko]|] eqn:Ek; [|reflexivity]. destruct (i_key _ _ _ _ _ _ _ _ _ V k q ko Ek) as (_ & _ & _ & _ & G1 & G2 & _). congruence. }
  unfold keyimpl_new. sm. destruct (a_key_owner k Ak) as [_ X]. rewrite X, Ok. unfold ask. cbn [w_id impl]. destruct (b_certs _ _ _ _ _ V k Vk) as (l & El & Gl & Hl). rewrite El, Et. unfold back. cbn [w_id impl].
  assert (So : sane (AddKey i k b)) by (destruct Kk as (Ni & kid & ->); cbn; eauto).
  destruct (b_exec _ _ _ _ _ V _ So) as (b' & Eb & Vb). rewrite Eb. cbn [PibSpec.outcome]. unfold new_key. cbn [w_impl w_id impl idheap keyheap p_default p_ids p_names].
  (* the state after the two assignments *)
  set (q := length (keyheap s)). set (ko := KeyObj i k b ty (set_of l) [] None).
  set (oo := IdObj (io_name o) (io_default o) (nset (io_names o) k tt) (nset (io_keys o) k q)).
  set (s' := Front b' (update (update (idheap s) r (IdObj (io_name o) (io_default o) (nset (io_names o) k tt) (io_keys o))) r oo) (keyheap s ++ [ko]) (p_default s) (p_ids s) (p_names s)).
  assert (V' : Inv (AddKey i k b :: h) ch (upd I i (r, oo)) (upd K k (q, ko)) s').
  { pose proof V as [A1 A2 A3 A4 A5 A6 A7 A8 A9 A10 A11].
    assert (Hb : forall n, key_bits (AddKey i k b :: h) n = if name_dec k n then Some b else key_bits h n) by reflexivity.
    constructor; cbn [s' impl p_ids p_names p_default idheap keyheap]; auto.
    - intros k' b0. rewrite Hb. destruct (name_dec k k') as [<-|N]; [intros [= <-]; eauto|apply A3].
    - intros n Vn. rewrite A6 by exact Vn. cbn [PibSpec.ident]. destruct (name_dec i n) as [<-|]; [rewrite D2; reflexivity|reflexivity].
    - intros j Vj. rewrite A7 by exact Vj. unfold upd. destruct (name_dec i j) as [<-|N]; [rewrite E; reflexivity|reflexivity].
    - intros r' E'. destruct (A8 r' E') as (d & x & F1 & F2). cbn [PibSpec.def_id]. rewrite F1. unfold upd. destruct (name_dec i d) as [<-|N]; [|exists d, x; destruct (name_dec i d); [contradiction|auto]]. exists i, oo. destruct (name_dec i i); [|congruence]. split; [reflexivity|]. assert (r' = r) by congruence. subst. reflexivity.
    - intros j r' x. unfold upd at 1. destruct (name_dec i j) as [<-|N].
      + intros [= <- <-]. split; [exact Vi|]. split; [eapply nth_same, nth_same, Ei|]. split; [exact D1|]. split; [cbn; destruct (name_dec i i); congruence|]. cbn [oo io_names io_keys io_default io_name].
        split; [apply gd_set; assumption|]. split; [apply gd_set; assumption|]. split; [|split].
        * intros n Vn. rewrite set_n, D5, Hb by assumption. destruct (name_dec k n) as [<-|N]; [|reflexivity]. cbn [yes]. destruct (name_dec (owner k) i); [reflexivity|contradiction].
        * intros k' V'. rewrite set_n, D6 by assumption. unfold upd. destruct (name_dec k k') as [<-|N]; [|reflexivity]. destruct (name_dec (owner k) i); [reflexivity|contradiction].
        * destruct (io_default o) as [q'|]; [|exact D7]. destruct D7 as (k' & y & F1 & F2 & F3). exists k', y. unfold upd. destruct (name_dec k k') as [<-|N]; [congruence|auto].
      + intros Ej. destruct (A9 j r' x Ej) as (Vj & Nj & B1 & B2 & B3 & B4 & B5 & B6 & B7). split; [exact Vj|]. assert (Nr : r <> r') by (intros <-; apply N; eapply (id_inj _ _ _ _ _ _ _ _ _ _ _ _ _ _ V); eassumption). split.
        * rewrite !nth_other by exact Nr. exact Nj.
        * split; [exact B1|]. split; [cbn; destruct (name_dec i j); [reflexivity|exact B2]|]. split; [exact B3|]. split; [exact B4|]. split; [|split].
          -- intros n Vn. rewrite B5, Hb by assumption. destruct (name_dec k n) as [<-|N']; [|reflexivity]. destruct (name_dec (owner k) j); [congruence|]. rewrite !andb_false_r. reflexivity.
          -- intros k' V'. rewrite B6 by assumption. unfold upd. destruct (name_dec (owner k') j); [|reflexivity]. destruct (name_dec k k') as [<-|N']; [congruence|reflexivity].
          -- destruct (io_default x) as [q'|]; [|exact B7]. destruct B7 as (k' & y & F1 & F2 & F3). exists k', y. unfold upd. destruct (name_dec k k') as [<-|N']; [congruence|auto].
    - intros j. unfold upd. destruct (name_dec i j) as [<-|N]; [discriminate|auto].
    - intros k' q' x. unfold upd at 1. destruct (name_dec k k') as [<-|N].
      + intros [= <- <-]. split; [exact Vk|]. split; [exact Ak|]. split; [unfold upd; destruct (name_dec i (owner k)); [discriminate|congruence]|]. split; [apply nth_new|].
        split; [reflexivity|]. split; [rewrite Hb; destruct (name_dec k k); [reflexivity|congruence]|]. split; [exact Gl|]. split; [apply gd_nil|]. split; [exact Hl|]. split; [intros n c _ J; discriminate J|]. intros c J. discriminate J.
      + intros Ex. destruct (A11 k' q' x Ex) as (B1 & B2 & B3 & B4 & B5). split; [exact B1|]. split; [exact B2|]. split; [unfold upd; destruct (name_dec i (owner k')); [discriminate|exact B3]|]. split; [apply nth_old, B4|].
        destruct B5 as (F1 & F2 & F3). split; [exact F1|]. split; [rewrite Hb; destruct (name_dec k k'); [congruence|exact F2]|exact F3]. }
  change (w_id (Front b' (update (idheap s) r (IdObj (io_name o) (io_default o) (nset (io_names o) k tt) (io_keys o))) (keyheap s ++ [ko]) (p_default s) (p_ids s) (p_names s)) r oo) with s'.
  destruct (op_getKey _ _ _ _ _ i r oo k V' (upd_same _ _ _ _) Vk) as [Gk _]. specialize (Gk Kk). cbn [PibSpec.key_bits] in Gk. destruct (name_dec k k) as [_|]; [|congruence].
  destruct Gk as (s2 & I2 & K2 & q2 & ko2 & o2 & G1 & G2 & G3 & G4 & G5 & G6). exists s2, I2, K2, q2, ko2, o2. split; [exact G1|]. split; [exact G2|]. split; [eapply ext_trans; [eapply ext_upd, E|exact G3]|]. split; [eapply ext_trans; [apply ext_new, Ek|exact G4]|]. auto.
Qed.
End F.
