(** * Pib and its containers: every call keeps the invariant (end) *)
From Verif Require Import Base BaseLemmas NameModel NameSpec NameProofs DictModel DictProofs CertProofs HierModel HierSpec HierProps PibModel PibSpec PibProps FrontModel FrontSpec FrontProofs FrontProofs2 FrontProofs3.
From Coq Require Import Permutation.

Section F.
Context {C : Type}.
Variable ct_name : C -> name.
Variable ct_content : C -> bytes.
Variable ct_check : C -> res unit.
Variable ord : list name -> list name.
Variable ktype : bytes -> res Z.
Hypothesis Ho : forall l, Permutation l (ord l).
Notation pib := (pib C).
Notation call := (call C).
Notation front := (front C).
Notation keyobj := (keyobj C).
Notation exec := (exec ct_name ct_content ct_check ord).
Notation sane := (sane ct_name ct_check).
Notation ident := (ident ct_name).
Notation def_id := (def_id ct_name).
Notation key_bits := (key_bits ct_name ct_content).
Notation cert := (cert ct_name).
Notation def_key := (def_key ct_name ct_content).
Notation def_cert := (def_cert ct_name).
Notation outcome := (outcome ct_name ct_content).
Notation spec_fn := (spec_fn ct_name ct_content).
Notation nget := (dget n_equals).
Notation nset := (dset n_equals).
Notation ndrop := (dremove n_equals).
Notation Inv := (Inv ct_name ct_content ct_check ktype).
Notation idgood := (idgood ct_name ct_content).
Notation keygood := (keygood ct_name ct_content).
Notation exec_view := (exec_view ct_name ct_content ct_check ord Ho).
Notation spec_closed := (spec_closed ct_name ct_content ct_check).


Ltac sm := unfold set_id, set_key, bind, ret, lift, get, put, raise; cbn [fst snd].
Notation b_exec := (b_exec ct_name ct_content ct_check ord ktype Ho).
Lemma no_id : forall h ch I K s i, Inv h ch I K s -> ident h i = false -> I i = None.
Proof. intros h ch I K s i V E. destruct (I i) as [[r o]|] eqn:Ei; [|reflexivity]. destruct (i_id _ _ _ _ _ _ _ _ _ V i r o Ei) as (_ & _ & _ & X & _). congruence. Qed.
Lemma op_getIdentity : forall h ch I K s i, Inv h ch I K s -> nval i ->
  if ident h i then exists s' I' r o, getIdentity ct_name ct_content ct_check ord i s = (s', Ok r) /\ Inv h ch I' K s' /\ ext I I' /\ I' i = Some (r, o) else getIdentity ct_name ct_content ct_check ord i s = (s, Err OtherError).
Proof.
  intros h ch I K s i V Vi. unfold getIdentity. sm. rewrite (i_pids _ _ _ _ _ _ _ _ _ V i Vi). destruct (I i) as [[r o]|] eqn:E; cbn [fst'].
  - destruct (i_id _ _ _ _ _ _ _ _ _ V i r o E) as (_ & _ & _ & X & _). rewrite X. exists s, I, r, o. split; [reflexivity|]. split; [exact V|]. split; [apply ext_refl|exact E].
  - unfold idimpl_new. sm. unfold ask. destruct (b_keys _ _ _ _ _ _ _ _ _ V i Vi) as (l & El & Gl & Hl). rewrite El, (b_has _ _ _ _ _ _ _ _ _ V i Vi). destruct (ident h i) eqn:Ei; [|reflexivity]. unfold new_id.
    pose proof (inv_loadid _ _ _ _ _ _ _ _ _ i _ V E Vi Ei Gl Hl) as V'. do 2 eexists. exists (length (idheap s)). eexists. split; [reflexivity|]. split; [exact V'|]. split; [apply ext_new, E|apply upd_same].
Qed.
Lemma op_addIdentity : forall h ch I K s i, Inv h ch I K s -> nval i ->
  exists s' I' r o, addIdentity_ ct_name ct_content ct_check ord i s = (s', Ok r) /\ Inv (if ident h i then h else AddIdentity i :: h) ch I' K s' /\ ext I I' /\ I' i = Some (r, o).
Proof.
  intros h ch I K s i V Vi. unfold addIdentity_. sm. rewrite din_get, (i_names _ _ _ _ _ _ _ _ _ V i Vi). pose proof (op_getIdentity _ _ _ _ _ i V Vi) as G. destruct (ident h i) eqn:Ei; [exact G|]. clear G.
  unfold idimpl_new. sm. unfold ask. cbn [w_ids impl]. destruct (b_keys _ _ _ _ _ _ _ _ _ V i Vi) as (l & El & Gl & Hl). rewrite El. unfold back. cbn [w_ids impl]. destruct (b_exec _ _ _ _ _ V (AddIdentity i) Vi) as (b' & Eb & Vb). rewrite Eb. cbn [PibSpec.outcome]. unfold new_id. cbn [w_impl w_ids impl idheap keyheap p_default p_ids p_names].
  pose proof (no_id _ _ _ _ _ i V Ei) as E.
  assert (V1 : Inv (AddIdentity i :: h) ch I K (Front b' (idheap s) (keyheap s) (p_default s) (p_ids s) (nset (p_names s) i tt))).
  { destruct V as [A1 A2 A3 A4 A5 A6 A7 A8 A9 A10 A11]. constructor; cbn [impl p_ids p_names p_default idheap keyheap]; auto using gd_set.
    - intros n Vn. rewrite set_n, A6 by assumption. cbn [PibSpec.ident]. destruct (name_dec i n); reflexivity.
    - intros r' E'. destruct (A8 r' E') as (d & x & F1 & F2). exists d, x. cbn [PibSpec.def_id]. rewrite F1. auto.
    - intros j r o Ej. destruct (A9 j r o Ej) as (B1 & B2 & B3 & B4 & B5). split; [exact B1|]. split; [exact B2|]. split; [exact B3|]. split; [cbn; destruct (name_dec i j); [reflexivity|exact B4]|exact B5]. }
  assert (Ei' : ident (AddIdentity i :: h) i = true) by (cbn; destruct (name_dec i i); congruence).
  pose proof (inv_loadid _ _ _ _ _ _ _ _ _ i _ V1 E Vi Ei' Gl Hl) as V2. unfold w_idl in V2. cbn [impl idheap keyheap p_default p_ids p_names] in V2.
  pose proof (op_getIdentity _ _ _ _ _ i V2 Vi) as G. rewrite Ei' in G. destruct G as (s3 & I3 & r3 & o3 & G1 & G2 & G3 & G4). exists s3, I3, r3, o3. split; [exact G1|]. split; [exact G2|]. split; [eapply ext_trans; [apply ext_new, E|exact G3]|exact G4].
Qed.
Definition dropk (i : name) (K : name -> option (nat * keyobj)) : name -> option (nat * keyobj) := fun k => if name_dec (owner k) i then None else K k.
Definition noid (i : name) (ch : name -> option name) : name -> option name := fun j => if name_dec i j then None else ch j.
Lemma op_removeIdentity : forall h ch I K s i, Inv h ch I K s -> nval i ->
  exists s', removeIdentity_ ct_name ct_content ct_check ord i s = (s', Ok tt) /\ Inv (RemoveIdentity i :: h) (noid i ch) (del I i) (dropk i K) s'.
Proof.
  intros h ch I K s i V Vi. pose proof V as [A1 A2 A3 A4 A5 A6 A7 A8 A9 A10 A11]. unfold removeIdentity_.
  set (d := match p_default s with None => None | Some r => match nth_error (idheap s) r with Some o => if n_equals (io_name o) i then None else Some r | None => None end end).
  assert (Hd : (match p_default s with None => ret None | Some r => bind (the_id r) (fun o => ret (if n_equals (io_name o) i then None else Some r)) end) s = (s, Ok d)).
  { unfold d. destruct (p_default s) as [r|]; [|reflexivity]. destruct (A8 r eq_refl) as (dd & o & F1 & F2). unfold bind. rewrite (b_the_id _ _ _ _ _ _ _ _ _ V dd r o F2). destruct (A9 dd r o F2) as (_ & -> & _). reflexivity. }
  rewrite (bind_k _ _ _ _ _ _ _ _ (eq_refl : get p_default s = (s, Ok (p_default s)))), (bind_k _ _ _ _ _ _ _ _ Hd). sm. unfold back. cbn [w_default w_ids impl idheap keyheap p_default p_ids p_names].
  destruct (b_exec _ _ _ _ _ V (RemoveIdentity i) Vi) as (b' & Eb & Vb). rewrite Eb. cbn [PibSpec.outcome]. eexists. split; [reflexivity|].
  assert (Hb : forall n, key_bits (RemoveIdentity i :: h) n = if name_dec (owner n) i then None else key_bits h n) by reflexivity.
  assert (Hc : forall n, cert (RemoveIdentity i :: h) n = if name_dec (owner (owner n)) i then None else cert h n) by reflexivity.
  constructor; cbn [w_impl w_default w_ids impl p_ids p_names p_default idheap keyheap]; auto using gd_drop.
  - intros k b. rewrite Hb. destruct (name_dec (owner k) i); [discriminate|apply A3].
  - intros n Vn. rewrite drop_n, A6 by assumption. cbn [PibSpec.ident]. destruct (name_dec i n); reflexivity.
  - intros j Vj. rewrite drop_n, A7 by assumption. unfold del. destruct (name_dec i j); reflexivity.
  - intros r Er. unfold d in Er. destruct (p_default s) as [r0|]; [|discriminate Er]. destruct (A8 r0 eq_refl) as (dd & o & F1 & F2). destruct (A9 dd r0 o F2) as (G1 & G2 & G3 & _). rewrite G2, G3, (equals_dec dd i G1 Vi) in Er. destruct (name_dec dd i) as [|N]; [discriminate Er|]. injection Er as <-.
    exists dd, o. cbn [PibSpec.def_id]. rewrite F1. unfold del. destruct (name_dec i dd); [congruence|auto].
  - intros j r o. unfold del. destruct (name_dec i j) as [|N]; [discriminate|]. intros Ej. destruct (A9 j r o Ej) as (B1 & B2 & B3 & B4 & B5 & B6 & B7 & B8 & B9). split; [exact B1|]. split; [exact B2|]. split; [exact B3|]. split; [cbn; destruct (name_dec i j); [contradiction|exact B4]|]. split; [exact B5|]. split; [exact B6|]. split; [|split].
    + intros n Vn. rewrite B7, Hb by exact Vn. destruct (name_dec (owner n) i) as [Z|]; [|reflexivity]. destruct (name_dec (owner n) j); [congruence|]. rewrite !andb_false_r. reflexivity.
    + intros k Vk. rewrite B8 by exact Vk. destruct (name_dec (owner k) j); [|reflexivity]. unfold dropk. destruct (name_dec (owner k) i); [congruence|reflexivity].
    + unfold noid. destruct (name_dec i j); [contradiction|]. destruct (io_default o) as [q|]; [|exact B9]. destruct B9 as (k & ko & F1 & F2 & F3). exists k, ko. split; [exact F1|]. split; [|exact F3]. unfold dropk. destruct (name_dec (owner k) i); [congruence|exact F2].
  - intros j. unfold del, noid. destruct (name_dec i j); [reflexivity|auto].
  - intros k q ko. unfold dropk. destruct (name_dec (owner k) i) as [|N]; [discriminate|]. intros Ek. destruct (A11 k q ko Ek) as (B1 & B2 & B3 & B4 & B5). split; [exact B1|]. split; [exact B2|]. split; [unfold del; destruct (name_dec i (owner k)); [congruence|exact B3]|]. split; [exact B4|].
    destruct B5 as (F1 & F2 & F3 & F4 & F5 & F6 & F7). split; [exact F1|]. split; [rewrite Hb; destruct (name_dec (owner k) i); [contradiction|exact F2]|]. split; [exact F3|]. split; [exact F4|]. split; [|split].
    + intros n Vn. rewrite F5, Hc by exact Vn. destruct (name_dec (owner (owner n)) i) as [Z|]; [|reflexivity]. destruct (name_dec (owner n) k); [congruence|]. rewrite !andb_false_r. reflexivity.
    + intros n c Vn Ec. destruct (F6 n c Vn Ec) as [G1 G2]. split; [|exact G2]. rewrite Hc. destruct (name_dec (owner (owner n)) i); [congruence|exact G1].
    + intros c Ec. destruct (F7 c Ec) as [G1 G2]. cbn [PibSpec.def_cert]. destruct (name_dec (owner k) i); [contradiction|]. split; [exact G1|]. rewrite Hc. destruct (spec_closed h A1) as (_ & _ & _ & _ & H5). destruct (H5 _ _ G1) as [O _]. rewrite O. destruct (name_dec (owner k) i); [contradiction|exact G2].
Qed.
Lemma op_setDefaultIdentity : forall h ch I K s i, Inv h ch I K s -> nval i ->
  exists s' I' r o, setDefaultIdentity_ ct_name ct_content ct_check ord i s = (s', Ok r) /\ Inv (SetDefaultIdentity i :: h) ch I' K s' /\ ext I I' /\ I' i = Some (r, o).
Proof.
  intros h ch I K s i V Vi. destruct (op_addIdentity _ _ _ _ _ i V Vi) as (s1 & I1 & r & o & G1 & G2 & G3 & G4). unfold setDefaultIdentity_. rewrite (bind_k _ _ _ _ _ _ _ _ G1). sm. unfold back. cbn [w_default impl].
  set (h1 := if ident h i then h else AddIdentity i :: h) in *. destruct (b_exec _ _ _ _ _ G2 (SetDefaultIdentity i) Vi) as (b' & Eb & Vb). rewrite Eb. cbn [PibSpec.outcome]. do 2 eexists. exists r, o. split; [reflexivity|]. split; [|split; [exact G3|exact G4]].
  assert (V1 : Inv (SetDefaultIdentity i :: h1) ch I1 K (w_impl (w_default s1 (Some r)) b')).
  { destruct G2 as [A1 A2 A3 A4 A5 A6 A7 A8 A9 A10 A11]. assert (X : ident h1 i = true) by (unfold h1; destruct (ident h i) eqn:Ei; [exact Ei|cbn; destruct (name_dec i i); congruence]).
    constructor; cbn [w_impl w_default impl p_ids p_names p_default idheap keyheap]; auto.
    - intros n Vn. rewrite A6 by exact Vn. cbn [PibSpec.ident]. destruct (name_dec i n) as [<-|]; [rewrite X; reflexivity|reflexivity].
    - intros r' [= <-]. exists i, o. split; [reflexivity|exact G4].
    - intros j r' o' Ej. destruct (A9 j r' o' Ej) as (B1 & B2 & B3 & B4 & B5). split; [exact B1|]. split; [exact B2|]. split; [exact B3|]. split; [cbn; destruct (name_dec i j); [reflexivity|exact B4]|exact B5]. }
  eapply inv_hist; [exact V1|constructor; [exact Vi|apply (i_sane _ _ _ _ _ _ _ _ _ V)]|..]; unfold h1; destruct (ident h i) eqn:Ei; try reflexivity.
  intros n. cbn [PibSpec.ident]. destruct (name_dec i n); reflexivity.
Qed.
Lemma op_getDefaultIdentity : forall h ch I K s, Inv h ch I K s ->
  match def_id h with
  | Some d => exists s' I' r o, getDefaultIdentity_ ct_name ct_content ct_check ord s = (s', Ok r) /\ Inv h ch I' K s' /\ ext I I' /\ I' d = Some (r, o)
  | None => getDefaultIdentity_ ct_name ct_content ct_check ord s = (s, Err OtherError)
  end.
Proof.
  intros h ch I K s V. unfold getDefaultIdentity_. rewrite (bind_k _ _ _ _ _ _ _ _ (eq_refl : get p_default s = (s, Ok (p_default s)))). destruct (p_default s) as [r|] eqn:Ep.
  - destruct (i_def _ _ _ _ _ _ _ _ _ V r Ep) as (d & o & F1 & F2). rewrite F1. exists s, I, r, o. split; [reflexivity|]. split; [exact V|]. split; [apply ext_refl|exact F2].
  - sm. unfold ask. rewrite (b_def _ _ _ _ _ _ _ _ _ V). destruct (def_id h) as [d|] eqn:Ed; [|reflexivity]. destruct (spec_closed h (i_sane _ _ _ _ _ _ _ _ _ V)) as (H1 & _). pose proof (def_id_val ct_name ct_check h d (i_sane _ _ _ _ _ _ _ _ _ V) Ed) as Vd.
    pose proof (op_getIdentity _ _ _ _ _ d V Vd) as G. rewrite (H1 d Ed) in G. destruct G as (s1 & I1 & r & o & G1 & G2 & G3 & G4). rewrite G1. do 2 eexists. exists r, o. split; [reflexivity|]. split; [|split; [exact G3|exact G4]].
    destruct G2 as [A1 A2 A3 A4 A5 A6 A7 A8 A9 A10 A11]. constructor; cbn [w_default impl p_ids p_names p_default idheap keyheap]; auto. intros r' [= <-]. exists d, o. auto.
Qed.
Lemma op_reset : forall h ch I K s, Inv h ch I K s ->
  exists s', reset_ ct_name ct_content ct_check ord s = (s', Ok tt) /\ Inv (Clear :: h) (fun _ => None) (fun _ => None) (fun _ => None) s'.
Proof.
  intros h ch I K s V. unfold reset_. sm. unfold back. cbn [PibModel.exec w_impl w_default w_ids impl idheap keyheap p_default p_ids p_names]. eexists. split; [reflexivity|]. constructor; cbn; auto using gd_nil; try (intros; discriminate).
  - constructor; [exact Logic.I|apply (i_sane _ _ _ _ _ _ _ _ _ V)].
  - constructor; cbn; auto using gd_nil.
Qed.

(** ** Certificates of a key *)
Lemma b_check_cert : forall (ko : keyobj) k n, ko_name ko = k -> nval k -> a_key k -> nval n ->
  (cert_of_key k n -> check_cert_name ko n = Ok tt) /\ (~ cert_of_key k n -> check_cert_name ko n = Err ValueError).
Proof.
  intros ko k n Ek Vk Ak Vn. unfold check_cert_name. rewrite Ek. split.
  - intros [Ac O]. destruct (a_cert_owner n Ac) as (_ & X & _). destruct (C53_certificate_name n Vn) as (b & Eb & B). destruct Ac as (i & kid & s & v & Ni & En). destruct b.
    + rewrite Eb. cbn [rbind negb]. rewrite X. cbn [rbind]. rewrite O, equals_dec by assumption. destruct (name_dec k k); congruence.
    + exfalso. assert (false = true); [|congruence]. apply B. exists i, kid, s, v. exact En.
  - intros N. destruct (C53_certificate_name n Vn) as (b & Eb & B). rewrite Eb. cbn [rbind]. destruct b; [|reflexivity]. cbn [negb]. destruct (proj1 B eq_refl) as (i & kid & iss & v & En). destruct (C53_certificate_parts i kid iss v) as (_ & X & _). cbv zeta in X. rewrite En, X. cbn [rbind].
    assert (Vki : nval (key_name i kid)). { rewrite <- (owner_cert i kid iss v), <- En. apply owner_val, Vn. }
    rewrite equals_dec by assumption. destruct (name_dec (key_name i kid) k) as [Z|]; [|reflexivity]. exfalso. apply N. split; [|rewrite En, owner_cert; exact Z].
    exists i, kid, iss, v. split; [|exact En]. intros ->. destruct Ak as (j & kid' & Nj & Y). rewrite Y in Z. unfold key_name in Z. destruct j as [|a j]; [congruence|]. cbn in Z. injection Z as _ Z2. destruct j; [discriminate Z2|]. cbn in Z2. injection Z2 as _ Z2. destruct j; discriminate Z2.
Qed.
Lemma op_getCert : forall h ch I K s k q ko n, Inv h ch I K s -> K k = Some (q, ko) -> nval n ->
  (cert_of_key k n -> match cert h n with
     | None => key_getCertificate ct_check q n s = (s, Err OtherError)
     | Some c => exists s' ko', key_getCertificate ct_check q n s = (s', Ok c) /\ Inv h ch I (upd K k (q, ko')) s'
     end) /\
  (~ cert_of_key k n -> key_getCertificate ct_check q n s = (s, Err ValueError)).
Proof.
  intros h ch I K s k q ko n V E Vn. destruct (i_key _ _ _ _ _ _ _ _ _ V k q ko E) as (Vk & Ak & _ & _ & G1 & G2 & G3 & G4 & G5 & G6 & G7). destruct (b_check_cert ko k n G1 Vk Ak Vn) as [Ck Cn].
  unfold key_getCertificate. rewrite (bind_k _ _ _ _ _ _ _ _ (b_the_key _ _ _ _ _ _ _ _ _ V k q ko E)). destruct (nget (ko_certs ko) n) as [c|] eqn:Ec.
  - destruct (G6 n c Vn Ec) as [Hc Oc]. destruct (b_check _ _ _ _ _ _ _ _ _ V n c Hc) as [Kc Nc]. split.
    + intros _. rewrite Hc. sm. rewrite Kc. exists s, ko. split; [reflexivity|]. replace s with (w_key s q ko) at 1; [|]. 
      * eapply inv_key; [exact V|exact E|]. split; [exact G1|]. auto 10.
      * unfold w_key. destruct s as [x1 x2 x3 x4 x5 x6]. cbn [impl idheap keyheap p_default p_ids p_names]. f_equal. destruct (i_key _ _ _ _ _ _ _ _ _ V k q ko E) as (_ & _ & _ & Nq & _). cbn [keyheap] in Nq. clear - Nq. revert q Nq. induction x3 as [|y x3 IH]; intros [|q] Nq; cbn in *; try discriminate Nq; [congruence|]. f_equal. apply IH, Nq.
    + intros N. exfalso. apply N. split; [|exact Oc]. destruct (spec_closed h (i_sane _ _ _ _ _ _ _ _ _ V)) as (_ & _ & H3 & _). apply (H3 n c Hc).
  - sm. split; [|intros N; rewrite (Cn N); reflexivity]. intros Kk. rewrite (Ck Kk). unfold ask. rewrite (b_cert _ _ _ _ _ _ _ _ _ V n Vn). destruct (cert h n) as [c|] eqn:Hc; [|reflexivity]. destruct (b_check _ _ _ _ _ _ _ _ _ V n c Hc) as [Kc Nc]. rewrite Kc.
    do 2 eexists. split; [reflexivity|]. eapply inv_key; [exact V|exact E|]. split; [exact G1|]. cbn [ko_bits ko_names ko_certs ko_default]. split; [exact G2|]. split; [exact G3|]. split; [apply gd_set; assumption|]. split; [exact G5|]. split; [|exact G7].
    intros m x Vm. rewrite set_n by assumption. destruct (name_dec n m) as [<-|]; [intros [= <-]; split; [exact Hc|apply Kk]|apply G6, Vm].
Qed.
Lemma op_addCert : forall h ch I K s k q ko c, Inv h ch I K s -> K k = Some (q, ko) -> nval (ct_name c) -> a_cert (ct_name c) ->
  (owner (ct_name c) = k -> ct_check c = Ok tt -> key_bits h k = Some (ct_content c) -> (forall x, cert h (ct_name c) = Some x -> x = c) ->
     exists s' ko', key_addCertificate ct_name ct_content ct_check ord q c s = (s', Ok tt) /\ Inv (AddCert c :: h) ch I (upd K k (q, ko')) s') /\
  (owner (ct_name c) <> k -> key_addCertificate ct_name ct_content ct_check ord q c s = (s, Err ValueError)).
Proof.
  intros h ch I K s k q ko c V E Vc Ac. pose proof (i_key _ _ _ _ _ _ _ _ _ V k q ko E) as (Vk & Ak & Ik & Nq & G1 & G2 & G3 & G4 & G5 & G6 & G7). destruct (a_cert_owner _ Ac) as (_ & _ & Xk & Xi). pose proof (owner_val _ Vc) as Vo.
  unfold key_addCertificate. rewrite (bind_k _ _ _ _ _ _ _ _ (b_the_key _ _ _ _ _ _ _ _ _ V k q ko E)). sm. rewrite Xk, G1, (equals_dec k _ Vk Vo). split; [|intros N; destruct (name_dec k (owner (ct_name c))); [congruence|reflexivity]].
  intros Oc Kc Hb Hx. destruct (name_dec k (owner (ct_name c))) as [_|]; [|congruence]. cbn [negb]. rewrite Kc. unfold back. cbn [w_key impl idheap keyheap p_default p_ids p_names]. assert (So : sane (AddCert c)) by (split; [exact Vc|split; assumption]).
  destruct (b_exec _ _ _ _ _ V _ So) as (b' & Eb & Vb). rewrite Eb. cbn [PibSpec.outcome w_impl w_key impl idheap keyheap p_default p_ids p_names]. eexists. exists (KeyObj (ko_identity ko) k (ko_bits ko) (ko_type ko) (nset (ko_names ko) (ct_name c) tt) (nset (ko_certs ko) (ct_name c) c) (ko_default ko)). split; [reflexivity|].
  pose proof V as [A1 A2 A3 A4 A5 A6 A7 A8 A9 A10 A11]. destruct (b_key_val _ _ _ _ _ _ _ _ _ V k _ Hb) as (_ & _ & Ido).
  assert (Hk : forall n, key_bits (AddCert c :: h) n = key_bits h n). { intros n. cbn [PibSpec.key_bits]. destruct (name_dec (owner (ct_name c)) n) as [<-|]; [rewrite Oc; congruence|reflexivity]. }
  assert (Hc : forall n, cert (AddCert c :: h) n = if name_dec (ct_name c) n then Some c else cert h n) by reflexivity.
  assert (Hi : forall n, ident (AddCert c :: h) n = ident h n). { intros n. cbn [PibSpec.ident]. rewrite Oc. destruct (name_dec (owner k) n) as [<-|]; [congruence|reflexivity]. }
  constructor; cbn [w_impl w_key impl p_ids p_names p_default idheap keyheap]; auto.
  - intros k' b. rewrite Hk. apply A3.
  - intros n Vn. rewrite Hi. auto.
  - intros r Er. destruct (A8 r Er) as (d & o & F1 & F2). exists d, o. cbn [PibSpec.def_id]. rewrite F1. auto.
  - intros i r o Ei. destruct (A9 i r o Ei) as (B1 & B2 & B3 & B4 & B5 & B6 & B7 & B8 & B9). split; [exact B1|]. split; [exact B2|]. split; [exact B3|]. split; [rewrite Hi; exact B4|]. split; [exact B5|]. split; [exact B6|]. split; [|split].
    + intros n Vn. rewrite Hk. auto.
    + intros k' V'. rewrite B8 by exact V'. destruct (name_dec (owner k') i); [|reflexivity]. unfold upd. destruct (name_dec k k') as [<-|]; [rewrite E; reflexivity|reflexivity].
    + destruct (io_default o) as [q'|]; [|exact B9]. destruct B9 as (k' & x & F1 & F2 & F3). unfold upd. destruct (name_dec k k') as [<-|N]; [|exists k', x; destruct (name_dec k k'); [contradiction|auto]]. eexists k, _. destruct (name_dec k k); [|congruence]. split; [exact F1|]. split; [|exact F3]. assert (q' = q) by congruence. subst q'. reflexivity.
  - intros k' q' x. unfold upd. destruct (name_dec k k') as [<-|N].
    + intros [= <- <-]. split; [exact Vk|]. split; [exact Ak|]. split; [exact Ik|]. split; [eapply nth_same, nth_same, Nq|]. split; [reflexivity|]. split; [rewrite Hk; exact G2|]. cbn [ko_names ko_certs ko_default ko_bits]. split; [apply gd_set; assumption|]. split; [apply gd_set; assumption|]. split; [|split].
      * intros n Vn. rewrite set_n, G5, Hc by assumption. destruct (name_dec (ct_name c) n) as [<-|]; [|reflexivity]. cbn [yes]. destruct (name_dec (owner (ct_name c)) k); [reflexivity|contradiction].
      * intros n y Vn. rewrite set_n, Hc by assumption. destruct (name_dec (ct_name c) n) as [<-|]; [intros [= <-]; auto|apply G6, Vn].
      * intros y Ey. destruct (G7 y Ey) as [F1 F2]. split; [cbn [PibSpec.def_cert]; rewrite F1; reflexivity|]. rewrite Hc. destruct (name_dec (ct_name c) (ct_name y)) as [Z|]; [|exact F2]. f_equal. symmetry. apply Hx. rewrite Z. exact F2.
    + intros Ex. destruct (A11 k' q' x Ex) as (B1 & B2 & B3 & B4 & B5). split; [exact B1|]. split; [exact B2|]. split; [exact B3|]. assert (Nqq : q <> q') by (intros <-; apply N; eapply (key_inj _ _ _ _ _ _ _ _ _ _ _ _ _ _ V); eassumption). split; [rewrite !nth_other by exact Nqq; exact B4|].
      destruct B5 as (F1 & F2 & F3 & F4 & F5 & F6 & F7). split; [exact F1|]. split; [rewrite Hk; exact F2|]. split; [exact F3|]. split; [exact F4|]. split; [|split].
      * intros n Vn. rewrite F5, Hc by exact Vn. destruct (name_dec (ct_name c) n) as [<-|]; [|reflexivity]. destruct (name_dec (owner (ct_name c)) k'); [congruence|]. rewrite !andb_false_r. reflexivity.
      * intros n y Vn Ey. destruct (F6 n y Vn Ey) as [H1 H2]. split; [|exact H2]. rewrite Hc. destruct (name_dec (ct_name c) n) as [<-|]; [congruence|exact H1].
      * intros y Ey. destruct (F7 y Ey) as [H1 H2]. split; [cbn [PibSpec.def_cert]; rewrite H1; reflexivity|]. rewrite Hc. destruct (name_dec (ct_name c) (ct_name y)) as [Z|]; [|exact H2]. f_equal. symmetry. apply Hx. rewrite Z. exact H2.
Qed.
Lemma op_removeCert : forall h ch I K s k q ko n, Inv h ch I K s -> K k = Some (q, ko) -> nval n ->
  (cert_of_key k n -> exists s' ko', key_removeCertificate ct_name ct_content ct_check ord q n s = (s', Ok tt) /\ Inv (RemoveCert n :: h) ch I (upd K k (q, ko')) s') /\
  (~ cert_of_key k n -> exists s' ko', key_removeCertificate ct_name ct_content ct_check ord q n s = (s', Err ValueError) /\ Inv h ch I (upd K k (q, ko')) s').
Proof.
  intros h ch I K s k q ko n V E Vn. pose proof (i_key _ _ _ _ _ _ _ _ _ V k q ko E) as (Vk & Ak & Ik & Nq & G1 & G2 & G3 & G4 & G5 & G6 & G7). destruct (b_check_cert ko k n G1 Vk Ak Vn) as [Ck Cn]. pose proof V as [A1 A2 A3 A4 A5 A6 A7 A8 A9 A10 A11].
  unfold key_removeCertificate. rewrite (bind_k _ _ _ _ _ _ _ _ (b_the_key _ _ _ _ _ _ _ _ _ V k q ko E)). set (d := match ko_default ko with Some c => if n_equals (ct_name c) n then None else Some c | None => None end). cbv zeta.
  assert (Hd : forall c, d = Some c -> ko_default ko = Some c /\ ct_name c <> n).
  { intros c Ed. unfold d in Ed. destruct (ko_default ko) as [x|] eqn:Ex; [|discriminate Ed]. destruct (n_equals (ct_name x) n) eqn:Ee; [discriminate Ed|]. injection Ed as ->. split; [reflexivity|]. intros Z. destruct (G7 c eq_refl) as [_ F2]. rewrite Z, equals_dec in Ee by assumption. destruct (name_dec n n); congruence. }
  split.
  - intros Kk. sm. rewrite (Ck Kk). unfold back. cbn [w_key impl idheap keyheap p_default p_ids p_names]. assert (So : sane (RemoveCert n)) by (split; [exact Vn|apply Kk]). destruct Kk as [Ac Oc].
    destruct (b_exec _ _ _ _ _ V _ So) as (b' & Eb & Vb). rewrite Eb. cbn [PibSpec.outcome w_impl w_key impl idheap keyheap p_default p_ids p_names]. eexists. exists (KeyObj (ko_identity ko) (ko_name ko) (ko_bits ko) (ko_type ko) (ndrop (ko_names ko) n) (ndrop (ko_certs ko) n) d). split; [reflexivity|].
    assert (Hc : forall m, cert (RemoveCert n :: h) m = if name_dec n m then None else cert h m) by reflexivity.
    constructor; cbn [w_impl w_key impl p_ids p_names p_default idheap keyheap]; auto.
    + intros i r o Ei. destruct (A9 i r o Ei) as (B1 & B2 & B3 & B4 & B5 & B6 & B7 & B8 & B9). split; [exact B1|]. split; [exact B2|]. split; [exact B3|]. split; [exact B4|]. split; [exact B5|]. split; [exact B6|]. split; [exact B7|]. split.
      * intros k' V'. rewrite B8 by exact V'. destruct (name_dec (owner k') i); [|reflexivity]. unfold upd. destruct (name_dec k k') as [<-|]; [rewrite E; reflexivity|reflexivity].
      * destruct (io_default o) as [q'|]; [|exact B9]. destruct B9 as (k' & x & F1 & F2 & F3). unfold upd. destruct (name_dec k k') as [<-|N]; [|exists k', x; destruct (name_dec k k'); [contradiction|auto]]. eexists k, _. destruct (name_dec k k); [|congruence]. split; [exact F1|]. split; [|exact F3]. assert (q' = q) by congruence. subst q'. reflexivity.
    + intros k' q' x. unfold upd. destruct (name_dec k k') as [<-|N].
      * intros [= <- <-]. split; [exact Vk|]. split; [exact Ak|]. split; [exact Ik|]. split; [eapply nth_same, nth_same, Nq|]. split; [exact G1|]. split; [exact G2|]. cbn [ko_names ko_certs ko_default ko_bits]. split; [apply gd_drop; assumption|]. split; [apply gd_drop; assumption|]. split; [|split].
        -- intros m Vm. rewrite drop_n, G5, Hc by assumption. destruct (name_dec n m); reflexivity.
        -- intros m y Vm. rewrite drop_n, Hc by assumption. destruct (name_dec n m); [discriminate|apply G6, Vm].
        -- intros y Ey. destruct (Hd y Ey) as [Ed Nd]. destruct (G7 y Ed) as [F1 F2]. cbn [PibSpec.def_cert]. rewrite F1, Hc. destruct (name_dec n (ct_name y)); [congruence|auto].
      * intros Ex. destruct (A11 k' q' x Ex) as (B1 & B2 & B3 & B4 & B5). split; [exact B1|]. split; [exact B2|]. split; [exact B3|]. assert (Nqq : q <> q') by (intros <-; apply N; eapply (key_inj _ _ _ _ _ _ _ _ _ _ _ _ _ _ V); eassumption). split; [rewrite !nth_other by exact Nqq; exact B4|].
        destruct B5 as (F1 & F2 & F3 & F4 & F5 & F6 & F7). split; [exact F1|]. split; [exact F2|]. split; [exact F3|]. split; [exact F4|]. split; [|split].
        -- intros m Vm. rewrite F5, Hc by exact Vm. destruct (name_dec n m) as [<-|]; [|reflexivity]. destruct (name_dec (owner n) k'); [congruence|]. rewrite !andb_false_r. reflexivity.
        -- intros m y Vm Ey. destruct (F6 m y Vm Ey) as [H1 H2]. split; [|exact H2]. rewrite Hc. destruct (name_dec n m) as [<-|]; [congruence|exact H1].
        -- intros y Ey. destruct (F7 y Ey) as [H1 H2]. destruct (spec_closed h A1) as (_ & _ & _ & _ & H5). destruct (H5 _ _ H1) as [O _]. cbn [PibSpec.def_cert]. rewrite H1, Hc. destruct (name_dec n (ct_name y)) as [Z|]; [congruence|auto].
  - intros N. sm. rewrite (Cn N). do 2 eexists. split; [reflexivity|]. eapply inv_key; [exact V|exact E|]. split; [exact G1|]. cbn [ko_bits ko_names ko_certs ko_default]. repeat (split; [assumption|]). intros c Ec. apply G7. apply (Hd c Ec).
Qed.
Lemma op_setDefaultCert : forall h ch I K s k q ko n, Inv h ch I K s -> K k = Some (q, ko) -> nval n ->
  (cert_of_key k n -> match cert h n with
     | None => key_setDefault ct_name ct_content ct_check ord q n s = (s, Err OtherError)
     | Some c => exists s' ko', key_setDefault ct_name ct_content ct_check ord q n s = (s', Ok c) /\ Inv (SetDefaultCert k n :: h) ch I (upd K k (q, ko')) s'
     end) /\
  (~ cert_of_key k n -> key_setDefault ct_name ct_content ct_check ord q n s = (s, Err ValueError)).
Proof.
  intros h ch I K s k q ko n V E Vn. destruct (op_getCert _ _ _ _ _ k q ko n V E Vn) as [Gk Gn]. unfold key_setDefault. split; [|intros N; unfold bind; rewrite (Gn N); reflexivity]. intros Kk. specialize (Gk Kk).
  destruct (cert h n) as [c|] eqn:Ec; [|unfold bind; rewrite Gk; reflexivity]. destruct Gk as (s1 & ko1 & G1 & V1). rewrite (bind_k _ _ _ _ _ _ _ _ G1). pose proof (upd_same _ K k (q, ko1)) as E1. rewrite (bind_k _ _ _ _ _ _ _ _ (b_the_key _ _ _ _ _ _ _ _ _ V1 k q ko1 E1)). sm. unfold back. cbn [w_key impl].
  pose proof (i_key _ _ _ _ _ _ _ _ _ V1 k q ko1 E1) as (Vk & Ak & Ik & Nq & H1 & H2 & H3 & H4 & H5 & H6 & H7). rewrite H1. assert (So : sane (SetDefaultCert k n)) by (destruct Kk; split; [exact Vn|split; assumption]).
  destruct (b_exec _ _ _ _ _ V1 _ So) as (b' & Eb & Vb). rewrite Eb. cbn [PibSpec.outcome]. rewrite Ec. eexists. exists (KeyObj (ko_identity ko1) (ko_name ko1) (ko_bits ko1) (ko_type ko1) (ko_names ko1) (ko_certs ko1) (Some c)). rewrite H1. split; [reflexivity|].
  pose proof V1 as [A1 A2 A3 A4 A5 A6 A7 A8 A9 A10 A11]. destruct (b_check _ _ _ _ _ _ _ _ _ V n c Ec) as [Kc Nc].
  constructor; cbn [w_impl w_key impl p_ids p_names p_default idheap keyheap]; auto.
  - intros i r o Ei. destruct (A9 i r o Ei) as (B1 & B2 & B3 & B4 & B5 & B6 & B7 & B8 & B9). split; [exact B1|]. split; [exact B2|]. split; [exact B3|]. split; [exact B4|]. split; [exact B5|]. split; [exact B6|]. split; [exact B7|]. split.
    + intros k' V'. rewrite B8 by exact V'. destruct (name_dec (owner k') i); [|reflexivity]. unfold upd. destruct (name_dec k k'); reflexivity.
    + destruct (io_default o) as [q'|]; [|exact B9]. destruct B9 as (k' & x & F1 & F2 & F3). unfold upd in *. destruct (name_dec k k') as [<-|N]; [|exists k', x; destruct (name_dec k k'); [contradiction|auto]]. eexists k, _. destruct (name_dec k k); [|congruence]. split; [exact F1|]. split; [|exact F3]. assert (q' = q) by congruence. subst q'. reflexivity.
  - intros k' q' x. unfold upd. destruct (name_dec k k') as [<-|N].
    + intros [= <- <-]. split; [exact Vk|]. split; [exact Ak|]. split; [exact Ik|]. split; [eapply nth_same, Nq|]. split; [reflexivity|]. split; [exact H2|]. cbn [ko_names ko_certs ko_default ko_bits]. split; [exact H3|]. split; [exact H4|]. split; [exact H5|]. split; [exact H6|].
      intros y [= <-]. cbn [PibSpec.def_cert]. rewrite Ec, Nc. destruct (name_dec k k); [|congruence]. split; [reflexivity|exact Ec].
    + intros Ex. assert (Ex' : upd K k (q, ko1) k' = Some (q', x)) by (rewrite upd_other by exact N; exact Ex). destruct (A11 k' q' x Ex') as (B1 & B2 & B3 & B4 & B5). split; [exact B1|]. split; [exact B2|]. split; [exact B3|]. assert (Nqq : q <> q') by (intros <-; apply N; eapply (key_inj _ _ _ _ _ _ _ _ _ _ _ _ _ _ V1); eassumption). split; [rewrite !nth_other by exact Nqq; exact B4|].
      destruct B5 as (F1 & F2 & F3 & F4 & F5 & F6 & F7). repeat (split; [assumption|]). intros y Ey. cbn [PibSpec.def_cert]. destruct (name_dec k k'); [contradiction|]. apply F7, Ey.
Qed.
Lemma op_getDefaultCert : forall h ch I K s k q ko, Inv h ch I K s -> K k = Some (q, ko) ->
  match def_cert h k with
  | None => key_getDefault ct_check q s = (s, Err OtherError)
  | Some n => exists s' ko' c, cert h n = Some c /\ key_getDefault ct_check q s = (s', Ok c) /\ Inv h ch I (upd K k (q, ko')) s'
  end.
Proof.
  intros h ch I K s k q ko V E. pose proof (i_key _ _ _ _ _ _ _ _ _ V k q ko E) as (Vk & Ak & Ik & Nq & H1 & H2 & H3 & H4 & H5 & H6 & H7). unfold key_getDefault. rewrite (bind_k _ _ _ _ _ _ _ _ (b_the_key _ _ _ _ _ _ _ _ _ V k q ko E)). destruct (ko_default ko) as [c|] eqn:Ed.
  - destruct (H7 c eq_refl) as [F1 F2]. rewrite F1. exists s, ko, c. split; [exact F2|]. split; [reflexivity|]. replace s with (w_key s q ko) at 1.
    + eapply inv_key; [exact V|exact E|]. split; [exact H1|]. repeat (split; [assumption|]). rewrite Ed. exact H7.
    + unfold w_key. destruct s as [x1 x2 x3 x4 x5 x6]. cbn [impl idheap keyheap p_default p_ids p_names] in *. f_equal. clear - Nq. revert q Nq. induction x3 as [|y x3 IH]; intros [|q] Nq; cbn in *; try discriminate Nq; [congruence|]. f_equal. apply IH, Nq.
  - sm. unfold ask. rewrite H1, (b_dc _ _ _ _ _ _ _ _ _ V k Vk). destruct (def_cert h k) as [n|] eqn:En; [|reflexivity]. destruct (spec_closed h (i_sane _ _ _ _ _ _ _ _ _ V)) as (_ & _ & _ & _ & X5). destruct (X5 k n En) as [O Nc]. destruct (cert h n) as [c|] eqn:Ec; [|congruence].
    destruct (b_check _ _ _ _ _ _ _ _ _ V n c Ec) as [Kc Nn]. do 2 eexists. exists c. split; [reflexivity|]. split; [reflexivity|]. eapply inv_key; [exact V|exact E|]. split; [reflexivity|]. cbn [ko_bits ko_names ko_certs ko_default]. repeat (split; [assumption|]). intros y [= <-]. rewrite Nn. auto.
Qed.
End F.
