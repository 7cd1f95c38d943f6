(** * Pib and its containers: the answer of every call *)
From Verif Require Import Base BaseLemmas NameModel NameSpec NameProofs DictModel DictProofs CertProofs HierModel HierSpec HierProps PibModel PibSpec PibProps FrontModel FrontSpec FrontProofs FrontProofs2 FrontProofs3 FrontProofs4.
From Coq Require Import Permutation.

Section F.
Context {C : Type}.
Variable ct_name : C -> name.
Variable ct_content : C -> bytes.
Variable ct_check : C -> res unit.
Variable ord : list name -> list name.
Variable ktype : bytes -> res Z.
Hypothesis Ho : forall l, Permutation l (ord l).
Notation pib := (pib C).
Notation call := (call C).
Notation front := (front C).
Notation keyobj := (keyobj C).
Notation exec := (exec ct_name ct_content ct_check ord).
Notation sane := (sane ct_name ct_check).
Notation ident := (ident ct_name).
Notation def_id := (def_id ct_name).
Notation key_bits := (key_bits ct_name ct_content).
Notation cert := (cert ct_name).
Notation def_key := (def_key ct_name ct_content).
Notation def_cert := (def_cert ct_name).
Notation outcome := (outcome ct_name ct_content).
Notation spec_fn := (spec_fn ct_name ct_content).
Notation nget := (dget n_equals).
Notation nset := (dset n_equals).
Notation ndrop := (dremove n_equals).
Notation Inv := (Inv ct_name ct_content ct_check ktype).
Notation idgood := (idgood ct_name ct_content).
Notation keygood := (keygood ct_name ct_content).
Notation exec_view := (exec_view ct_name ct_content ct_check ord Ho).
Notation spec_closed := (spec_closed ct_name ct_content ct_check).


Ltac sm := unfold set_id, set_key, bind, ret, lift, get, put, raise; cbn [fst snd].
Notation b_exec := (b_exec ct_name ct_content ct_check ord ktype Ho).

Notation hist := (hist ct_name).
Notation proper := (proper ct_name ct_content ct_check ktype).
Notation answers := (answers ct_name ct_content).
Notation all_proper := (all_proper ct_name ct_content ct_check ktype).
Notation usable := (usable ct_name ct_content ct_check ktype).
Notation fexec := (fexec ct_name ct_content ct_check ord ktype).
Notation fstep := (fstep ct_name ct_content ct_check ord ktype).
Notation frun := (frun ct_name ct_content ct_check ord ktype).
Notation run := (PibModel.run ct_name ct_content ct_check ord).
Notation fcall := (fcall C).
Notation trace := (trace C).
Notation answer := (answer C).

(** ** Decisions *)
Lemma key_of_dec : forall i k, {key_of i k} + {~ key_of i k}.
Proof.
  intros i k. destruct i as [|a i]; [right; intros [N _]; congruence|]. destruct (name_dec k (key_name (a :: i) (last k key_comp))) as [E|N].
  - left. split; [discriminate|eexists; exact E].
  - right. intros (_ & kid & E). apply N. rewrite E at 2. unfold key_name. change [key_comp; kid] with ([key_comp] ++ [kid]). rewrite app_assoc, last_last. exact E.
Qed.
Lemma a_cert_dec : forall n, {a_cert n} + {~ a_cert n}.
Proof.
  intros n. set (i := firstn (length n - 4) n). destruct (name_dec i []) as [Z|Ni].
  - right. intros (j & kid & s & v & Nj & E). unfold i in Z. rewrite E in Z. unfold cert_name in Z. rewrite app_length in Z. cbn [length] in Z. replace (length j + 4 - 4)%nat with (length j) in Z by lia. rewrite firstn_app, Nat.sub_diag, firstn_all, firstn_O, app_nil_r in Z. congruence.
  - destruct (name_dec n (cert_name i (nth (length n - 3) n key_comp) (nth (length n - 2) n key_comp) (nth (length n - 1) n key_comp))) as [E|N].
    + left. do 4 eexists. split; [exact Ni|exact E].
    + right. intros (j & kid & s & v & Nj & E). apply N. clear N. unfold i in *. rewrite E. unfold cert_name. rewrite app_length. cbn [length]. replace (length j + 4 - 4)%nat with (length j) by lia. rewrite firstn_app, Nat.sub_diag, firstn_all, firstn_O, app_nil_r. f_equal.
      rewrite !app_nth2 by lia. replace (length j + 4 - 3 - length j)%nat with 1%nat by lia. replace (length j + 4 - 2 - length j)%nat with 2%nat by lia. replace (length j + 4 - 1 - length j)%nat with 3%nat by lia. reflexivity.
Qed.
Lemma cert_of_key_dec : forall k n, {cert_of_key k n} + {~ cert_of_key k n}.
Proof. intros k n. destruct (a_cert_dec n) as [A|N]; [|right; intros [X _]; contradiction]. destruct (name_dec (owner n) k) as [E|N]; [left; split; assumption|right; intros [_ X]; contradiction]. Qed.

(** ** The state after a trace *)
Lemma inv_ch : forall h ch ch' I K s, (forall i, ch i = ch' i) -> Inv h ch I K s -> Inv h ch' I K s.
Proof.
  intros h ch ch' I K s E [A1 A2 A3 A4 A5 A6 A7 A8 A9 A10 A11]. constructor; auto.
  - intros i r o Ei. destruct (A9 i r o Ei) as (B1 & B2 & B3 & B4 & B5 & B6 & B7 & B8 & B9). split; [exact B1|]. split; [exact B2|]. unfold FrontProofs.idgood. rewrite <- E. auto 10.
  - intros i Ei. rewrite <- E. auto.
Qed.
Definition reached (h0 : list call) (t : trace) (s : front) : Prop :=
  exists I K, Inv (hist h0 t) (chosen t) I K s /\ (forall hd, live_id t hd -> exists o, I (h_name hd) = Some (h_ref hd, o)) /\ (forall hd, live_key t hd -> exists o, K (h_name hd) = Some (h_ref hd, o)).
Lemma handle_id : forall h ch I K s i r o (m : sm front nat) s0, m s0 = (s, Ok r) -> Inv h ch I K s -> I i = Some (r, o) -> id_handle m s0 = (s, Ok (AId (Handle i r))).
Proof. intros h ch I K s i r o m s0 E V Ei. unfold id_handle. rewrite (bind_k _ _ _ _ _ _ _ _ E), (bind_k _ _ _ _ _ _ _ _ (b_the_id _ _ _ _ _ _ _ _ _ V i r o Ei)). unfold ret. rewrite (id_name _ _ _ _ _ _ _ _ _ _ _ _ V Ei). reflexivity. Qed.
Lemma handle_key : forall h ch I K s k q o (m : sm front nat) s0, m s0 = (s, Ok q) -> Inv h ch I K s -> K k = Some (q, o) -> key_handle m s0 = (s, Ok (AKey (Handle k q))).
Proof. intros h ch I K s i r o m s0 E V Ei. unfold key_handle. rewrite (bind_k _ _ _ _ _ _ _ _ E), (bind_k _ _ _ _ _ _ _ _ (b_the_key _ _ _ _ _ _ _ _ _ V i r o Ei)). unfold ret. rewrite (key_nm _ _ _ _ _ _ _ _ _ _ _ _ V Ei). reflexivity. Qed.
Lemma bind_err : forall (S A B : Type) (m : sm S A) (k : A -> sm S B) s s' e, m s = (s', Err e) -> bind m k s = (s', Err e).
Proof. intros. unfold bind. rewrite H. reflexivity. Qed.
Lemma lives : forall (t : trace) I K, (forall hd, live_id t hd -> exists o, I (h_name hd) = Some (h_ref hd, o)) -> (forall hd, live_key t hd -> exists o, K (h_name hd) = Some (h_ref hd, o)) ->
  forall I' K', ext I I' -> ext K K' ->
  (forall hd, live_id t hd -> exists o : idobj, I' (h_name hd) = Some (h_ref hd, o)) /\ (forall hd, live_key t hd -> exists o : keyobj, K' (h_name hd) = Some (h_ref hd, o)).
Proof. intros t I K HI HK I' K' XI XK. split; intros hd L; [destruct (HI hd L) as [o E]; exact (XI _ _ _ E)|destruct (HK hd L) as [o E]; exact (XK _ _ _ E)]. Qed.

Lemma step : forall h0 t s o, reached h0 t s -> proper h0 t o -> let (s', r) := fexec o s in answers h0 t o r /\ reached h0 ((o, r) :: t) s'.
Proof.
  intros h0 t s o (I & K & V & HI & HK) P. set (h := hist h0 t) in *.
  assert (ErrSame : forall e, (match o with FRemoveIdentity _ | FReset => False | _ => True end) -> reached h0 ((o, Err e) :: t) s).
  { intros e Q. exists I, K. split; [destruct o; cbn; try contradiction; exact V|]. destruct o; try contradiction; split; assumption. }
  destruct o as [i|i|i| |i| |hd b k|hd k|hd k|hd k|hd|hd c|hd n|hd n|hd n|hd|hd]; cbn [FrontSpec.proper FrontModel.fexec FrontSpec.answers] in *; fold h in P |- *.
  - (* addIdentity *) destruct (op_addIdentity ct_name ct_content ct_check ord ktype Ho _ _ _ _ _ i V P) as (s' & I' & r & o & G1 & G2 & G3 & G4). rewrite (handle_id _ _ _ _ _ _ _ _ _ _ G1 G2 G4). split; [eexists; split; reflexivity|].
    exists I', K. split; [exact G2|]. destruct (lives t I K HI HK I' K G3 (ext_refl _ _)) as [L1 L2]. split; [intros hd [<-|L]; [eexists; exact G4|auto]|exact L2].
  - (* removeIdentity *) destruct (op_removeIdentity ct_name ct_content ct_check ord ktype Ho _ _ _ _ _ i V P) as (s' & G1 & G2). unfold none. rewrite (bind_k _ _ _ _ _ _ _ _ G1). split; [reflexivity|].
    exists (del I i), (dropk i K). split; [exact G2|]. split; intros hd [N L].
    + unfold del. destruct (name_dec i (h_name hd)); [contradiction|auto].
    + unfold dropk. destruct (name_dec (owner (h_name hd)) i); [congruence|auto].
  - (* setDefaultIdentity *) destruct (op_setDefaultIdentity ct_name ct_content ct_check ord ktype Ho _ _ _ _ _ i V P) as (s' & I' & r & o & G1 & G2 & G3 & G4). rewrite (handle_id _ _ _ _ _ _ _ _ _ _ G1 G2 G4). split; [eexists; split; reflexivity|].
    exists I', K. split; [exact G2|]. destruct (lives t I K HI HK I' K G3 (ext_refl _ _)) as [L1 L2]. split; [intros hd [<-|L]; [eexists; exact G4|auto]|exact L2].
  - (* reset *) destruct (op_reset ct_name ct_content ct_check ord ktype _ _ _ _ _ V) as (s' & G1 & G2). unfold none. rewrite (bind_k _ _ _ _ _ _ _ _ G1). split; [reflexivity|].
    exists (fun _ => None), (fun _ => None). split; [exact G2|]. split; intros hd [].
  - (* getIdentity *) pose proof (op_getIdentity ct_name ct_content ct_check ord ktype _ _ _ _ _ i V P) as G. destruct (ident h i) eqn:Ei.
    + destruct G as (s' & I' & r & o & G1 & G2 & G3 & G4). rewrite (handle_id _ _ _ _ _ _ _ _ _ _ G1 G2 G4). split; [eexists; split; reflexivity|]. exists I', K. split; [exact G2|]. destruct (lives t I K HI HK I' K G3 (ext_refl _ _)) as [L1 L2]. split; [intros hd [<-|L]; [eexists; exact G4|auto]|exact L2].
    + unfold id_handle. rewrite (bind_err _ _ _ _ _ _ _ _ G). split; [reflexivity|apply ErrSame; exact Logic.I].
  - (* getDefaultIdentity *) pose proof (op_getDefaultIdentity ct_name ct_content ct_check ord ktype _ _ _ _ _ V) as G. destruct (def_id h) as [d|] eqn:Ei.
    + destruct G as (s' & I' & r & o & G1 & G2 & G3 & G4). rewrite (handle_id _ _ _ _ _ _ _ _ _ _ G1 G2 G4). split; [eexists; split; reflexivity|]. exists I', K. split; [exact G2|]. destruct (lives t I K HI HK I' K G3 (ext_refl _ _)) as [L1 L2]. split; [intros hd [<-|L]; [eexists; exact G4|auto]|exact L2].
    + unfold id_handle. rewrite (bind_err _ _ _ _ _ _ _ _ G). split; [reflexivity|apply ErrSame; exact Logic.I].
  - (* addKey *) destruct P as (L & Vk & P). destruct (HI hd L) as [o Eo]. destruct (op_addKey ct_name ct_content ct_check ord ktype Ho _ _ _ _ _ _ _ _ k b V Eo Vk) as [Gk Gn]. destruct (key_of_dec (h_name hd) k) as [Kk|N].
    + destruct (P Kk) as [P1 P2]. destruct (Gk Kk P1 P2) as (s' & I' & K' & q & ko & o' & G1 & G2 & G3 & G4 & G5 & G6). rewrite (handle_key _ _ _ _ _ _ _ _ _ _ G1 G2 G6). split; [split; [intros _; eexists; split; reflexivity|contradiction]|].
      exists I', K'. split; [exact G2|]. destruct (lives t I K HI HK I' K' G3 G4) as [L1 L2]. split; [exact L1|intros x [<-|Lx]; [eexists; exact G6|auto]].
    + unfold key_handle. rewrite (bind_err _ _ _ _ _ _ _ _ (Gn N)). split; [split; [contradiction|reflexivity]|apply ErrSame; exact Logic.I].
  - (* removeKey *) destruct P as (L & Vk). destruct (HI hd L) as [o Eo]. destruct (op_removeKey ct_name ct_content ct_check ord ktype Ho _ _ _ _ _ _ _ _ k V Eo Vk) as [Gk Gn]. unfold none. destruct (key_of_dec (h_name hd) k) as [Kk|N].
    + destruct (Gk Kk) as (s' & o' & G1 & G2). rewrite (bind_k _ _ _ _ _ _ _ _ G1). split; [split; [reflexivity|contradiction]|]. eexists _, _. split; [exact G2|]. split.
      * intros x Lx. destruct (HI x Lx) as [y Ey]. eapply ext_upd; eassumption.
      * intros x [Nx Lx]. unfold del. destruct (name_dec k (h_name x)); [contradiction|auto].
    + destruct (Gn N) as (s' & G1 & G2). rewrite (bind_err _ _ _ _ _ _ _ _ G1). split; [split; [contradiction|reflexivity]|]. eexists _, _. split; [exact G2|]. split; [|exact HK]. intros x Lx. destruct (HI x Lx) as [y Ey]. eapply ext_upd; eassumption.
  - (* setDefaultKey *) destruct P as (L & Vk). destruct (HI hd L) as [o Eo]. destruct (op_setDefault ct_name ct_content ct_check ord ktype Ho _ _ _ _ _ _ _ _ k V Eo Vk) as [Gk Gn]. destruct (key_of_dec (h_name hd) k) as [Kk|N].
    + specialize (Gk Kk). fold h in Gk. destruct (key_bits h k) as [b|] eqn:Eb.
      * destruct Gk as (s' & I' & K' & q & ko & G1 & G2 & G3 & G4 & G6). rewrite (handle_key _ _ _ _ _ _ _ _ _ _ G1 G2 G6). split; [split; [intros _; eexists; split; reflexivity|contradiction]|]. exists I', K'. split; [exact G2|]. destruct (lives t I K HI HK I' K' G3 G4) as [L1 L2]. split; [exact L1|intros x [<-|Lx]; [eexists; exact G6|auto]].
      * unfold key_handle. rewrite (bind_err _ _ _ _ _ _ _ _ Gk). split; [split; [reflexivity|contradiction]|apply ErrSame; exact Logic.I].
    + unfold key_handle. rewrite (bind_err _ _ _ _ _ _ _ _ (Gn N)). split; [split; [contradiction|reflexivity]|apply ErrSame; exact Logic.I].
  - (* getKey *) destruct P as (L & Vk). destruct (HI hd L) as [o Eo]. destruct (op_getKey ct_name ct_content ct_check ktype _ _ _ _ _ _ _ _ k V Eo Vk) as [Gk Gn]. destruct (key_of_dec (h_name hd) k) as [Kk|N].
    + specialize (Gk Kk). fold h in Gk. destruct (key_bits h k) as [b|] eqn:Eb.
      * destruct Gk as (s' & I' & K' & q & ko & o' & G1 & G2 & G3 & G4 & G5 & G6). rewrite (handle_key _ _ _ _ _ _ _ _ _ _ G1 G2 G6). split; [split; [intros _; eexists; split; reflexivity|contradiction]|]. exists I', K'. split; [exact G2|]. destruct (lives t I K HI HK I' K' G3 G4) as [L1 L2]. split; [exact L1|intros x [<-|Lx]; [eexists; exact G6|auto]].
      * unfold key_handle. rewrite (bind_err _ _ _ _ _ _ _ _ Gk). split; [split; [reflexivity|contradiction]|apply ErrSame; exact Logic.I].
    + unfold key_handle. rewrite (bind_err _ _ _ _ _ _ _ _ (Gn N)). split; [split; [contradiction|reflexivity]|apply ErrSame; exact Logic.I].
  - (* getDefaultKey *) destruct (HI hd P) as [o Eo]. pose proof (op_getDefault ct_name ct_content ct_check ktype _ _ _ _ _ _ _ _ V Eo) as G. fold h in G. destruct (chosen t (h_name hd)) as [k|] eqn:Ec.
    + destruct G as (q & ko & G1 & G2 & G3). rewrite (handle_key _ _ _ _ _ _ _ _ _ _ G1 V G2). split; [eexists; split; reflexivity|]. exists I, K. split.
      * eapply inv_ch; [|exact V]. intros j. cbn [chosen h_name]. destruct (name_dec (h_name hd) j) as [<-|]; [exact Ec|reflexivity].
      * split; [exact HI|intros x [<-|Lx]; [eexists; exact G2|auto]].
    + destruct (def_key h (h_name hd)) as [k|].
      * destruct G as (s' & I' & K' & q & ko & G1 & G2 & G3 & G4 & G6 & G7). rewrite (handle_key _ _ _ _ _ _ _ _ _ _ G1 G2 G6). split; [eexists; split; reflexivity|]. exists I', K'. split; [exact G2|]. destruct (lives t I K HI HK I' K' G3 G4) as [L1 L2]. split; [exact L1|intros x [<-|Lx]; [eexists; exact G6|auto]].
      * unfold key_handle. rewrite (bind_err _ _ _ _ _ _ _ _ G). split; [reflexivity|apply ErrSame; exact Logic.I].
  - (* addCertificate *) destruct P as (L & Vc & Ac & P). destruct (HK hd L) as [ko Eo]. destruct (op_addCert ct_name ct_content ct_check ord ktype Ho _ _ _ _ _ _ _ _ c V Eo Vc Ac) as [Gk Gn]. unfold none. destruct (name_dec (owner (ct_name c)) (h_name hd)) as [E|N].
    + destruct (P E) as (P1 & P2 & P3). destruct (Gk E P1 P2 P3) as (s' & ko' & G1 & G2). rewrite (bind_k _ _ _ _ _ _ _ _ G1). split; [split; [reflexivity|contradiction]|]. eexists _, _. split; [exact G2|]. split; [exact HI|]. intros x Lx. destruct (HK x Lx) as [y Ey]. eapply ext_upd; eassumption.
    + rewrite (bind_err _ _ _ _ _ _ _ _ (Gn N)). split; [split; [contradiction|reflexivity]|apply ErrSame; exact Logic.I].
  - (* removeCertificate *) destruct P as (L & Vn). destruct (HK hd L) as [ko Eo]. destruct (op_removeCert ct_name ct_content ct_check ord ktype Ho _ _ _ _ _ _ _ _ n V Eo Vn) as [Gk Gn]. unfold none. destruct (cert_of_key_dec (h_name hd) n) as [E|N].
    + destruct (Gk E) as (s' & ko' & G1 & G2). rewrite (bind_k _ _ _ _ _ _ _ _ G1). split; [split; [reflexivity|contradiction]|]. eexists _, _. split; [exact G2|]. split; [exact HI|]. intros x Lx. destruct (HK x Lx) as [y Ey]. eapply ext_upd; eassumption.
    + destruct (Gn N) as (s' & ko' & G1 & G2). rewrite (bind_err _ _ _ _ _ _ _ _ G1). split; [split; [contradiction|reflexivity]|]. eexists _, _. split; [exact G2|]. split; [exact HI|]. intros x Lx. destruct (HK x Lx) as [y Ey]. eapply ext_upd; eassumption.
  - (* setDefaultCertificate *) destruct P as (L & Vn). destruct (HK hd L) as [ko Eo]. destruct (op_setDefaultCert ct_name ct_content ct_check ord ktype Ho _ _ _ _ _ _ _ _ n V Eo Vn) as [Gk Gn]. destruct (cert_of_key_dec (h_name hd) n) as [E|N].
    + specialize (Gk E). fold h in Gk. destruct (cert h n) as [c|].
      * destruct Gk as (s' & ko' & G1 & G2). rewrite (bind_k _ _ _ _ _ _ _ _ G1). split; [split; [reflexivity|contradiction]|]. eexists _, _. split; [exact G2|]. split; [exact HI|]. intros x Lx. destruct (HK x Lx) as [y Ey]. eapply ext_upd; eassumption.
      * rewrite (bind_err _ _ _ _ _ _ _ _ Gk). split; [split; [reflexivity|contradiction]|apply ErrSame; exact Logic.I].
    + rewrite (bind_err _ _ _ _ _ _ _ _ (Gn N)). split; [split; [contradiction|reflexivity]|apply ErrSame; exact Logic.I].
  - (* getCertificate *) destruct P as (L & Vn). destruct (HK hd L) as [ko Eo]. destruct (op_getCert ct_name ct_content ct_check ktype _ _ _ _ _ _ _ _ n V Eo Vn) as [Gk Gn]. destruct (cert_of_key_dec (h_name hd) n) as [E|N].
    + specialize (Gk E). fold h in Gk. destruct (cert h n) as [c|].
      * destruct Gk as (s' & ko' & G1 & G2). rewrite (bind_k _ _ _ _ _ _ _ _ G1). split; [split; [reflexivity|contradiction]|]. eexists _, _. split; [exact G2|]. split; [exact HI|]. intros x Lx. destruct (HK x Lx) as [y Ey]. eapply ext_upd; eassumption.
      * rewrite (bind_err _ _ _ _ _ _ _ _ Gk). split; [split; [reflexivity|contradiction]|apply ErrSame; exact Logic.I].
    + rewrite (bind_err _ _ _ _ _ _ _ _ (Gn N)). split; [split; [contradiction|reflexivity]|apply ErrSame; exact Logic.I].
  - (* getDefaultCertificate *) destruct (HK hd P) as [ko Eo]. pose proof (op_getDefaultCert ct_name ct_content ct_check ktype _ _ _ _ _ _ _ _ V Eo) as G. fold h in G. destruct (def_cert h (h_name hd)) as [n|].
    + destruct G as (s' & ko' & c & G0 & G1 & G2). rewrite (bind_k _ _ _ _ _ _ _ _ G1). split; [exists c; split; [exact G0|reflexivity]|]. eexists _, _. split; [exact G2|]. split; [exact HI|]. intros x Lx. destruct (HK x Lx) as [y Ey]. eapply ext_upd; eassumption.
    + rewrite (bind_err _ _ _ _ _ _ _ _ G). split; [reflexivity|apply ErrSame; exact Logic.I].
  - (* getPublicKey *) destruct (HK hd P) as [ko Eo]. destruct (i_key _ _ _ _ _ _ _ _ _ V _ _ _ Eo) as (_ & _ & _ & _ & _ & G2 & _).
    unfold key_bits_of. assert (Ek := b_the_key _ _ _ _ _ _ _ _ _ V _ _ _ Eo). unfold bind at 1 2. rewrite Ek. cbn [ret]. split; [exists (ko_bits ko); split; [exact G2|reflexivity]|]. exists I, K. split; [exact V|]. split; assumption.
Qed.
Lemma start : forall h0, usable h0 -> reached h0 [] (front_new (run (rev h0))).
Proof.
  intros h0 [S D]. exists (fun _ => None), (fun _ => None). split; [|split; intros hd []].
  assert (R : Forall sane (rev h0)) by (apply Forall_rev, S). pose proof (run_view ct_name ct_content ct_check ord Ho (rev h0) R) as W. rewrite rev_involutive in W.
  assert (G : gd (set_of (getIdentities (run (rev h0))))).
  { apply set_of_gd.
    + intros n In_. unfold getIdentities in In_. apply in_map_iff in In_. destruct In_ as ([m u] & <- & Im). destruct (v_ids _ _ W) as [Dm _]. unfold dom in Dm. rewrite Forall_forall in Dm. exact (Dm _ Im).
    + apply (v_ids _ _ W). }
  constructor; cbn [front_new impl p_ids p_names p_default]; auto using gd_nil; try (intros; discriminate).
  - intros n Vn. rewrite set_of_get by assumption. pose proof (e_id _ _ W n Vn) as E. cbn [f_id PibProps.spec_fn] in E. destruct (in_dec name_dec n (getIdentities (run (rev h0)))) as [In_|N].
    + unfold getIdentities in In_. apply in_map_iff in In_. destruct In_ as ([m []] & Em & Im). cbn [fst] in Em. subst m. apply (in_n _ _ _ _ (v_ids _ _ W)) in Im. destruct Im as [_ Im]. rewrite Im in E. cbn [FrontSpec.hist]. destruct (ident h0 n); [reflexivity|discriminate E].
    + cbn [FrontSpec.hist]. destruct (ident h0 n) eqn:Ei; [|reflexivity]. exfalso. apply N. apply (n_in _ _ _ _ (v_ids _ _ W) Vn) in E. unfold getIdentities. apply in_map_iff. exists (n, tt). split; [reflexivity|exact E].
Qed.
Lemma all_steps : forall h0 l, usable h0 -> let (s, t) := frun (run (rev h0)) l in all_proper h0 t -> reached h0 t s.
Proof.
  intros h0 l U. unfold FrontModel.frun. induction l as [|o l IH] using rev_ind; [intros _; apply start, U|]. rewrite fold_left_app. cbn [fold_left]. destruct (fold_left fstep l (front_new (run (rev h0)), [])) as [s t]. unfold FrontModel.fstep at 1. cbn [fst snd]. destruct (fexec o s) as [s' r] eqn:E.
  intros [P A]. pose proof (step h0 t s o (IH A) P) as G. rewrite E in G. apply G.
Qed.
End F.
