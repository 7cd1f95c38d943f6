(** * Property C55: PibMemory *)
From Verif Require Import Base BaseLemmas NameModel NameSpec NameProofs DictModel DictProofs CertProofs HierModel HierSpec HierProps PibModel PibSpec.
From Coq Require Import Permutation.
Local Open Scope res_scope.

(** ** Names *)
Lemma owner_app2 : forall (p : name) a b, owner (p ++ [a; b]) = p.
Proof. intros. apply (without2_app comp p a b). Qed.
Lemma owner_key : forall i kid, owner (key_name i kid) = i.
Proof. intros. apply owner_app2. Qed.
Lemma cert_key : forall i kid s v, cert_name i kid s v = key_name i kid ++ [s; v].
Proof. intros. unfold cert_name, key_name. rewrite <- app_assoc. reflexivity. Qed.
Lemma owner_cert : forall i kid s v, owner (cert_name i kid s v) = key_name i kid.
Proof. intros. rewrite cert_key. apply owner_app2. Qed.
Lemma a_cert_owner : forall n, a_cert n -> a_key (owner n) /\ cert_extractKeyName n = Ok (owner n) /\ cert_getKeyName n = Ok (owner n) /\ cert_getIdentity n = Ok (owner (owner n)).
Proof.
  intros n (i & kid & s & v & N & ->). rewrite owner_cert, owner_key. destruct (C53_certificate_parts i kid s v) as (E1 & E2 & E3 & E4 & _). cbv zeta in *. split; [exists i, kid; auto|auto].
Qed.
Lemma a_key_owner : forall k, a_key k -> owner k <> [] /\ key_extractIdentity k = Ok (owner k).
Proof. intros k (i & kid & N & ->). rewrite owner_key. split; [exact N|]. destruct (C53_key_construct i kid) as [<- X]. apply X. exact N. Qed.
Lemma owner_val : forall n, nval n -> nval (owner n).
Proof. intros n V. unfold nval, owner in *. rewrite Forall_forall in *. intros x I. apply V. rewrite <- (firstn_skipn (length n - 2) n). apply in_or_app. left. exact I. Qed.

Notation nget := (dget n_equals).
Notation nset := (dset n_equals).
Notation ndrop := (dremove n_equals).
Definition gd {V} (d : dict name V) : Prop := dom nval d /\ uniq d.
Lemma gd_nil : forall V, gd (@nil (name * V)).
Proof. intros V. split; constructor. Qed.
Lemma gd_set : forall V (d : dict name V) k v, gd d -> nval k -> gd (nset d k v).
Proof. intros V d k v [H1 H2] Hk. split; [apply (dset_dom n_equals nval); assumption|apply (dset_uniq n_equals nval Heqn); assumption]. Qed.
Lemma gd_drop : forall V (d : dict name V) k, gd d -> gd (ndrop d k).
Proof. intros V d k [H1 H2]. split; [apply (dremove_dom n_equals nval); assumption|apply (dremove_uniq n_equals); assumption]. Qed.
Lemma set_n : forall V (d : dict name V) k v n, gd d -> nval k -> nval n -> nget (nset d k v) n = if name_dec k n then Some v else nget d n.
Proof.
  intros V d k v n [H1 H2] Hk Hn. rewrite (dset_get n_equals nval Heqn) by assumption. destruct (eqb_case n_equals nval Heqn k n Hk Hn) as [[E ->]|[E ->]]; destruct (name_dec k n); congruence.
Qed.
Lemma drop_n : forall V (d : dict name V) k n, gd d -> nval k -> nval n -> nget (ndrop d k) n = if name_dec k n then None else nget d n.
Proof.
  intros V d k n [H1 H2] Hk Hn. rewrite (dremove_get n_equals nval Heqn) by assumption. destruct (eqb_case n_equals nval Heqn k n Hk Hn) as [[E ->]|[E ->]]; destruct (name_dec k n); congruence.
Qed.
Lemma in_n : forall V (d : dict name V) n v, gd d -> In (n, v) d -> nval n /\ nget d n = Some v.
Proof. intros V d n v [H1 H2] I. split; [unfold dom in H1; rewrite Forall_forall in H1; apply (H1 _ I)|apply (in_dget n_equals nval Heqn); assumption]. Qed.
Lemma n_in : forall V (d : dict name V) n v, gd d -> nval n -> nget d n = Some v -> In (n, v) d.
Proof. intros V d n v [H1 H2] Hn E. apply (dget_in n_equals nval Heqn); assumption. Qed.
Lemma equals_dec : forall a b, nval a -> nval b -> n_equals a b = if name_dec a b then true else false.
Proof. intros a b Ha Hb. destruct (eqb_case n_equals nval Heqn a b Ha Hb) as [[E ->]|[E ->]]; destruct (name_dec a b); congruence. Qed.

Section C55.
Context {C : Type}.
Variable ct_name : C -> name.
Variable ct_content : C -> bytes.
Variable ct_check : C -> res unit.
Variable ord : list name -> list name.
(** a set is iterated in some order *)
Hypothesis Ho : forall l, Permutation l (ord l).
Notation pib := (pib C).
Notation exec := (exec ct_name ct_content ct_check ord).
Notation run := (run ct_name ct_content ct_check ord).
Notation sane := (sane ct_name ct_check).
Notation ident := (ident ct_name).
Notation def_id := (def_id ct_name).
Notation key_bits := (key_bits ct_name ct_content).
Notation cert := (cert ct_name).
Notation def_key := (def_key ct_name ct_content).
Notation def_cert := (def_cert ct_name).
Notation outcome := (outcome ct_name ct_content).
Notation removeKey := (removeKey ct_name ord).
Notation removeKeys := (removeKeys ct_name ord).
Notation removeIdentity := (removeIdentity ct_name ord).

(** ** What the specification gives for calls that fit together *)
Lemma spec_closed : forall h, Forall sane h ->
  (forall i, def_id h = Some i -> ident h i = true) /\
  (forall k b, key_bits h k = Some b -> a_key k /\ Forall c_valid k /\ ident h (owner k) = true) /\
  (forall n c, cert h n = Some c -> ct_name c = n /\ a_cert n /\ Forall c_valid n /\ ct_check c = Ok tt /\ key_bits h (owner n) <> None) /\
  (forall i k, def_key h i = Some k -> owner k = i /\ key_bits h k <> None) /\
  (forall k n, def_cert h k = Some n -> owner n = k /\ cert h n <> None).
Proof.
  induction h as [|o h IH]; intros S; [repeat split; intros; discriminate|]. inversion S as [|? ? So Sh]; subst. specialize (IH Sh). destruct IH as (I1 & I2 & I3 & I4 & I5).
  destruct o as [i|i| |i|i k b|k|i k|c|n|k n]; cbn [PibSpec.ident PibSpec.def_id PibSpec.key_bits PibSpec.cert PibSpec.def_key PibSpec.def_cert PibSpec.sane] in *.
  - (* AddIdentity *)
    split; [|split; [|split; [|split]]]; auto.
    + intros j. destruct (def_id h) as [d|]; intros [= <-]; [|destruct (name_dec i i); congruence]. destruct (name_dec i d); auto.
    + intros k b E. destruct (I2 k b E) as (A & B & D). destruct (name_dec i (owner k)); auto.
  - (* RemoveIdentity *)
    split; [|split; [|split; [|split]]].
    + intros j. destruct (def_id h) as [d|] eqn:Ed; [|discriminate]. destruct (name_dec i d); intros [= <-]. destruct (name_dec i d); [contradiction|]. auto.
    + intros k b. destruct (name_dec (owner k) i) as [->|N]; [discriminate|]. intros E. destruct (I2 k b E) as (A & B & D). destruct (name_dec i (owner k)); [congruence|auto].
    + intros n c. destruct (name_dec (owner (owner n)) i); [discriminate|]. intros E. apply I3. exact E.
    + intros j k. destruct (name_dec i j); [discriminate|]. intros E. destruct (I4 j k E) as [<- B]. split; [reflexivity|]. destruct (name_dec (owner k) i); [congruence|exact B].
    + intros k n. destruct (name_dec (owner k) i); [discriminate|]. intros E. destruct (I5 k n E) as [<- B]. split; [reflexivity|]. destruct (name_dec (owner (owner n)) i); [congruence|exact B].
  - repeat split; intros; discriminate.
  - (* SetDefaultIdentity *)
    split; [|split; [|split; [|split]]]; auto.
    + intros j [= <-]. destruct (name_dec i i); congruence.
    + intros k b E. destruct (I2 k b E) as (A & B & D). destruct (name_dec i (owner k)); auto.
  - (* AddKey *)
    destruct So as (Vk & Ni & kid & ->). split; [|split; [|split; [|split]]].
    + intros j. destruct (def_id h) as [d|]; intros [= <-]; [|destruct (name_dec i i); congruence]. destruct (name_dec i d); auto.
    + intros k b'. destruct (name_dec (key_name i kid) k) as [<-|N].
      * intros [= <-]. rewrite owner_key. split; [exists i, kid; auto|]. split; [exact Vk|]. destruct (name_dec i i); congruence.
      * intros E. destruct (I2 k b' E) as (A & B & D). destruct (name_dec i (owner k)); auto.
    + intros n c E. destruct (I3 n c E) as (A & B & D & F & G). repeat (split; [assumption|]). destruct (name_dec _ (owner n)); [discriminate|exact G].
    + intros j k. destruct (def_key h j) as [d|] eqn:Ed.
      * intros [= <-]. destruct (I4 j d Ed) as [A B]. split; [exact A|]. destruct (name_dec (key_name i kid) d); [discriminate|exact B].
      * destruct (name_dec i j); intros [= <-]. subst j. rewrite owner_key. split; [reflexivity|]. destruct (name_dec (key_name i kid) (key_name i kid)); [discriminate|congruence].
    + exact I5.
  - (* RemoveKey *)
    split; [|split; [|split; [|split]]]; auto.
    + intros k' b. destruct (name_dec k k'); [discriminate|]. intros E. exact (I2 k' b E).
    + intros n c. destruct (name_dec (owner n) k); [discriminate|]. intros E. destruct (I3 n c E) as (A & B & D & F & G). repeat (split; [assumption|]). destruct (name_dec k (owner n)); [congruence|exact G].
    + intros i k'. destruct (name_dec (owner k) i); [discriminate|]. intros E. destruct (I4 i k' E) as [A B]. split; [exact A|]. destruct (name_dec k k'); [congruence|exact B].
    + intros k' n. destruct (name_dec k k'); [discriminate|]. intros E. destruct (I5 k' n E) as [A B]. split; [exact A|]. destruct (name_dec (owner n) k); [congruence|exact B].
  - (* SetDefaultKey *)
    destruct So as (Vk & Ni & kid & ->). split; [|split; [|split; [|split]]]; auto.
    intros j k. destruct (name_dec i j) as [<-|N]; [|apply I4]. destruct (key_bits h (key_name i kid)) as [b|] eqn:E; [|apply I4]. intros [= <-]. rewrite owner_key. split; [reflexivity|]. congruence.
  - (* AddCert *)
    destruct So as (Vc & Ac & Kc). destruct (a_cert_owner _ Ac) as (Ak & _). split; [|split; [|split; [|split]]].
    + intros j. destruct (def_id h) as [d|]; intros [= <-]; [|destruct (name_dec (owner (owner (ct_name c))) (owner (owner (ct_name c)))); congruence]. destruct (name_dec _ d); auto.
    + intros k b. destruct (name_dec (owner (ct_name c)) k) as [<-|N].
      * intros [= <-]. split; [exact Ak|]. split; [apply owner_val; exact Vc|]. destruct (name_dec (owner (owner (ct_name c))) (owner (owner (ct_name c)))); congruence.
      * intros E. destruct (I2 k b E) as (A & B & D). destruct (name_dec _ (owner k)); auto.
    + intros n x. destruct (name_dec (ct_name c) n) as [<-|N].
      * intros [= <-]. repeat (split; [solve [auto]|]). destruct (name_dec (owner (ct_name c)) (owner (ct_name c))); [discriminate|congruence].
      * intros E. destruct (I3 n x E) as (A & B & D & F & G). repeat (split; [assumption|]). destruct (name_dec _ (owner n)); [discriminate|exact G].
    + intros i k. destruct (def_key h i) as [d|] eqn:Ed.
      * intros [= <-]. destruct (I4 i d Ed) as [A B]. split; [exact A|]. destruct (name_dec _ d); [discriminate|exact B].
      * destruct (name_dec _ i); intros [= <-]. split; [assumption|]. destruct (name_dec (owner (ct_name c)) (owner (ct_name c))); [discriminate|congruence].
    + intros k n. destruct (def_cert h k) as [d|] eqn:Ed.
      * intros [= <-]. destruct (I5 k d Ed) as [A B]. split; [exact A|]. destruct (name_dec _ d); [discriminate|exact B].
      * destruct (name_dec _ k); intros [= <-]. split; [assumption|]. destruct (name_dec (ct_name c) (ct_name c)); [discriminate|congruence].
  - (* RemoveCert *)
    split; [|split; [|split; [|split]]]; auto.
    + intros n' c. destruct (name_dec n n'); [discriminate|]. intros E. exact (I3 n' c E).
    + intros k n'. destruct (def_cert h k) as [d|] eqn:Ed; [|discriminate]. destruct (name_dec n d); intros [= <-]. destruct (I5 k d Ed) as [A B]. split; [exact A|]. destruct (name_dec n d); [congruence|exact B].
  - (* SetDefaultCert *)
    destruct So as (Vn & An & <-). split; [|split; [|split; [|split]]]; auto.
    intros k n'. destruct (name_dec (owner n) k) as [<-|N]; [|apply I5]. destruct (cert h n) as [x|] eqn:E; [|apply I5]. intros [= <-]. split; [reflexivity|]. congruence.
Qed.

(** ** Views of the state *)
Record fn : Type := Fn { f_id : name -> bool; f_def : option name; f_key : name -> option bytes; f_dk : name -> option name; f_cert : name -> option C; f_dc : name -> option name }.
Record view (s : pib) (F : fn) : Prop := View {
  v_ids : gd (ids s); v_keys : gd (keys s); v_dk : gd (defKeys s); v_certs : gd (certs s); v_dc : gd (defCerts s);
  e_id : forall n, nval n -> nget (ids s) n = if f_id F n then Some tt else None;
  e_def : defId s = f_def F;
  e_key : forall n, nval n -> nget (keys s) n = f_key F n;
  e_dk : forall n, nval n -> nget (defKeys s) n = f_dk F n;
  e_cert : forall n, nval n -> nget (certs s) n = f_cert F n;
  e_dc : forall n, nval n -> nget (defCerts s) n = f_dc F n }.
Record closed (F : fn) : Prop := Closed {
  c_key : forall k b, nval k -> f_key F k = Some b -> a_key k;
  c_cert : forall n c, nval n -> f_cert F n = Some c -> ct_name c = n /\ a_cert n /\ f_key F (owner n) <> None;
  c_dk : forall i k, nval i -> f_dk F i = Some k -> owner k = i /\ nval k /\ f_key F k <> None;
  c_dc : forall k n, nval k -> f_dc F k = Some n -> owner n = k /\ nval n /\ f_cert F n <> None }.
Lemma view_ext : forall s F F', view s F -> (forall n, nval n -> f_id F' n = f_id F n) -> f_def F' = f_def F -> (forall n, nval n -> f_key F' n = f_key F n) ->
  (forall n, nval n -> f_dk F' n = f_dk F n) -> (forall n, nval n -> f_cert F' n = f_cert F n) -> (forall n, nval n -> f_dc F' n = f_dc F n) -> view s F'.
Proof. intros s F F' [] H1 H2 H3 H4 H5 H6. constructor; try assumption; try (intros n Vn; rewrite ?H1, ?H3, ?H4, ?H5, ?H6 by assumption; auto). congruence. Qed.
Definition has (l : list name) (n : name) : bool := if in_dec name_dec n l then true else false.
Lemma has_iff : forall l n, has l n = true <-> In n l.
Proof. intros l n. unfold has. destruct (in_dec name_dec n l); split; intros; congruence || auto. Qed.
Lemma has_cons : forall l x n, has (x :: l) n = if name_dec x n then true else has l n.
Proof.
  intros l x n. destruct (name_dec x n) as [->|N]; [apply has_iff; left; reflexivity|]. destruct (has l n) eqn:E; [apply has_iff; right; apply has_iff; exact E|].
  destruct (has (x :: l) n) eqn:E2; [|reflexivity]. apply has_iff in E2. destruct E2 as [E2|E2]; [congruence|]. apply has_iff in E2. congruence.
Qed.

(** removeCertificate *)
Definition dropCert (F : fn) (l : list name) : fn :=
  Fn (f_id F) (f_def F) (f_key F) (f_dk F) (fun n => if has l n then None else f_cert F n)
     (fun k => match f_dc F k with Some d => if has l d then None else Some d | None => None end).
Definition dc_ok (F : fn) : Prop := forall k n, nval k -> f_dc F k = Some n -> owner n = k /\ nval n.
Lemma removeCertificate_view : forall s F n, view s F -> dc_ok F -> nval n -> a_cert n -> exists s', removeCertificate s n = (s', Ok tt) /\ view s' (dropCert F [n]).
Proof.
  intros s F n Vw Dc Vn An. destruct (a_cert_owner n An) as (_ & Ek & _). unfold removeCertificate. rewrite Ek. cbn [defCerts]. pose proof (owner_val n Vn) as Vo.
  destruct Vw as [G1 G2 G3 G4 G5 E1 E2 E3 E4 E5 E6]. rewrite (E6 _ Vo).
  assert (Dn : forall n', nval n' -> has [n] n' = if name_dec n n' then true else false) by (intros n' _; rewrite has_cons; reflexivity).
  assert (Ce : forall n', nval n' -> nget (ndrop (certs s) n) n' = if has [n] n' then None else f_cert F n').
  { intros n' V'. rewrite drop_n, (Dn n' V') by assumption. destruct (name_dec n n'); auto. }
  destruct (f_dc F (owner n)) as [d|] eqn:Ed.
  - destruct (Dc _ _ Vo Ed) as [Od Vd]. rewrite (equals_dec d n Vd Vn). destruct (name_dec d n) as [->|N].
    + eexists. split; [reflexivity|]. constructor; cbn [ids keys defKeys certs defCerts defId dropCert f_id f_def f_key f_dk f_cert f_dc]; auto using gd_drop.
      intros k Vk. rewrite drop_n by assumption. destruct (name_dec (owner n) k) as [<-|N]; [rewrite Ed, (Dn n Vn); destruct (name_dec n n); congruence|].
      rewrite (E6 k Vk). destruct (f_dc F k) as [d|] eqn:Ek'; [|reflexivity]. destruct (Dc _ _ Vk Ek') as [O V']. rewrite (Dn d V'). destruct (name_dec n d); congruence.
    + eexists. split; [reflexivity|]. constructor; cbn [ids keys defKeys certs defCerts defId dropCert f_id f_def f_key f_dk f_cert f_dc]; auto using gd_drop.
      intros k Vk. rewrite (E6 k Vk). destruct (f_dc F k) as [d'|] eqn:Ek'; [|reflexivity]. destruct (Dc _ _ Vk Ek') as [O V']. rewrite (Dn d' V'). destruct (name_dec n d'); [|reflexivity]. subst d'. exfalso. apply N. congruence.
  - eexists. split; [reflexivity|]. constructor; cbn [ids keys defKeys certs defCerts defId dropCert f_id f_def f_key f_dk f_cert f_dc]; auto using gd_drop.
    intros k Vk. rewrite (E6 k Vk). destruct (f_dc F k) as [d'|] eqn:Ek'; [|reflexivity]. destruct (Dc _ _ Vk Ek') as [O V']. rewrite (Dn d' V'). destruct (name_dec n d'); [|reflexivity]. subst d'. exfalso. congruence.
Qed.
Lemma removeCertificates_view : forall l s F, view s F -> dc_ok F -> (forall n, In n l -> nval n /\ a_cert n) -> exists s', removeCertificates s l = (s', Ok tt) /\ view s' (dropCert F l).
Proof.
  induction l as [|n l IH]; intros s F Vw Dc Hl; cbn [removeCertificates].
  - exists s. split; [reflexivity|]. eapply view_ext; [exact Vw|..]; cbn; auto. intros k _. destruct (f_dc F k); reflexivity.
  - destruct (Hl n) as [Vn An]; [left; reflexivity|]. destruct (removeCertificate_view s F n Vw Dc Vn An) as (s1 & E & V1). rewrite E.
    destruct (IH s1 (dropCert F [n]) V1) as (s2 & E2 & V2); [|intros m I; apply Hl; right; exact I|].
    + intros k m Vk. cbn [dropCert f_dc]. destruct (f_dc F k) as [d|] eqn:Ed; [|discriminate]. destruct (has [n] d); [discriminate|]. intros [= <-]. apply (Dc k d); assumption.
    + exists s2. split; [exact E2|]. eapply view_ext; [exact V2|..]; cbn [dropCert f_id f_def f_key f_dk f_cert f_dc]; auto.
      * intros m _. rewrite !has_cons. cbn. destruct (name_dec n m); destruct (has l m); reflexivity.
      * intros k _. destruct (f_dc F k) as [d|]; [|reflexivity]. rewrite !has_cons. cbn. destruct (name_dec n d); [reflexivity|]. reflexivity.
Qed.
Lemma certificatesOf_ok : forall d k, (forall n c, In (n, c) d -> nval n /\ ct_name c = n /\ a_cert n) -> nval k -> exists l, certificatesOf ct_name d k = Ok l /\ forall n, In n l <-> (exists c, In (n, c) d) /\ owner n = k.
Proof.
  induction d as [|[n c] d IH]; intros k Hd Vk; cbn [certificatesOf].
  - exists []. split; [reflexivity|]. intros n. split; [intros []|intros [[c []] _]].
  - destruct (Hd n c) as (Vn & En & An); [left; reflexivity|]. rewrite En. destruct (a_cert_owner n An) as (_ & Ek & _). rewrite Ek. destruct (IH k) as (l & El & Hl); [intros m x I; apply Hd; right; exact I|exact Vk|]. rewrite El. cbn [rbind].
    rewrite (equals_dec (owner n) k (owner_val n Vn) Vk). eexists. split; [reflexivity|]. intros m. destruct (name_dec (owner n) k) as [Eo|No]; cbn [In]; rewrite ?Hl; split.
    + intros [<-|[[x I] O]]; [split; [exists c; auto|exact Eo]|split; [exists x; auto|exact O]].
    + intros [[x [I|I]] O]; [injection I as -> ->; auto|right; split; [exists x; exact I|exact O]].
    + intros [[x I] O]. split; [exists x; auto|exact O].
    + intros [[x [I|I]] O]; [injection I as -> ->; congruence|]. split; [exists x; exact I|exact O].
Qed.
(** removeKey *)
Definition dropKeys (F : fn) (i : name) (l : list name) : fn :=
  Fn (f_id F) (f_def F) (fun k => if has l k then None else f_key F k) (fun j => if name_dec j i then match l with [] => f_dk F j | _ => None end else f_dk F j)
     (fun n => if has l (owner n) then None else f_cert F n) (fun k => if has l k then None else f_dc F k).
Lemma ord_in : forall l x, In x (ord l) <-> In x l.
Proof. intros l x. split; apply Permutation_in; [apply Permutation_sym|]; apply Ho. Qed.
Lemma ord_out : forall l x, In x (ord l) -> In x l.
Proof. intros l x. apply ord_in. Qed.
Lemma ord_to : forall l x, In x l -> In x (ord l).
Proof. intros l x. apply ord_in. Qed.
Lemma removeKey_view : forall s F k, view s F -> closed F -> nval k -> a_key k -> exists s', removeKey s k = (s', Ok tt) /\ view s' (dropKeys F (owner k) [k]).
Proof.
  intros s F k Vw Cl Vk Ak. unfold PibModel.removeKey. destruct (a_key_owner k Ak) as [_ Ei]. rewrite Ei. unfold getCertificatesOfKey. cbn [certs].
  destruct (certificatesOf_ok (certs s) k) as (l & El & Hl); [|exact Vk|].
  { intros n c I. destruct (in_n _ _ _ _ (v_certs _ _ Vw) I) as [Vn G]. rewrite (e_cert _ _ Vw n Vn) in G. destruct (c_cert F Cl n c Vn G) as (A & B & _). auto. }
  rewrite El. set (s1 := Pib (tpm s) (defId s) (ids s) (ndrop (defKeys s) (owner k)) (ndrop (keys s) k) (defCerts s) (certs s)).
  set (F1 := Fn (f_id F) (f_def F) (fun x => if name_dec k x then None else f_key F x) (fun j => if name_dec (owner k) j then None else f_dk F j) (f_cert F) (f_dc F)).
  assert (V1 : view s1 F1).
  { pose proof (owner_val k Vk). destruct Vw. constructor; cbn [s1 F1 ids keys defKeys certs defCerts defId f_id f_def f_key f_dk f_cert f_dc]; auto using gd_drop; intros n Vn; rewrite drop_n by assumption; [rewrite <- e_key0 by assumption|rewrite <- e_dk0 by assumption]; reflexivity. }
  assert (Hin : forall n, nval n -> In n l <-> f_cert F n <> None /\ owner n = k).
  { intros n Vn. rewrite Hl. rewrite <- (e_cert _ _ Vw n Vn). split; intros [A B]; (split; [|exact B]).
    - destruct A as [c I]. destruct (in_n _ _ _ _ (v_certs _ _ Vw) I) as [_ G]. congruence.
    - destruct (nget (certs s) n) as [c|] eqn:E; [|congruence]. exists c. apply (n_in _ _ _ _ (v_certs _ _ Vw) Vn E). }
  destruct (removeCertificates_view (ord l) s1 F1 V1) as (s2 & E2 & V2).
  - intros k' n V'. cbn [F1 f_dc]. intros E. destruct (c_dc F Cl k' n V' E) as (A & B & _). auto.
  - intros n I. apply ord_out in I. apply Hl in I. destruct I as [[c I] _]. destruct (in_n _ _ _ _ (v_certs _ _ Vw) I) as [Vn G]. rewrite (e_cert _ _ Vw n Vn) in G. destruct (c_cert F Cl n c Vn G) as (A & B & _). auto.
  - exists s2. split; [exact E2|]. eapply view_ext; [exact V2|..]; cbn [dropCert dropKeys F1 f_id f_def f_key f_dk f_cert f_dc]; auto.
    + intros n _. rewrite has_cons. cbn. destruct (name_dec k n); reflexivity.
    + intros j _. destruct (name_dec j (owner k)), (name_dec (owner k) j); congruence.
    + intros n Vn. rewrite has_cons. cbn. destruct (has (ord l) n) eqn:E.
      * apply has_iff in E. apply ord_out in E. apply (Hin n Vn) in E. destruct E as [_ <-]. destruct (name_dec (owner n) (owner n)); congruence.
      * destruct (name_dec k (owner n)) as [E'|_]; [|reflexivity]. destruct (f_cert F n) eqn:Ec; [|reflexivity]. exfalso. assert (X : In n l) by (apply (Hin n Vn); split; congruence). apply ord_to in X. apply has_iff in X. congruence.
    + intros k' V'. rewrite has_cons. cbn. destruct (f_dc F k') as [d|] eqn:Ed; [|destruct (name_dec k k'); reflexivity]. destruct (c_dc F Cl k' d V' Ed) as (O & Vd & N). destruct (has (ord l) d) eqn:E.
      * apply has_iff in E. apply ord_out in E. apply (Hin d Vd) in E. destruct (name_dec k k'); [reflexivity|]. exfalso. destruct E. congruence.
      * destruct (name_dec k k') as [->|_]; [|reflexivity]. exfalso. assert (X : In d l) by (apply (Hin d Vd); auto). apply ord_to in X. apply has_iff in X. congruence.
Qed.
Lemma dropKeys_closed : forall F k, closed F -> closed (dropKeys F (owner k) [k]).
Proof.
  intros F k [A B D E]. constructor; cbn [dropKeys f_id f_def f_key f_dk f_cert f_dc].
  - intros k' b V'. destruct (has [k] k'); [discriminate|]. apply A. exact V'.
  - intros n c Vn. destruct (has [k] (owner n)) eqn:Eh; [discriminate|]. apply B. exact Vn.
  - intros i k' Vi. destruct (name_dec i (owner k)); [discriminate|]. intros X. destruct (D i k' Vi X) as (D1 & D2 & D3). split; [exact D1|]. split; [exact D2|]. rewrite has_cons. cbn. destruct (name_dec k k'); [congruence|exact D3].
  - intros k' n V'. rewrite !has_cons. cbn. destruct (name_dec k k') as [|N]; [discriminate|]. intros X. destruct (E k' n V' X) as (E1 & E2 & E3). split; [exact E1|]. split; [exact E2|]. destruct (name_dec k (owner n)); [congruence|exact E3].
Qed.
Lemma removeKeys_view : forall l i s F, view s F -> closed F -> (forall k, In k l -> nval k /\ a_key k /\ owner k = i) -> exists s', removeKeys s l = (s', Ok tt) /\ view s' (dropKeys F i l).
Proof.
  induction l as [|k l IH]; intros i s F Vw Cl Hl; cbn [PibModel.removeKeys].
  - exists s. split; [reflexivity|]. eapply view_ext; [exact Vw|..]; cbn; auto. intros n _. destruct (name_dec n i); reflexivity.
  - destruct (Hl k) as (Vk & Ak & <-); [left; reflexivity|]. destruct (removeKey_view s F k Vw Cl Vk Ak) as (s1 & E & V1). rewrite E.
    destruct (IH (owner k) s1 _ V1 (dropKeys_closed F k Cl)) as (s2 & E2 & V2); [intros m I; apply Hl; right; exact I|].
    exists s2. split; [exact E2|]. eapply view_ext; [exact V2|..]; cbn [dropKeys f_id f_def f_key f_dk f_cert f_dc]; auto.
    + intros m _. rewrite !has_cons. cbn. destruct (name_dec k m); destruct (has l m); reflexivity.
    + intros m _. destruct (name_dec m (owner k)); [destruct l; reflexivity|reflexivity].
    + intros m _. rewrite !has_cons. cbn. destruct (name_dec k (owner m)); destruct (has l (owner m)); reflexivity.
    + intros m _. rewrite !has_cons. cbn. destruct (name_dec k m); destruct (has l m); reflexivity.
Qed.
Lemma keysOf_ok : forall d i, (forall k b, In (k, b) d -> nval k /\ a_key k) -> nval i -> exists l, keysOf d i = Ok l /\ forall k, In k l <-> (exists b, In (k, b) d) /\ owner k = i.
Proof.
  induction d as [|[n c] d IH]; intros k Hd Vk; cbn [keysOf].
  - exists []. split; [reflexivity|]. intros n. split; [intros []|intros [[c []] _]].
  - destruct (Hd n c) as (Vn & An); [left; reflexivity|]. destruct (a_key_owner n An) as (_ & Ek). rewrite Ek. destruct (IH k) as (l & El & Hl); [intros m x I; apply (Hd m x); right; exact I|exact Vk|]. rewrite El. cbn [rbind].
    rewrite (equals_dec k (owner n) Vk (owner_val n Vn)). eexists. split; [reflexivity|]. intros m. destruct (name_dec k (owner n)) as [Eo|No]; cbn [In]; rewrite ?Hl; split.
    + intros [<-|[[x I] O]]; [split; [exists c; auto|symmetry; exact Eo]|split; [exists x; auto|exact O]].
    + intros [[x [I|I]] O]; [injection I as -> ->; auto|right; split; [exists x; exact I|exact O]].
    + intros [[x I] O]. split; [exists x; auto|exact O].
    + intros [[x [I|I]] O]; [injection I as -> ->; congruence|]. split; [exists x; exact I|exact O].
Qed.
Lemma keys_in : forall s F i, view s F -> closed F -> nval i -> exists l, getKeysOfIdentity s i = Ok l /\ (forall k, In k l -> nval k /\ a_key k /\ owner k = i) /\ (forall k, nval k -> In k l <-> f_key F k <> None /\ owner k = i).
Proof.
  intros s F i Vw Cl Vi. destruct (keysOf_ok (keys s) i) as (l & El & Hl); [|exact Vi|].
  { intros k b I. destruct (in_n _ _ _ _ (v_keys _ _ Vw) I) as [Vk G]. rewrite (e_key _ _ Vw k Vk) in G. split; [exact Vk|]. eapply (c_key F Cl); eassumption. }
  exists l. split; [exact El|]. split.
  - intros k I. apply Hl in I. destruct I as [[b I] O]. destruct (in_n _ _ _ _ (v_keys _ _ Vw) I) as [Vk G]. rewrite (e_key _ _ Vw k Vk) in G. split; [exact Vk|]. split; [eapply (c_key F Cl); eassumption|exact O].
  - intros k Vk. rewrite Hl, <- (e_key _ _ Vw k Vk). split; intros [A B]; (split; [|exact B]).
    + destruct A as [c I]. destruct (in_n _ _ _ _ (v_keys _ _ Vw) I) as [_ G]. congruence.
    + destruct (nget (keys s) k) as [c|] eqn:E; [|congruence]. exists c. apply (n_in _ _ _ _ (v_keys _ _ Vw) Vk E).
Qed.

Lemma certs_in : forall s F k, view s F -> closed F -> nval k -> exists l, getCertificatesOfKey ct_name s k = Ok l /\ (forall n, In n l -> nval n) /\ (forall n, nval n -> In n l <-> f_cert F n <> None /\ owner n = k).
Proof.
  intros s F k Vw Cl Vk. destruct (certificatesOf_ok (certs s) k) as (l & El & Hl); [|exact Vk|].
  { intros n c I. destruct (in_n _ _ _ _ (v_certs _ _ Vw) I) as [Vn G]. rewrite (e_cert _ _ Vw n Vn) in G. destruct (c_cert F Cl n c Vn G) as (A & B & _). auto. }
  exists l. split; [exact El|]. split.
  - intros n I. apply Hl in I. destruct I as [[b I] O]. destruct (in_n _ _ _ _ (v_certs _ _ Vw) I) as [Vn G]. exact Vn.
  - intros n Vn. rewrite Hl, <- (e_cert _ _ Vw n Vn). split; intros [A B]; (split; [|exact B]).
    + destruct A as [c I]. destruct (in_n _ _ _ _ (v_certs _ _ Vw) I) as [_ G]. congruence.
    + destruct (nget (certs s) n) as [c|] eqn:E; [|congruence]. exists c. apply (n_in _ _ _ _ (v_certs _ _ Vw) Vn E).
Qed.
(** removeIdentity *)
Definition dropId (F : fn) (i : name) : fn :=
  Fn (fun j => if name_dec i j then false else f_id F j) (match f_def F with Some d => if name_dec i d then None else Some d | None => None end)
     (fun k => if name_dec (owner k) i then None else f_key F k) (fun j => if name_dec i j then None else f_dk F j)
     (fun n => if name_dec (owner (owner n)) i then None else f_cert F n) (fun k => if name_dec (owner k) i then None else f_dc F k).
Lemma removeIdentity_view : forall s F i, view s F -> closed F -> (forall d, f_def F = Some d -> nval d) -> nval i -> exists s', removeIdentity s i = (s', Ok tt) /\ view s' (dropId F i).
Proof.
  intros s F i Vw Cl Vd Vi. unfold PibModel.removeIdentity.
  set (s1 := Pib (tpm s) (match defId s with Some d => if n_equals i d then None else Some d | None => None end) (ndrop (ids s) i) (defKeys s) (keys s) (defCerts s) (certs s)).
  set (F1 := Fn (fun j => if name_dec i j then false else f_id F j) (match f_def F with Some d => if name_dec i d then None else Some d | None => None end) (f_key F) (f_dk F) (f_cert F) (f_dc F)).
  assert (V1 : view s1 F1).
  { destruct Vw. constructor; cbn [s1 F1 ids keys defKeys certs defCerts defId f_id f_def f_key f_dk f_cert f_dc]; auto using gd_drop.
    - intros n Vn. rewrite drop_n, e_id0 by assumption. destruct (name_dec i n); reflexivity.
    - rewrite e_def0. destruct (f_def F) as [d|]; [|reflexivity]. rewrite (equals_dec i d Vi (Vd d eq_refl)). destruct (name_dec i d); reflexivity. }
  assert (Cl1 : closed F1) by (destruct Cl; constructor; assumption).
  destruct (keys_in s1 F1 i V1 Cl1 Vi) as (l & El & Hl & Hin). rewrite El.
  destruct (removeKeys_view (ord l) i s1 F1 V1 Cl1) as (s2 & E2 & V2); [intros k I; apply Hl, ord_out, I|].
  exists s2. split; [exact E2|].
  assert (Hk : forall k, nval k -> has (ord l) k = true <-> f_key F k <> None /\ owner k = i).
  { intros k Vk. rewrite has_iff, ord_in. apply (Hin k Vk). }
  eapply view_ext; [exact V2|..]; cbn [dropKeys dropId F1 f_id f_def f_key f_dk f_cert f_dc]; auto.
  - intros k Vk. specialize (Hk k Vk). destruct (has (ord l) k) eqn:E.
    + destruct Hk as [Hk _]. destruct (Hk eq_refl) as [_ O]. destruct (name_dec (owner k) i); congruence.
    + destruct (name_dec (owner k) i) as [O|_]; [|reflexivity]. destruct (f_key F k) eqn:Ek; [|reflexivity]. destruct Hk as [_ Hk]. discriminate Hk. split; congruence.
  - intros j Vj. destruct (name_dec i j) as [<-|N]; destruct (name_dec _ i) as [E|N']; try congruence. destruct (ord l) eqn:Eo; [|reflexivity]. destruct (f_dk F i) as [k|] eqn:Ed; [|reflexivity]. exfalso.
    destruct (c_dk F Cl i k Vi Ed) as (O & Vk & Nk). specialize (Hk k Vk). cbn in Hk. destruct Hk as [_ Hk]. discriminate Hk. auto.
  - intros n Vn. destruct (has (ord l) (owner n)) eqn:E.
    + apply (Hk _ (owner_val n Vn)) in E. destruct E as [_ O]. destruct (name_dec _ i); congruence.
    + destruct (name_dec (owner (owner n)) i) as [O|_]; [|reflexivity]. destruct (f_cert F n) as [c|] eqn:Ec; [|reflexivity]. exfalso. destruct (c_cert F Cl n c Vn Ec) as (_ & _ & Nk). assert (X : has (ord l) (owner n) = true) by (apply (Hk _ (owner_val n Vn)); auto). congruence.
  - intros k Vk. destruct (has (ord l) k) eqn:E.
    + apply (Hk _ Vk) in E. destruct E as [_ O]. destruct (name_dec _ i); congruence.
    + destruct (name_dec (owner k) i) as [O|_]; [|reflexivity]. destruct (f_dc F k) as [n|] eqn:Ec; [|reflexivity]. exfalso. destruct (c_dc F Cl k n Vk Ec) as (On & Vn & Nc). destruct (f_cert F n) as [c|] eqn:Ecn; [|congruence]. destruct (c_cert F Cl n c Vn Ecn) as (_ & _ & Nk). rewrite On in Nk.
      assert (X : has (ord l) k = true) by (apply (Hk _ Vk); auto). congruence.
Qed.

(** ** The state after a history of calls *)
Definition spec_fn (h : list (call C)) : fn := Fn (ident h) (def_id h) (key_bits h) (def_key h) (cert h) (def_cert h).
Lemma spec_fn_closed : forall h, Forall sane h -> closed (spec_fn h).
Proof.
  intros h S. destruct (spec_closed h S) as (H1 & H2 & H3 & H4 & H5). constructor; cbn [spec_fn f_id f_def f_key f_dk f_cert f_dc].
  - intros k b _ E. apply (H2 k b E).
  - intros n c _ E. destruct (H3 n c E) as (A & B & D & F & G). auto.
  - intros i k _ E. destruct (H4 i k E) as [A B]. split; [exact A|]. split; [|exact B]. destruct (key_bits h k) as [b|] eqn:Eb; [|congruence]. apply (H2 k b Eb).
  - intros k n _ E. destruct (H5 k n E) as [A B]. split; [exact A|]. split; [|exact B]. destruct (cert h n) as [c|] eqn:Ec; [|congruence]. apply (H3 n c Ec).
Qed.
Lemma def_id_val : forall h d, Forall sane h -> def_id h = Some d -> nval d.
Proof.
  induction h as [|o h IH]; intros d S; [discriminate|]. inversion S as [|? ? So Sh]; subst.
  destruct o as [i|i| |i|i k b|k|i k|c|n|k n]; cbn [PibSpec.def_id PibSpec.sane] in *; auto.
  - specialize (IH) with (1 := Sh). destruct (def_id h); intros [= <-]; auto.
  - destruct (def_id h) as [e|]; [|discriminate]. destruct (name_dec i e); intros [= <-]. auto.
  - discriminate.
  - intros [= <-]. exact So.
  - destruct So as (Vk & Ni & kid & ->). specialize (IH) with (1 := Sh). destruct (def_id h); intros [= <-]; auto. rewrite <- (owner_key i kid). apply owner_val. exact Vk.
  - destruct So as (Vk & _). specialize (IH) with (1 := Sh). destruct (def_id h); intros [= <-]; auto. apply owner_val, owner_val. exact Vk.
Qed.
Lemma din_get : forall V (d : dict name V) n, din n_equals d n = match nget d n with Some _ => true | None => false end.
Proof. intros V d n. unfold din. reflexivity. Qed.
Lemma if_swap : forall A (a b : name) (x y : A), (if name_dec a b then x else y) = (if name_dec b a then x else y).
Proof. intros. destruct (name_dec a b), (name_dec b a); congruence. Qed.
Definition addIdF (F : fn) (i : name) : fn := Fn (fun j => if name_dec i j then true else f_id F j) (match f_def F with None => Some i | d => d end) (f_key F) (f_dk F) (f_cert F) (f_dc F).
Lemma addIdentity_view : forall s F i, view s F -> nval i -> view (addIdentity s i) (addIdF F i).
Proof.
  intros s F i [] Vi. constructor; cbn [addIdentity addIdF ids keys defKeys certs defCerts defId f_id f_def f_key f_dk f_cert f_dc]; auto using gd_set.
  - intros n Vn. rewrite set_n, e_id0 by assumption. destruct (name_dec i n); reflexivity.
  - rewrite e_def0. destruct (f_def F); reflexivity.
Qed.
Definition addKeyF (F : fn) (i k : name) (b : bytes) : fn :=
  Fn (fun j => if name_dec i j then true else f_id F j) (match f_def F with None => Some i | d => d end) (fun x => if name_dec k x then Some b else f_key F x)
     (fun j => match f_dk F j with None => if name_dec i j then Some k else None | d => d end) (f_cert F) (f_dc F).
Lemma addKey_view : forall s F i k b, view s F -> nval i -> nval k -> view (addKey s i k b) (addKeyF F i k b).
Proof.
  intros s F i k b Vw Vi Vk. pose proof (addIdentity_view s F i Vw Vi) as V1. unfold addKey. set (s1 := addIdentity s i) in *. destruct V1 as [G1 G2 G3 G4 G5 E1 E2 E3 E4 E5 E6]. cbn [addIdF f_id f_def f_key f_dk f_cert f_dc] in *.
  cbv zeta. rewrite din_get, (E4 i Vi). constructor; cbn [addKeyF ids keys defKeys certs defCerts defId f_id f_def f_key f_dk f_cert f_dc]; auto using gd_set.
  - destruct (f_dk F i); auto using gd_set.
  - intros n Vn. rewrite set_n, E3 by assumption. reflexivity.
  - intros n Vn. destruct (f_dk F i) as [d|] eqn:Ed.
    + rewrite (E4 n Vn). destruct (f_dk F n) eqn:En; [reflexivity|]. destruct (name_dec i n); congruence.
    + rewrite set_n, E4 by assumption. destruct (name_dec i n) as [<-|N]; [rewrite Ed; reflexivity|]. destruct (f_dk F n); reflexivity.
Qed.
Lemma exec_view : forall s h o, Forall sane h -> sane o -> view s (spec_fn h) -> exists s', exec s o = (s', outcome h o) /\ view s' (spec_fn (o :: h)).
Proof.
  intros s h o Sh So Vw. pose proof (spec_fn_closed h Sh) as Cl. pose proof (fun d => def_id_val h d Sh) as Vd.
  destruct o as [i|i| |i|i k b|k|i k|c|n|k n]; cbn [PibModel.exec PibSpec.outcome PibSpec.sane] in *.
  - eexists. split; [reflexivity|]. apply (addIdentity_view s (spec_fn h) i); assumption.
  - destruct (removeIdentity_view s (spec_fn h) i Vw Cl Vd So) as (s' & E & V'). exists s'. split; [exact E|exact V'].
  - eexists. split; [reflexivity|]. constructor; cbn; auto using gd_nil.
  - eexists. split; [reflexivity|]. destruct (addIdentity_view s (spec_fn h) i Vw So) as [G1 G2 G3 G4 G5 E1 E2 E3 E4 E5 E6]. constructor; auto.
  - destruct So as (Vk & Ni & kid & ->). eexists. split; [reflexivity|]. apply (addKey_view s (spec_fn h)); [assumption| |assumption]. rewrite <- (owner_key i kid). apply owner_val. exact Vk.
  - destruct So as (Vk & Ak). destruct (removeKey_view s (spec_fn h) k Vw Cl Vk Ak) as (s' & E & V'). exists s'. split; [exact E|]. eapply view_ext; [exact V'|..]; cbn [dropKeys spec_fn f_id f_def f_key f_dk f_cert f_dc PibSpec.ident PibSpec.def_id PibSpec.key_bits PibSpec.cert PibSpec.def_key PibSpec.def_cert]; auto.
    + intros m _. rewrite has_cons. cbn. destruct (name_dec k m); reflexivity.
    + intros m _. apply if_swap.
    + intros m _. rewrite has_cons. cbn. destruct (name_dec k (owner m)), (name_dec (owner m) k); congruence.
    + intros m _. rewrite has_cons. cbn. destruct (name_dec k m); reflexivity.
  - destruct So as (Vk & Ni & kid & ->). assert (Vi : nval i) by (rewrite <- (owner_key i kid); apply owner_val; exact Vk). unfold setDefaultKeyOfIdentity, hasKey. rewrite din_get, (e_key _ _ Vw _ Vk). cbn [spec_fn f_key].
    destruct (key_bits h (key_name i kid)) as [b|] eqn:Eb.
    + eexists. split; [reflexivity|]. destruct Vw. constructor; cbn [spec_fn ids keys defKeys certs defCerts defId f_id f_def f_key f_dk f_cert f_dc PibSpec.ident PibSpec.def_id PibSpec.key_bits PibSpec.cert PibSpec.def_key PibSpec.def_cert]; auto using gd_set.
      intros j Vj. rewrite set_n, e_dk0, Eb by assumption. reflexivity.
    + eexists. split; [reflexivity|]. eapply view_ext; [exact Vw|..]; cbn [spec_fn f_id f_def f_key f_dk f_cert f_dc PibSpec.ident PibSpec.def_id PibSpec.key_bits PibSpec.cert PibSpec.def_key PibSpec.def_cert]; auto.
      intros j _. rewrite Eb. destruct (name_dec i j); reflexivity.
  - destruct So as (Vc & Ac & Kc). destruct (a_cert_owner _ Ac) as (Ak & _ & Ek & Ei). unfold addCertificate. rewrite Ek, Ei, Kc. cbv zeta.
    pose proof (owner_val _ Vc) as Vk. pose proof (owner_val _ Vk) as Vi. pose proof (addKey_view s (spec_fn h) _ _ (ct_content c) Vw Vi Vk) as V1. set (s1 := addKey s _ _ _) in *. destruct V1 as [G1 G2 G3 G4 G5 E1 E2 E3 E4 E5 E6].
    cbn [addKeyF spec_fn f_id f_def f_key f_dk f_cert f_dc] in *. rewrite din_get, (E6 _ Vk).
    eexists. split; [reflexivity|]. constructor; cbn [spec_fn ids keys defKeys certs defCerts defId f_id f_def f_key f_dk f_cert f_dc PibSpec.ident PibSpec.def_id PibSpec.key_bits PibSpec.cert PibSpec.def_key PibSpec.def_cert]; auto using gd_set.
    + destruct (def_cert h (owner (ct_name c))); auto using gd_set.
    + intros n Vn. rewrite set_n, E5 by assumption. reflexivity.
    + intros n Vn. destruct (def_cert h (owner (ct_name c))) as [d|] eqn:Ed.
      * rewrite (E6 n Vn). destruct (def_cert h n) eqn:En; [reflexivity|]. destruct (name_dec _ n); congruence.
      * rewrite set_n, E6 by assumption. destruct (name_dec _ n) as [<-|N]; [rewrite Ed; reflexivity|]. destruct (def_cert h n); reflexivity.
  - destruct So as (Vn & An). destruct (removeCertificate_view s (spec_fn h) n Vw) as (s' & E & V'); [|assumption|assumption|].
    + intros k m Vk E. destruct (c_dc _ Cl k m Vk E) as (A & B & _). auto.
    + exists s'. split; [exact E|]. eapply view_ext; [exact V'|..]; cbn [dropCert spec_fn f_id f_def f_key f_dk f_cert f_dc PibSpec.ident PibSpec.def_id PibSpec.key_bits PibSpec.cert PibSpec.def_key PibSpec.def_cert]; auto.
      * intros m _. rewrite has_cons. cbn. destruct (name_dec n m); reflexivity.
      * intros m _. destruct (def_cert h m) as [d|]; [|reflexivity]. rewrite has_cons. cbn. destruct (name_dec n d); reflexivity.
  - destruct So as (Vn & An & <-). pose proof (owner_val _ Vn) as Vk. unfold setDefaultCertificateOfKey, hasCertificate. rewrite din_get, (e_cert _ _ Vw _ Vn). cbn [spec_fn f_cert].
    destruct (cert h n) as [b|] eqn:Eb.
    + eexists. split; [reflexivity|]. destruct Vw. constructor; cbn [spec_fn ids keys defKeys certs defCerts defId f_id f_def f_key f_dk f_cert f_dc PibSpec.ident PibSpec.def_id PibSpec.key_bits PibSpec.cert PibSpec.def_key PibSpec.def_cert]; auto using gd_set.
      intros j Vj. rewrite set_n, e_dc0, Eb by assumption. reflexivity.
    + eexists. split; [reflexivity|]. eapply view_ext; [exact Vw|..]; cbn [spec_fn f_id f_def f_key f_dk f_cert f_dc PibSpec.ident PibSpec.def_id PibSpec.key_bits PibSpec.cert PibSpec.def_key PibSpec.def_cert]; auto.
      intros j _. rewrite Eb. destruct (name_dec _ j); reflexivity.
Qed.
Lemma run_view : forall h, Forall sane h -> view (run h) (spec_fn (rev h)).
Proof.
  induction h as [|o h IH] using rev_ind; intros S; [constructor; cbn; auto using gd_nil|].
  apply Forall_app in S. destruct S as [Sh So]. inversion So; subst. rewrite rev_app_distr. cbn [rev app].
  destruct (exec_view (run h) (rev h) o) as (s' & E & V'); [apply Forall_rev; exact Sh|assumption|apply IH; exact Sh|].
  unfold PibModel.run in *. rewrite fold_left_app. cbn [fold_left]. rewrite E. exact V'.
Qed.

(** ** The theorems *)
(** What every query answers after any history of calls with fitting names; the last conjunct:
    whether the next call raises. *)
Theorem C55_state : forall h, Forall sane h -> let s := run h in let r := rev h in
  (forall i, Forall c_valid i -> hasIdentity s i = ident r i) /\
  getDefaultIdentity s = match def_id r with Some i => Ok i | None => Err OtherError end /\
  (forall k, Forall c_valid k -> getKeyBits s k = match key_bits r k with Some b => Ok b | None => Err OtherError end) /\
  (forall i, Forall c_valid i -> getDefaultKeyOfIdentity s i = match def_key r i with Some k => Ok k | None => Err OtherError end) /\
  (forall n, Forall c_valid n -> getCertificate ct_check s n = match cert r n with Some c => Ok c | None => Err OtherError end) /\
  (forall k, Forall c_valid k -> getDefaultCertificateOfKey ct_check s k = match def_cert r k with Some n => match cert r n with Some c => Ok c | None => Err KeyError end | None => Err OtherError end) /\
  (forall i, Forall c_valid i -> exists l, getKeysOfIdentity s i = Ok l /\ forall k, In k l <-> Forall c_valid k /\ key_bits r k <> None /\ owner k = i) /\
  (forall k, Forall c_valid k -> exists l, getCertificatesOfKey ct_name s k = Ok l /\ forall n, In n l <-> Forall c_valid n /\ cert r n <> None /\ owner n = k) /\
  (forall i, In i (getIdentities s) <-> Forall c_valid i /\ ident r i = true) /\
  (forall o, sane o -> snd (exec s o) = outcome r o).
Proof.
  intros h S s r. pose proof (run_view h S) as Vw. fold s in Vw. fold r in Vw. assert (Sr : Forall sane r) by (apply Forall_rev; exact S). pose proof (spec_fn_closed r Sr) as Cl.
  destruct (spec_closed r Sr) as (_ & H2 & H3 & H4 & H5). split; [|split; [|split; [|split; [|split; [|split; [|split; [|split; [|split]]]]]]]].
  - intros i Vi. unfold hasIdentity. rewrite din_get, (e_id _ _ Vw i Vi). cbn. destruct (ident r i); reflexivity.
  - unfold getDefaultIdentity. rewrite (e_def _ _ Vw). reflexivity.
  - intros k Vk. unfold getKeyBits. rewrite (e_key _ _ Vw k Vk). reflexivity.
  - intros i Vi. unfold getDefaultKeyOfIdentity. rewrite (e_dk _ _ Vw i Vi). reflexivity.
  - intros n Vn. unfold getCertificate. rewrite (e_cert _ _ Vw n Vn). cbn [spec_fn f_cert]. destruct (cert r n) as [c|] eqn:E; [|reflexivity]. destruct (H3 n c E) as (_ & _ & _ & K & _). rewrite K. reflexivity.
  - intros k Vk. unfold getDefaultCertificateOfKey. rewrite (e_dc _ _ Vw k Vk). cbn [spec_fn f_dc]. destruct (def_cert r k) as [n|] eqn:En; [|reflexivity]. destruct (c_dc _ Cl k n Vk En) as (_ & Vn & _). rewrite (e_cert _ _ Vw n Vn). cbn [spec_fn f_cert]. destruct (cert r n) as [c|] eqn:E; [|reflexivity]. destruct (H3 n c E) as (_ & _ & _ & K & _). rewrite K. reflexivity.
  - intros i Vi. destruct (keys_in s _ i Vw Cl Vi) as (l & El & Hl & Hin). exists l. split; [exact El|]. intros k. split.
    + intros I. destruct (Hl k I) as (Vk & _). split; [exact Vk|]. apply (Hin k Vk). exact I.
    + intros [Vk I]. apply (Hin k Vk). exact I.
  - intros k Vk. destruct (certs_in s _ k Vw Cl Vk) as (l & El & Hl & Hin). exists l. split; [exact El|]. intros n. split.
    + intros I. pose proof (Hl n I) as Vn. split; [exact Vn|]. apply (Hin n Vn). exact I.
    + intros [Vn I]. apply (Hin n Vn). exact I.
  - intros i. unfold getIdentities. rewrite in_map_iff. split.
    + intros [[j []] [<- I]]. cbn [fst]. destruct (in_n _ _ _ _ (v_ids _ _ Vw) I) as [Vj G]. split; [exact Vj|]. rewrite (e_id _ _ Vw j Vj) in G. cbn [spec_fn f_id] in G. destruct (ident r j); congruence.
    + intros [Vi E]. exists (i, tt). split; [reflexivity|]. apply (n_in _ _ _ _ (v_ids _ _ Vw) Vi). rewrite (e_id _ _ Vw i Vi). cbn. rewrite E. reflexivity.
  - intros o So. destruct (exec_view s r o Sr So Vw) as (s' & E & _). rewrite E. reflexivity.
Qed.

(** After any history of calls with fitting names: the default identity exists, the identity of
    every key exists, the key of every certificate exists, the default key of an identity is one
    of its keys, the default certificate of a key is one of its certificates, and removing an
    identity removes every key and certificate under it. *)
Theorem C55_no_dangling : forall h, Forall sane h -> let s := run h in
  (forall i, getDefaultIdentity s = Ok i -> hasIdentity s i = true) /\
  (forall k b, Forall c_valid k -> getKeyBits s k = Ok b -> hasIdentity s (owner k) = true) /\
  (forall n c, Forall c_valid n -> getCertificate ct_check s n = Ok c -> ct_name c = n /\ hasKey s (owner n) = true) /\
  (forall i k, Forall c_valid i -> getDefaultKeyOfIdentity s i = Ok k -> owner k = i /\ hasKey s k = true) /\
  (forall k, Forall c_valid k -> getDefaultCertificateOfKey ct_check s k <> Err KeyError) /\
  (forall k c, Forall c_valid k -> getDefaultCertificateOfKey ct_check s k = Ok c -> owner (ct_name c) = k /\ hasCertificate s (ct_name c) = true).
Proof.
  intros h S s. pose proof (run_view h S) as Vw. fold s in Vw. set (r := rev h) in *. assert (Sr : Forall sane r) by (apply Forall_rev; exact S). destruct (spec_closed r Sr) as (H1 & H2 & H3 & H4 & H5).
  destruct (C55_state h S) as (Q1 & Q2 & Q3 & Q4 & Q5 & Q6 & _). fold s r in Q1, Q2, Q3, Q4, Q5, Q6.
  assert (Hk : forall k, nval k -> hasKey s k = match key_bits r k with Some _ => true | None => false end) by (intros k Vk; unfold hasKey; rewrite din_get, (e_key _ _ Vw k Vk); reflexivity).
  assert (Hc : forall k, nval k -> hasCertificate s k = match cert r k with Some _ => true | None => false end) by (intros k Vk; unfold hasCertificate; rewrite din_get, (e_cert _ _ Vw k Vk); reflexivity).
  split; [|split; [|split; [|split; [|split]]]].
  - intros i. rewrite Q2. destruct (def_id r) as [d|] eqn:Ed; intros [= <-]. rewrite Q1 by (eapply def_id_val; eassumption). apply H1. reflexivity.
  - intros k b Vk. rewrite (Q3 k Vk). destruct (key_bits r k) as [b'|] eqn:Eb; intros [= <-]. rewrite Q1 by (apply owner_val; exact Vk). apply (H2 k b' Eb).
  - intros n c Vn. rewrite (Q5 n Vn). destruct (cert r n) as [x|] eqn:E; intros [= <-]. destruct (H3 n x E) as (A & _ & _ & _ & B). split; [exact A|]. rewrite (Hk _ (owner_val n Vn)). destruct (key_bits r (owner n)); congruence.
  - intros i k Vi. rewrite (Q4 i Vi). destruct (def_key r i) as [d|] eqn:E; intros [= <-]. destruct (H4 i d E) as [A B]. split; [exact A|]. destruct (key_bits r d) as [b|] eqn:Eb; [|congruence]. destruct (H2 d b Eb) as (_ & Vd & _). rewrite (Hk d Vd), Eb. reflexivity.
  - intros k Vk. rewrite (Q6 k Vk). destruct (def_cert r k) as [n|] eqn:E; [|congruence]. destruct (H5 k n E) as [_ B]. destruct (cert r n); congruence.
  - intros k c Vk. rewrite (Q6 k Vk). destruct (def_cert r k) as [n|] eqn:E; [|congruence]. destruct (H5 k n E) as [A B]. destruct (cert r n) as [x|] eqn:Ex; intros [= <-]. destruct (H3 n x Ex) as (D & _ & F & _). rewrite D. split; [exact A|]. rewrite (Hc n F), Ex. reflexivity.
Qed.
(** removeIdentity takes its keys and certificates with it, in whatever order the sets are
    iterated, and touches nothing else. *)
Theorem C55_cascade : forall h i, Forall sane h -> Forall c_valid i -> let s := run h in let s' := run (h ++ [RemoveIdentity i]) in
  snd (exec s (RemoveIdentity i)) = Ok tt /\ hasIdentity s' i = false /\
  (forall k, Forall c_valid k -> getKeyBits s' k = if name_dec (owner k) i then Err OtherError else getKeyBits s k) /\
  (forall n, Forall c_valid n -> getCertificate ct_check s' n = if name_dec (owner (owner n)) i then Err OtherError else getCertificate ct_check s n) /\
  (forall j, Forall c_valid j -> j <> i -> hasIdentity s' j = hasIdentity s j /\ getDefaultKeyOfIdentity s' j = getDefaultKeyOfIdentity s j).
Proof.
  intros h i S Vi s s'. assert (S' : Forall sane (h ++ [RemoveIdentity i])) by (apply Forall_app; split; [exact S|constructor; [exact Vi|constructor]]).
  destruct (C55_state h S) as (Q1 & Q2 & Q3 & Q4 & Q5 & Q6 & _ & _ & _ & Q10). destruct (C55_state _ S') as (P1 & P2 & P3 & P4 & P5 & P6 & _). cbv zeta in *. rewrite rev_app_distr in *. cbn [rev app] in *. fold s in Q1, Q2, Q3, Q4, Q5, Q6, Q10. fold s' in P1, P2, P3, P4, P5, P6.
  split; [rewrite Q10; [reflexivity|exact Vi]|]. split; [rewrite P1 by assumption; cbn; destruct (name_dec i i); congruence|]. split; [|split].
  - intros k Vk. rewrite P3, Q3 by assumption. cbn. destruct (name_dec (owner k) i); reflexivity.
  - intros n Vn. rewrite P5, Q5 by assumption. cbn. destruct (name_dec (owner (owner n)) i); reflexivity.
  - intros j Vj N. rewrite P1, Q1, P4, Q4 by assumption. cbn. destruct (name_dec i j); [congruence|]. auto.
Qed.
(** Names that are not names of keys, or of certificates, are refused and change nothing. *)
Lemma drop_absent : forall V (d : dict name V) k, nget d k = None -> ndrop d k = d.
Proof.
  induction d as [|[k' v] d IH]; intros k; cbn [dget dremove]; [reflexivity|]. destruct (n_equals k' k); [discriminate|]. intros E. rewrite (IH k E). reflexivity.
Qed.
Theorem C55_refused : forall h, Forall sane h -> let s := run h in
  (forall k, Forall c_valid k -> (forall i kid, i <> [] -> k <> key_name i kid) -> exec s (RemoveKey k) = (s, Err ValueError)) /\
  (forall n, Forall c_valid n -> (forall i kid issuer version, n <> cert_name i kid issuer version) -> exec s (RemoveCert n) = (s, Err ValueError)).
Proof.
  intros h S s. split.
  - intros k Vk N. cbn [PibModel.exec]. unfold PibModel.removeKey. rewrite (C53_key_refused k Vk N). reflexivity.
  - intros n Vn N. cbn [PibModel.exec]. unfold removeCertificate. destruct (C53_certificate_refused n Vn N) as [_ ->]. rewrite drop_absent; [destruct s; reflexivity|]. pose proof (run_view h S) as Vw. fold s in Vw. rewrite (e_cert _ _ Vw n Vn). cbn [spec_fn f_cert].
    destruct (cert (rev h) n) as [c|] eqn:E; [|reflexivity]. exfalso. destruct (spec_closed (rev h)) as (_ & _ & H3 & _); [apply Forall_rev; exact S|]. destruct (H3 n c E) as (_ & (i & kid & a & b & _ & ->) & _). eapply N. reflexivity.
Qed.
End C55.

(** ** What does not hold *)
Section Ex.
Let CT : Type := (name * bytes)%type.
Let chk (c : CT) : res unit := Ok tt.
Let ord (l : list name) : list name := l.
Let exec' := PibModel.exec (C := CT) (@fst name bytes) (@snd name bytes) chk ord.
Let run' := PibModel.run (C := CT) (@fst name bytes) (@snd name bytes) chk ord.
Let g (b : Z) : comp := c_generic [b].
Let alice : name := [g 97].
Let bob : name := [g 98].
Let k1 : name := key_name alice (g 1).
Let k2 : name := key_name alice (g 2).
Let kb : name := key_name bob (g 1).
Let cert1 : CT := (cert_name alice (g 1) (g 9) (g 1), [7]).

(** "If the key does not exist, do nothing" (pib_memory.py 218-239): removing a key that does not
    exist forgets the default key of the identity. *)
Theorem C55_remove_absent_key_refuted : ~ (forall h k i, hasKey (run' h) k = false ->
  getDefaultKeyOfIdentity (run' (h ++ [RemoveKey k])) i = getDefaultKeyOfIdentity (run' h) i).
Proof. intros X. specialize (X [AddKey alice k1 [1]] k2 alice eq_refl). vm_compute in X. discriminate X. Qed.
(** A certificate of the empty identity is accepted, and then the keys of no identity at all can
    be listed and no identity can be removed without an exception. *)
Theorem C55_root_identity_refuted : ~ (forall h i, Forall c_valid i -> snd (exec' (run' h) (RemoveIdentity i)) = Ok tt).
Proof.
  intros X. assert (V : Forall c_valid alice) by (apply validb_ok; reflexivity). specialize (X [AddCert (cert_name [] (g 1) (g 9) (g 1), [7])] alice V). vm_compute in X. discriminate X.
Qed.
(** setDefaultKeyOfIdentity accepts a key of another identity, and removing that key then leaves
    the identity with a default key that does not exist. *)
Theorem C55_foreign_default_refuted : ~ (forall h i k, getDefaultKeyOfIdentity (run' h) i = Ok k -> hasKey (run' h) k = true).
Proof.
  intros X. specialize (X [AddKey alice k1 [1]; AddKey bob kb [2]; SetDefaultKey alice kb; RemoveKey kb] alice kb eq_refl). vm_compute in X. discriminate X.
Qed.
(** addCertificate replaces the bits of a key that is already there by the content of the
    certificate. *)
Theorem C55_certificate_key_refuted : ~ (forall h c k b, getKeyBits (run' h) k = Ok b -> getKeyBits (run' (h ++ [AddCert c])) k = Ok b).
Proof. intros X. specialize (X [AddKey alice k1 [1]] cert1 k1 [1] eq_refl). vm_compute in X. discriminate X. Qed.

(** ** Examples *)
Let h0 : list (PibModel.call CT) := [AddKey alice k1 [1]; AddKey alice k2 [2]; AddCert cert1; SetDefaultKey alice k2; AddKey bob kb [3]; RemoveIdentity bob].
Example C55_sane_example : Forall (sane (@fst name bytes) chk) h0.
Proof.
  unfold h0. do 6 (match goal with |- Forall _ (_ :: _) => apply Forall_cons | _ => idtac end). 7: apply Forall_nil. all: cbn [sane].
  - split; [apply validb_ok; reflexivity|]. split; [discriminate|exists (g 1); reflexivity].
  - split; [apply validb_ok; reflexivity|]. split; [discriminate|exists (g 2); reflexivity].
  - split; [apply validb_ok; reflexivity|]. split; [|reflexivity]. exists alice, (g 1), (g 9), (g 1). split; [discriminate|reflexivity].
  - split; [apply validb_ok; reflexivity|]. split; [discriminate|exists (g 2); reflexivity].
  - split; [apply validb_ok; reflexivity|]. split; [discriminate|exists (g 1); reflexivity].
  - apply validb_ok; reflexivity.
Qed.
Example C55_run_example :
  getDefaultIdentity (run' h0) = Ok alice /\ getDefaultKeyOfIdentity (run' h0) alice = Ok k2 /\ getKeyBits (run' h0) k1 = Ok [7] /\
  getDefaultCertificateOfKey chk (run' h0) k1 = Ok cert1 /\ hasIdentity (run' h0) bob = false /\ hasKey (run' h0) kb = false /\
  getKeysOfIdentity (run' h0) alice = Ok [k1; k2].
Proof. vm_compute. auto 10. Qed.
End Ex.
Print Assumptions C55_state.
Print Assumptions C55_no_dangling.
Print Assumptions C55_cascade.
Print Assumptions C55_refused.
