(** * Pib and its containers: the invariant *)
From Verif Require Import Base BaseLemmas NameModel NameSpec NameProofs DictModel DictProofs CertProofs HierModel HierSpec HierProps PibModel PibSpec PibProps FrontModel FrontSpec.
From Coq Require Import Permutation.

Lemma nth_same : forall A (l : list A) n x y, nth_error l n = Some y -> nth_error (update l n x) n = Some x.
Proof. induction l as [|z l IH]; intros [|n] x y E; cbn in *; try discriminate E; [reflexivity|]. eapply IH, E. Qed.
Lemma nth_other : forall A (l : list A) n m x, n <> m -> nth_error (update l n x) m = nth_error l m.
Proof. induction l as [|z l IH]; intros [|n] [|m] x N; cbn; try reflexivity; [congruence|]. apply IH. congruence. Qed.
Lemma nth_new : forall A (l : list A) x, nth_error (l ++ [x]) (length l) = Some x.
Proof. intros. rewrite nth_error_app2, Nat.sub_diag by lia. reflexivity. Qed.
Lemma nth_old : forall A (l : list A) x n y, nth_error l n = Some y -> nth_error (l ++ [x]) n = Some y.
Proof. intros A l x n y E. rewrite nth_error_app1; [exact E|]. apply nth_error_Some. congruence. Qed.
Lemma nth_fresh : forall A (l : list A) n y, nth_error l n = Some y -> n <> length l.
Proof. intros A l n y E ->. assert (length l < length l)%nat; [|lia]. apply nth_error_Some. congruence. Qed.

Definition upd {A} (f : name -> option A) (k : name) (x : A) : name -> option A := fun n => if name_dec k n then Some x else f n.
Definition del {A} (f : name -> option A) (k : name) : name -> option A := fun n => if name_dec k n then None else f n.
Lemma upd_same : forall A (f : name -> option A) k x, upd f k x k = Some x.
Proof. intros. unfold upd. destruct (name_dec k k); congruence. Qed.
Lemma upd_other : forall A (f : name -> option A) k x n, k <> n -> upd f k x n = f n.
Proof. intros. unfold upd. destruct (name_dec k n); congruence. Qed.

Lemma set_of_gd : forall l, (forall n, In n l -> nval n) -> NoDup l -> gd (set_of l).
Proof.
  intros l V N. split.
  - unfold dom, set_of. apply Forall_forall. intros [n []] I. apply in_map_iff in I. destruct I as (m & [= <-] & I). apply V. exact I.
  - unfold uniq, dkeys, set_of. rewrite map_map. cbn. rewrite map_id. exact N.
Qed.
Lemma set_of_get : forall l n, gd (set_of l) -> nval n -> dget n_equals (set_of l) n = if in_dec name_dec n l then Some tt else None.
Proof.
  intros l n G V. destruct (in_dec name_dec n l) as [I|N].
  - apply (in_n _ (set_of l) n tt G). apply in_map_iff. exists n. auto.
  - destruct (dget n_equals (set_of l) n) as [[]|] eqn:E; [|reflexivity]. exfalso. apply N. apply (n_in _ _ _ _ G V) in E. apply in_map_iff in E. destruct E as (m & [= ->] & I). exact I.
Qed.
Lemma nodup_certificatesOf : forall C (ct_name : C -> name) d k l, NoDup (map fst d) -> certificatesOf ct_name d k = Ok l -> NoDup l.
Proof.
  induction d as [|[n c] d IH]; intros k l N E; cbn [certificatesOf] in E; [injection E as <-; constructor|]. inversion N as [|? ? N1 N2]; subst.
  destruct (cert_extractKeyName (ct_name c)) as [k'|e]; cbn [rbind] in E; [|discriminate E]. destruct (certificatesOf ct_name d k) as [r|e] eqn:Er; cbn [rbind] in E; [|discriminate E]. injection E as <-.
  assert (X : incl r (map fst d)). { clear - Er. revert r Er. induction d as [|[m x] d IH]; intros r E; cbn [certificatesOf] in E; [injection E as <-; intros y []|]. destruct (cert_extractKeyName (ct_name x)) as [k''|e]; cbn [rbind] in E; [|discriminate E].
    destruct (certificatesOf ct_name d k) as [r'|e] eqn:E'; cbn [rbind] in E; [|discriminate E]. injection E as <-. intros y I. destruct (n_equals k'' k); [destruct I as [<-|I]; [left; reflexivity|]|]; right; exact (IH _ eq_refl _ I). }
  destruct (n_equals k' k); [constructor; [intros I; apply N1, X, I|]|]; eapply IH; eassumption.
Qed.
Lemma nodup_keysOf : forall d k l, NoDup (map fst d) -> keysOf d k = Ok l -> NoDup l.
Proof.
  induction d as [|[n c] d IH]; intros k l N E; cbn [keysOf] in E; [injection E as <-; constructor|]. inversion N as [|? ? N1 N2]; subst.
  destruct (key_extractIdentity n) as [k'|e]; cbn [rbind] in E; [|discriminate E]. destruct (keysOf d k) as [r|e] eqn:Er; cbn [rbind] in E; [|discriminate E]. injection E as <-.
  assert (X : incl r (map fst d)). { clear - Er. revert r Er. induction d as [|[m x] d IH]; intros r E; cbn [keysOf] in E; [injection E as <-; intros y []|]. destruct (key_extractIdentity m) as [k''|e]; cbn [rbind] in E; [|discriminate E].
    destruct (keysOf d k) as [r'|e] eqn:E'; cbn [rbind] in E; [|discriminate E]. injection E as <-. intros y I. destruct (n_equals k k''); [destruct I as [<-|I]; [left; reflexivity|]|]; right; exact (IH _ eq_refl _ I). }
  destruct (n_equals k k'); [constructor; [intros I; apply N1, X, I|]|]; eapply IH; eassumption.
Qed.

Section F.
Context {C : Type}.
Variable ct_name : C -> name.
Variable ct_content : C -> bytes.
Variable ct_check : C -> res unit.
Variable ord : list name -> list name.
Variable ktype : bytes -> res Z.
Hypothesis Ho : forall l, Permutation l (ord l).
Notation pib := (pib C).
Notation call := (call C).
Notation front := (front C).
Notation keyobj := (keyobj C).
Notation exec := (exec ct_name ct_content ct_check ord).
Notation sane := (sane ct_name ct_check).
Notation ident := (ident ct_name).
Notation def_id := (def_id ct_name).
Notation key_bits := (key_bits ct_name ct_content).
Notation cert := (cert ct_name).
Notation def_key := (def_key ct_name ct_content).
Notation def_cert := (def_cert ct_name).
Notation outcome := (outcome ct_name ct_content).
Notation spec_fn := (spec_fn ct_name ct_content).
Notation nget := (dget n_equals).
Notation nset := (dset n_equals).
Notation ndrop := (dremove n_equals).

Definition yes {A} (x : option A) : bool := match x with Some _ => true | None => false end.
Definition fst' {A B} (x : option (A * B)) : option A := match x with Some (a, _) => Some a | None => None end.
Definition keygood (h : list call) (k : name) (ko : keyobj) : Prop :=
  ko_name ko = k /\ key_bits h k = Some (ko_bits ko) /\ gd (ko_names ko) /\ gd (ko_certs ko) /\
  (forall n, nval n -> nget (ko_names ko) n = if yes (cert h n) && (if name_dec (owner n) k then true else false) then Some tt else None) /\
  (forall n c, nval n -> nget (ko_certs ko) n = Some c -> cert h n = Some c /\ owner n = k) /\
  (forall c, ko_default ko = Some c -> def_cert h k = Some (ct_name c) /\ cert h (ct_name c) = Some c).
Definition idgood (h : list call) (ch : name -> option name) (K : name -> option (nat * keyobj)) (i : name) (o : idobj) : Prop :=
  io_name o = i /\ ident h i = true /\ gd (io_names o) /\ gd (io_keys o) /\
  (forall n, nval n -> nget (io_names o) n = if yes (key_bits h n) && (if name_dec (owner n) i then true else false) then Some tt else None) /\
  (forall k, nval k -> nget (io_keys o) k = if name_dec (owner k) i then fst' (K k) else None) /\
  match io_default o with None => ch i = None | Some q => exists k ko, ch i = Some k /\ K k = Some (q, ko) /\ owner k = i end.
Record Inv (h : list call) (ch : name -> option name) (I : name -> option (nat * idobj)) (K : name -> option (nat * keyobj)) (s : front) : Prop := {
  i_sane : Forall sane h;
  i_view : view (impl s) (spec_fn h);
  i_dec : forall k b, key_bits h k = Some b -> exists ty, ktype b = Ok ty;
  i_gids : gd (p_ids s);
  i_gnames : gd (p_names s);
  i_names : forall n, nval n -> nget (p_names s) n = if ident h n then Some tt else None;
  i_pids : forall i, nval i -> nget (p_ids s) i = fst' (I i);
  i_def : forall r, p_default s = Some r -> exists d o, def_id h = Some d /\ I d = Some (r, o);
  i_id : forall i r o, I i = Some (r, o) -> nval i /\ nth_error (idheap s) r = Some o /\ idgood h ch K i o;
  i_ch : forall i, I i = None -> ch i = None;
  i_key : forall k q ko, K k = Some (q, ko) -> nval k /\ a_key k /\ I (owner k) <> None /\ nth_error (keyheap s) q = Some ko /\ keygood h k ko }.

Lemma id_name : forall h ch I K s i r o, Inv h ch I K s -> I i = Some (r, o) -> io_name o = i.
Proof. intros h ch I K s i r o V E. apply (i_id _ _ _ _ _ V) in E. apply E. Qed.
Lemma key_nm : forall h ch I K s k q o, Inv h ch I K s -> K k = Some (q, o) -> ko_name o = k.
Proof. intros h ch I K s i r o V E. apply (i_key _ _ _ _ _ V) in E. apply E. Qed.
Lemma id_inj : forall h ch I K s i j r o o', Inv h ch I K s -> I i = Some (r, o) -> I j = Some (r, o') -> i = j.
Proof.
  intros h ch I K s i j r o o' V E1 E2. pose proof (id_name _ _ _ _ _ _ _ _ V E1). pose proof (id_name _ _ _ _ _ _ _ _ V E2).
  apply (i_id _ _ _ _ _ V) in E1, E2. destruct E1 as (_ & E1 & _), E2 as (_ & E2 & _). congruence.
Qed.
Lemma key_inj : forall h ch I K s i j r o o', Inv h ch I K s -> K i = Some (r, o) -> K j = Some (r, o') -> i = j.
Proof.
  intros h ch I K s i j r o o' V E1 E2. pose proof (key_nm _ _ _ _ _ _ _ _ V E1). pose proof (key_nm _ _ _ _ _ _ _ _ V E2).
  apply (i_key _ _ _ _ _ V) in E1, E2. destruct E1 as (_ & _ & _ & E1 & _), E2 as (_ & _ & _ & E2 & _). congruence.
Qed.
(** handles are kept *)
Definition ext {A} (I I' : name -> option (nat * A)) : Prop := forall i r o, I i = Some (r, o) -> exists o', I' i = Some (r, o').
Lemma ext_refl : forall A (I : name -> option (nat * A)), ext I I.
Proof. intros A I i r o E. exists o. exact E. Qed.
Lemma ext_trans : forall A (I J L : name -> option (nat * A)), ext I J -> ext J L -> ext I L.
Proof. intros A I J L H1 H2 i r o E. destruct (H1 i r o E) as [o' E']. exact (H2 i r o' E'). Qed.
Lemma ext_upd : forall A (I : name -> option (nat * A)) i r o o', I i = Some (r, o) -> ext I (upd I i (r, o')).
Proof. intros A I i r o o' E j r' x Ej. unfold upd. destruct (name_dec i j) as [<-|N]; [|exists x; exact Ej]. exists o'. congruence. Qed.
Lemma ext_new : forall A (I : name -> option (nat * A)) i x, I i = None -> ext I (upd I i x).
Proof. intros A I i x E j r' y Ej. unfold upd. destruct (name_dec i j) as [<-|N]; [congruence|exists y; exact Ej]. Qed.

(** ** Changes of one object *)
Lemma inv_id : forall h ch ch' I K s i r o o', Inv h ch I K s -> I i = Some (r, o) -> idgood h ch' K i o' -> (forall j, j <> i -> ch' j = ch j) ->
  Inv h ch' (upd I i (r, o')) K (w_id s r o').
Proof.
  intros h ch ch' I K s i r o o' V E G Hch. destruct (i_id _ _ _ _ _ V i r o E) as (Vi & Ei & Gi). pose proof V as [A1 A2 A3 A4 A5 A6 A7 A8 A9 A10 A11].
  constructor; cbn [w_id impl p_ids p_names p_default idheap keyheap]; auto.
  - intros j Vj. rewrite A7 by exact Vj. unfold upd. destruct (name_dec i j) as [<-|N]; [rewrite E; reflexivity|reflexivity].
  - intros r' E'. destruct (A8 r' E') as (d & x & D1 & D2). unfold upd. destruct (name_dec i d) as [<-|N]; [|exists d, x; destruct (name_dec i d); [contradiction|auto]]. exists i, o'. destruct (name_dec i i); [|congruence]. split; [exact D1|]. congruence.
  - intros j r' x. unfold upd. destruct (name_dec i j) as [<-|N].
    + intros [= <- <-]. split; [exact Vi|]. split; [eapply nth_same, Ei|exact G].
    + intros Ej. destruct (A9 j r' x Ej) as (Vj & Nj & Gj). split; [exact Vj|]. split.
      * rewrite nth_other; [exact Nj|]. intros <-. apply N. eapply (id_inj _ _ _ _ _ _ _ _ _ _ V); eassumption.
      * destruct Gj as (B1 & B2 & B3 & B4 & B5 & B6 & B7). repeat (split; [assumption|]). rewrite Hch by congruence. exact B7.
  - intros j. unfold upd. destruct (name_dec i j) as [<-|N]; [discriminate|]. intros Ej. rewrite Hch by congruence. auto.
  - intros k q ko Ek. destruct (A11 k q ko Ek) as (B1 & B2 & B3 & B4 & B5). repeat (split; [assumption|]). split; [|auto]. unfold upd. destruct (name_dec i (owner k)); [discriminate|exact B3].
Qed.
Lemma inv_key : forall h ch I K s k q ko ko', Inv h ch I K s -> K k = Some (q, ko) -> keygood h k ko' -> Inv h ch I (upd K k (q, ko')) (w_key s q ko').
Proof.
  intros h ch I K s k q ko ko' V E G. destruct (i_key _ _ _ _ _ V k q ko E) as (Vk & Ak & Ik & Nk & Gk). pose proof V as [A1 A2 A3 A4 A5 A6 A7 A8 A9 A10 A11].
  constructor; cbn [w_key impl p_ids p_names p_default idheap keyheap]; auto.
  - intros i r o Ei. destruct (A9 i r o Ei) as (B1 & B2 & D1 & D2 & D3 & D4 & D5 & D6 & D7). split; [exact B1|]. split; [exact B2|]. repeat (split; [assumption|]). split.
    + intros k' V'. rewrite D6 by exact V'. destruct (name_dec (owner k') i); [|reflexivity]. unfold upd. destruct (name_dec k k') as [<-|N]; [rewrite E; reflexivity|reflexivity].
    + destruct (io_default o) as [q'|]; [|exact D7]. destruct D7 as (k' & x & F1 & F2 & F3). unfold upd. destruct (name_dec k k') as [<-|N]; [exists k, ko'; destruct (name_dec k k); [|congruence]; repeat (split; [auto; congruence|]); auto|exists k', x; destruct (name_dec k k'); [contradiction|auto]].
  - intros k' q' x. unfold upd. destruct (name_dec k k') as [<-|N].
    + intros [= <- <-]. repeat (split; [assumption|]). split; [eapply nth_same, Nk|exact G].
    + intros Ex. destruct (A11 k' q' x Ex) as (B1 & B2 & B3 & B4 & B5). repeat (split; [assumption|]). split; [|exact B5]. rewrite nth_other; [exact B4|]. intros <-. apply N. eapply (key_inj _ _ _ _ _ _ _ _ _ _ V); eassumption.
Qed.
(** a key object that is loaded *)
Definition w_keys (s : front) (l : list keyobj) : front := Front (impl s) (idheap s) l (p_default s) (p_ids s) (p_names s).
Lemma inv_load : forall h ch I K s i r o k ko, Inv h ch I K s -> I i = Some (r, o) -> K k = None -> nval k -> a_key k -> owner k = i -> keygood h k ko ->
  Inv h ch (upd I i (r, IdObj (io_name o) (io_default o) (io_names o) (nset (io_keys o) k (length (keyheap s))))) (upd K k (length (keyheap s), ko))
      (w_id (w_keys s (keyheap s ++ [ko])) r (IdObj (io_name o) (io_default o) (io_names o) (nset (io_keys o) k (length (keyheap s))))).
Proof.
  intros h ch I K s i r o k ko V E Ek Vk Ak Ok G. destruct (i_id _ _ _ _ _ V i r o E) as (Vi & Ei & D1 & D2 & D3 & D4 & D5 & D6 & D7). pose proof V as [A1 A2 A3 A4 A5 A6 A7 A8 A9 A10 A11].
  constructor; cbn [w_id w_keys impl p_ids p_names p_default idheap keyheap]; auto.
  - intros j Vj. rewrite A7 by exact Vj. unfold upd. destruct (name_dec i j) as [<-|N]; [rewrite E; reflexivity|reflexivity].
  - intros r' E'. destruct (A8 r' E') as (d & x & F1 & F2). unfold upd. destruct (name_dec i d) as [<-|N]; [|exists d, x; destruct (name_dec i d); [contradiction|auto]]. eexists i, _. destruct (name_dec i i); [|congruence]. split; [exact F1|]. assert (r' = r) by congruence. subst. reflexivity.
  - intros j r' x. unfold upd at 1. destruct (name_dec i j) as [<-|N].
    + intros [= <- <-]. split; [exact Vi|]. split; [eapply nth_same, Ei|]. repeat (split; [first [assumption|reflexivity]|]). cbn [io_names io_keys io_default io_name].
      split; [apply gd_set; assumption|]. split; [exact D5|]. split.
      * intros k' V'. rewrite set_n, D6 by assumption. unfold upd. destruct (name_dec k k') as [<-|N]; [|reflexivity]. destruct (name_dec (owner k) i); [reflexivity|contradiction].
      * destruct (io_default o) as [q|]; [|exact D7]. destruct D7 as (k' & y & F1 & F2 & F3). exists k', y. unfold upd. destruct (name_dec k k') as [<-|N]; [congruence|auto].
    + intros Ej. destruct (A9 j r' x Ej) as (Vj & Nj & B1 & B2 & B3 & B4 & B5 & B6 & B7). split; [exact Vj|]. split.
      * rewrite nth_other; [exact Nj|]. intros <-. apply N. eapply (id_inj _ _ _ _ _ _ _ _ _ _ V); eassumption.
      * repeat (split; [assumption|]). split.
        -- intros k' V'. rewrite B6 by assumption. unfold upd. destruct (name_dec (owner k') j); [|reflexivity]. destruct (name_dec k k') as [<-|N']; [congruence|reflexivity].
        -- destruct (io_default x) as [q|]; [|exact B7]. destruct B7 as (k' & y & F1 & F2 & F3). exists k', y. unfold upd. destruct (name_dec k k') as [<-|N']; [congruence|auto].
  - intros j. unfold upd. destruct (name_dec i j) as [<-|N]; [discriminate|auto].
  - intros k' q' x. unfold upd at 1. destruct (name_dec k k') as [<-|N].
    + intros [= <- <-]. repeat (split; [assumption|]). split; [|split; [apply nth_new|exact G]]. unfold upd. destruct (name_dec i (owner k)); [discriminate|congruence].
    + intros Ex. destruct (A11 k' q' x Ex) as (B1 & B2 & B3 & B4 & B5). repeat (split; [assumption|]). split; [|split; [apply nth_old, B4|exact B5]]. unfold upd. destruct (name_dec i (owner k')); [discriminate|exact B3].
Qed.
(** an identity object that is loaded *)
Definition w_idl (s : front) (l : list idobj) (d : dict name nat) : front := Front (impl s) l (keyheap s) (p_default s) d (p_names s).
Lemma inv_loadid : forall h ch I K s i ns, Inv h ch I K s -> I i = None -> nval i -> ident h i = true -> gd ns ->
  (forall n, nval n -> nget ns n = if yes (key_bits h n) && (if name_dec (owner n) i then true else false) then Some tt else None) ->
  Inv h ch (upd I i (length (idheap s), IdObj i None ns [])) K (w_idl s (idheap s ++ [IdObj i None ns []]) (nset (p_ids s) i (length (idheap s)))).
Proof.
  intros h ch I K s i ns V E Vi Ei Gn Hn. pose proof V as [A1 A2 A3 A4 A5 A6 A7 A8 A9 A10 A11].
  constructor; cbn [w_idl impl p_ids p_names p_default idheap keyheap]; auto using gd_set.
  - intros j Vj. rewrite set_n, A7 by assumption. unfold upd. destruct (name_dec i j); reflexivity.
  - intros r' E'. destruct (A8 r' E') as (d & x & F1 & F2). exists d, x. unfold upd. destruct (name_dec i d) as [<-|N]; [congruence|auto].
  - intros j r' x. unfold upd. destruct (name_dec i j) as [<-|N].
    + intros [= <- <-]. split; [exact Vi|]. split; [apply nth_new|]. repeat (split; [first [assumption|reflexivity|apply gd_nil]|]). cbn [io_keys io_default io_names]. split; [|apply A10; exact E].
      intros k Vk. cbn. destruct (name_dec (owner k) i) as [O|]; [|reflexivity]. destruct (K k) as [[q ko]|] eqn:Ek; [|reflexivity]. destruct (A11 k q ko Ek) as (_ & _ & X & _). congruence.
    + intros Ej. destruct (A9 j r' x Ej) as (Vj & Nj & Gj). split; [exact Vj|]. split; [apply nth_old, Nj|exact Gj].
  - intros j. unfold upd. destruct (name_dec i j); [discriminate|auto].
  - intros k q ko Ek. destruct (A11 k q ko Ek) as (B1 & B2 & B3 & B4 & B5). repeat (split; [assumption|]). split; [|auto]. unfold upd. destruct (name_dec i (owner k)); [discriminate|exact B3].
Qed.
End F.
