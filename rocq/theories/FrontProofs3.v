(** * Pib and its containers: every call keeps the invariant (continued) *)
From Verif Require Import Base BaseLemmas NameModel NameSpec NameProofs DictModel DictProofs CertProofs HierModel HierSpec HierProps PibModel PibSpec PibProps FrontModel FrontSpec FrontProofs FrontProofs2.
From Coq Require Import Permutation.

Section F.
Context {C : Type}.
Variable ct_name : C -> name.
Variable ct_content : C -> bytes.
Variable ct_check : C -> res unit.
Variable ord : list name -> list name.
Variable ktype : bytes -> res Z.
Hypothesis Ho : forall l, Permutation l (ord l).
Notation pib := (pib C).
Notation call := (call C).
Notation front := (front C).
Notation keyobj := (keyobj C).
Notation exec := (exec ct_name ct_content ct_check ord).
Notation sane := (sane ct_name ct_check).
Notation ident := (ident ct_name).
Notation def_id := (def_id ct_name).
Notation key_bits := (key_bits ct_name ct_content).
Notation cert := (cert ct_name).
Notation def_key := (def_key ct_name ct_content).
Notation def_cert := (def_cert ct_name).
Notation outcome := (outcome ct_name ct_content).
Notation spec_fn := (spec_fn ct_name ct_content).
Notation nget := (dget n_equals).
Notation nset := (dset n_equals).
Notation ndrop := (dremove n_equals).
Notation Inv := (Inv ct_name ct_content ct_check ktype).
Notation idgood := (idgood ct_name ct_content).
Notation keygood := (keygood ct_name ct_content).
Notation exec_view := (exec_view ct_name ct_content ct_check ord Ho).
Notation spec_closed := (spec_closed ct_name ct_content ct_check).


Ltac sm := unfold set_id, set_key, bind, ret, lift, get, put, raise; cbn [fst snd].
Lemma bind_k : forall (S A B : Type) (m : sm S A) (k : A -> sm S B) s s' a, m s = (s', Ok a) -> bind m k s = k a s'.
Proof. intros. unfold bind. rewrite H. reflexivity. Qed.

(** the same answers, from another history *)
Lemma inv_hist : forall h h' ch I K s, Inv h ch I K s -> Forall sane h' -> (forall n, ident h' n = ident h n) -> def_id h' = def_id h -> (forall n, key_bits h' n = key_bits h n) ->
  (forall n, def_key h' n = def_key h n) -> (forall n, cert h' n = cert h n) -> (forall n, def_cert h' n = def_cert h n) -> Inv h' ch I K s.
Proof.
  intros h h' ch I K s [A1 A2 A3 A4 A5 A6 A7 A8 A9 A10 A11] Sh H1 H2 H3 H4 H5 H6. constructor; auto.
  - eapply view_ext; [exact A2|..]; cbn; auto.
  - intros k b. rewrite H3. apply A3.
  - intros n Vn. rewrite H1. auto.
  - intros r. rewrite H2. apply A8.
  - intros i r o E. destruct (A9 i r o E) as (B1 & B2 & B3 & B4 & B5 & B6 & B7 & B8 & B9). split; [exact B1|]. split; [exact B2|]. split; [exact B3|]. split; [rewrite H1; exact B4|]. split; [exact B5|]. split; [exact B6|]. split; [|auto]. intros n Vn. rewrite H3. auto.
  - intros k q ko E. destruct (A11 k q ko E) as (B1 & B2 & B3 & B4 & B5 & B6 & B7 & B8 & B9 & B10 & B11). repeat (split; [assumption|]). split; [rewrite H3; exact B6|]. split; [exact B7|]. split; [exact B8|]. split; [intros n Vn; rewrite H5; auto|].
    split; [intros n c Vn En; rewrite H5; auto|]. intros c Ec. rewrite H5, H6. auto.
Qed.

Definition forget (k : name) (ch : name -> option name) : name -> option name := fun j => match ch j with Some d => if name_dec k d then None else Some d | None => None end.
Lemma op_removeKey : forall h ch I K s i r o k, Inv h ch I K s -> I i = Some (r, o) -> nval k ->
  (key_of i k -> exists s' o', id_removeKey ct_name ct_content ct_check ord r k s = (s', Ok tt) /\ Inv (RemoveKey k :: h) (forget k ch) (upd I i (r, o')) (del K k) s') /\
  (~ key_of i k -> exists s', id_removeKey ct_name ct_content ct_check ord r k s = (s', Err ValueError) /\ Inv h ch (upd I i (r, o)) K s').
Proof.
  intros h ch I K s i r o k V E Vk. destruct (b_check_key _ _ _ _ _ _ _ _ _ V i r o k E Vk) as [Ck Cn]. destruct (i_id _ _ _ _ _ _ _ _ _ V i r o E) as (Vi & Ei & D1 & D2 & D3 & D4 & D5 & D6 & D7).
  unfold id_removeKey. rewrite (bind_k _ _ _ _ _ _ _ _ (b_the_id _ _ _ _ _ _ _ _ _ V i r o E)).
  assert (Ed : match io_default o with Some q => exists x, the_key q s = (s, Ok x) /\ n_equals (ko_name x) k = (if name_dec (ko_name x) k then true else false) /\ ch i = Some (ko_name x) /\ owner (ko_name x) = i /\ a_key (ko_name x) | None => ch i = None end).
  { destruct (io_default o) as [q|]; [|exact D7]. destruct D7 as (k' & ko & F1 & F2 & F3). exists ko. split; [apply (b_the_key _ _ _ _ _ _ _ _ _ V k' q ko F2)|]. destruct (i_key _ _ _ _ _ _ _ _ _ V k' q ko F2) as (G1 & G2 & _ & _ & G5 & _). rewrite G5. split; [apply equals_dec; assumption|]. auto. }
  set (d := match io_default o with None => None | Some q => match nth_error (keyheap s) q with Some x => if n_equals (ko_name x) k then None else Some q | None => None end end).
  assert (Hd : (match io_default o with None => ret None | Some q => bind (the_key q) (fun x => ret (if n_equals (ko_name x) k then None else Some q)) end) s = (s, Ok d)).
  { unfold d. destruct (io_default o) as [q|]; [|reflexivity]. destruct Ed as (x & X1 & _). unfold bind. rewrite X1. unfold the_key in X1. destruct (nth_error (keyheap s) q); [injection X1 as ->; reflexivity|discriminate X1]. }
  rewrite (bind_k _ _ _ _ _ _ _ _ Hd). sm. cbn [w_id idheap]. split.
  - intros Kk. rewrite (Ck Kk). unfold back. cbn [w_id impl idheap keyheap p_default p_ids p_names]. destruct (key_of_owner i k Kk) as [Ak Ok].
    assert (So : sane (RemoveKey k)) by (split; assumption). destruct (b_exec ct_name ct_content ct_check ord ktype Ho _ _ _ _ _ V _ So) as (b' & Eb & Vb). rewrite Eb. cbn [PibSpec.outcome w_impl w_id idheap keyheap p_default p_ids p_names].
    eexists. exists (IdObj (io_name o) d (ndrop (io_names o) k) (ndrop (io_keys o) k)). split; [reflexivity|].
    set (oo := IdObj (io_name o) d (ndrop (io_names o) k) (ndrop (io_keys o) k)).
    pose proof V as [A1 A2 A3 A4 A5 A6 A7 A8 A9 A10 A11].
    assert (Hb : forall n, key_bits (RemoveKey k :: h) n = if name_dec k n then None else key_bits h n) by reflexivity.
    assert (Hc : forall n, cert (RemoveKey k :: h) n = if name_dec (owner n) k then None else cert h n) by reflexivity.
    constructor; cbn [w_impl w_id impl p_ids p_names p_default idheap keyheap]; auto.
    + intros k' b. rewrite Hb. destruct (name_dec k k'); [discriminate|apply A3].
    + intros j Vj. rewrite A7 by exact Vj. unfold upd. destruct (name_dec i j) as [<-|N]; [rewrite E; reflexivity|reflexivity].
    + intros r' E'. destruct (A8 r' E') as (d' & x & F1 & F2). cbn [PibSpec.def_id]. unfold upd. destruct (name_dec i d') as [<-|N]; [|exists d', x; destruct (name_dec i d'); [contradiction|auto]]. exists i, oo. destruct (name_dec i i); [|congruence]. split; [exact F1|]. assert (r' = r) by congruence. subst. reflexivity.
    + intros j r' x. unfold upd at 1. destruct (name_dec i j) as [<-|N].
      * intros [= <- <-]. split; [exact Vi|]. split; [eapply nth_same, nth_same, Ei|]. split; [exact D1|]. split; [exact D2|]. cbn [oo io_names io_keys io_default io_name]. split; [apply gd_drop; assumption|]. split; [apply gd_drop; assumption|]. split; [|split].
        -- intros n Vn. rewrite drop_n, D5, Hb by assumption. destruct (name_dec k n) as [<-|N]; reflexivity.
        -- intros k' V'. rewrite drop_n, D6 by assumption. unfold del. destruct (name_dec k k') as [<-|N]; [|reflexivity]. destruct (name_dec (owner k) i); reflexivity.
        -- unfold d, forget. destruct (io_default o) as [q|]; [|rewrite D7; reflexivity]. destruct Ed as (x & X1 & X2 & X3 & X4 & X5). unfold the_key in X1. destruct (nth_error (keyheap s) q) as [y|] eqn:Ey; [|discriminate X1]. injection X1 as ->. rewrite X2, X3.
           destruct (name_dec (ko_name x) k) as [->|N]; [destruct (name_dec k k); congruence|]. destruct (name_dec k (ko_name x)) as [Z|N']; [congruence|]. destruct D7 as (k' & ko & F1 & F2 & F3). exists k', ko. assert (k' = ko_name x) by congruence. subst k'. split; [reflexivity|]. split; [|exact F3]. unfold del. destruct (name_dec k (ko_name x)); [contradiction|exact F2].
      * intros Ej. destruct (A9 j r' x Ej) as (Vj & Nj & B1 & B2 & B3 & B4 & B5 & B6 & B7). split; [exact Vj|]. assert (Nr : r <> r') by (intros <-; apply N; eapply (id_inj _ _ _ _ _ _ _ _ _ _ _ _ _ _ V); eassumption). split; [rewrite !nth_other by exact Nr; exact Nj|].
        split; [exact B1|]. split; [exact B2|]. split; [exact B3|]. split; [exact B4|]. split; [|split].
        -- intros n Vn. rewrite B5, Hb by assumption. destruct (name_dec k n) as [<-|N']; [|reflexivity]. destruct (name_dec (owner k) j); [congruence|]. rewrite !andb_false_r. reflexivity.
        -- intros k' V'. rewrite B6 by assumption. unfold del. destruct (name_dec (owner k') j); [|reflexivity]. destruct (name_dec k k') as [<-|N']; [congruence|reflexivity].
        -- unfold forget. destruct (io_default x) as [q'|]; [|rewrite B7; reflexivity]. destruct B7 as (k' & y & F1 & F2 & F3). rewrite F1. destruct (name_dec k k') as [<-|N']; [congruence|]. exists k', y. split; [reflexivity|]. split; [|exact F3]. unfold del. destruct (name_dec k k'); [contradiction|exact F2].
    + intros j. unfold upd. destruct (name_dec i j) as [<-|N]; [discriminate|]. intros Ej. unfold forget. rewrite (A10 j Ej). reflexivity.
    + intros k' q' x. unfold del. destruct (name_dec k k') as [|N]; [discriminate|]. intros Ex. destruct (A11 k' q' x Ex) as (B1 & B2 & B3 & B4 & B5). split; [exact B1|]. split; [exact B2|]. split; [unfold upd; destruct (name_dec i (owner k')); [discriminate|exact B3]|]. split; [exact B4|].
      destruct B5 as (F1 & F2 & F3 & F4 & F5 & F6 & F7). split; [exact F1|]. split; [rewrite Hb; destruct (name_dec k k'); [congruence|exact F2]|]. split; [exact F3|]. split; [exact F4|]. split; [|split].
      * intros n Vn. rewrite F5, Hc by exact Vn. destruct (name_dec (owner n) k) as [<-|]; [|reflexivity]. destruct (name_dec (owner n) k'); [congruence|]. rewrite !andb_false_r. reflexivity.
      * intros n c Vn Ec. destruct (F6 n c Vn Ec) as [G1 G2]. split; [|exact G2]. rewrite Hc. destruct (name_dec (owner n) k); [congruence|exact G1].
      * intros c Ec. destruct (F7 c Ec) as [G1 G2]. cbn [PibSpec.def_cert]. destruct (name_dec k k'); [contradiction|]. split; [exact G1|]. rewrite Hc. destruct (spec_closed h A1) as (_ & _ & _ & _ & H5). destruct (H5 _ _ G1) as [O _]. destruct (name_dec (owner (ct_name c)) k); [congruence|exact G2].
  - intros N. rewrite (Cn N). exists (w_id s r (IdObj (io_name o) d (io_names o) (io_keys o))). split; [reflexivity|].
    assert (Hdo : IdObj (io_name o) d (io_names o) (io_keys o) = o).
    { unfold d. destruct o as [a1 a2 a3 a4]; cbn [io_name io_names io_keys io_default] in *. f_equal. destruct a2 as [q|]; [|reflexivity]. destruct Ed as (x & X1 & X2 & X3 & X4 & X5). unfold the_key in X1. destruct (nth_error (keyheap s) q) as [y|]; [|discriminate X1]. injection X1 as ->. rewrite X2.
      destruct (name_dec (ko_name x) k) as [<-|]; [|reflexivity]. exfalso. apply N. destruct X5 as (j & kid & Nj & Z). rewrite Z, owner_key in X4. subst j. split; [exact Nj|]. exists kid. exact Z. }
    rewrite Hdo. eapply inv_id; [exact V|exact E| |reflexivity]. split; [exact D1|]. auto 10.
Qed.

Definition choose (i k : name) (ch : name -> option name) : name -> option name := fun j => if name_dec i j then Some k else ch j.
Lemma inv_choose : forall h ch I K s i r o k q ko, Inv h ch I K s -> I i = Some (r, o) -> K k = Some (q, ko) -> owner k = i ->
  Inv h (choose i k ch) (upd I i (r, IdObj (io_name o) (Some q) (io_names o) (io_keys o))) K (w_id s r (IdObj (io_name o) (Some q) (io_names o) (io_keys o))).
Proof.
  intros h ch I K s i r o k q ko V E Ek Ok. destruct (i_id _ _ _ _ _ _ _ _ _ V i r o E) as (Vi & Ei & D1 & D2 & D3 & D4 & D5 & D6 & D7).
  eapply inv_id; [exact V|exact E| |].
  - repeat (split; [assumption|]). cbn [io_default]. exists k, ko. unfold choose. destruct (name_dec i i); [auto|congruence].
  - intros j N. unfold choose. destruct (name_dec i j); congruence.
Qed.
Lemma inv_setkey : forall h ch I K s i k b', Inv h ch I K s -> key_of i k -> nval k -> view b' (spec_fn (SetDefaultKey i k :: h)) -> Inv (SetDefaultKey i k :: h) ch I K (w_impl s b').
Proof.
  intros h ch I K s i k b' [A1 A2 A3 A4 A5 A6 A7 A8 A9 A10 A11] Kk Vk Vb. constructor; cbn [w_impl impl p_ids p_names p_default idheap keyheap]; auto.
  constructor; [|exact A1]. destruct Kk as (Ni & kid & ->). cbn. eauto.
Qed.
Lemma op_setDefault : forall h ch I K s i r o k, Inv h ch I K s -> I i = Some (r, o) -> nval k ->
  (key_of i k -> match key_bits h k with
     | None => id_setDefault ct_name ct_content ct_check ord ktype r k s = (s, Err OtherError)
     | Some _ => exists s' I' K' q ko, id_setDefault ct_name ct_content ct_check ord ktype r k s = (s', Ok q) /\ Inv (SetDefaultKey i k :: h) (choose i k ch) I' K' s' /\ ext I I' /\ ext K K' /\ K' k = Some (q, ko)
     end) /\
  (~ key_of i k -> id_setDefault ct_name ct_content ct_check ord ktype r k s = (s, Err ValueError)).
Proof.
  intros h ch I K s i r o k V E Vk. destruct (op_getKey ct_name ct_content ct_check ktype _ _ _ _ _ i r o k V E Vk) as [Gk Gn]. unfold id_setDefault. sm. split; [|intros N; rewrite (Gn N); reflexivity]. intros Kk. specialize (Gk Kk). destruct (key_of_owner i k Kk) as [Ak Ok].
  destruct (key_bits h k) as [b|] eqn:Eb; [|rewrite Gk; reflexivity]. destruct Gk as (s1 & I1 & K1 & q & ko & o1 & G1 & G2 & G3 & G4 & G5 & G6). rewrite G1, (b_the_id _ _ _ _ _ _ _ _ _ G2 i r o1 G5).
  pose proof (inv_choose _ _ _ _ _ _ _ _ _ _ _ G2 G5 G6 Ok) as V2. unfold back. assert (So : sane (SetDefaultKey i k)) by (destruct Kk as (Ni & kid & ->); cbn; eauto).
  destruct (b_exec ct_name ct_content ct_check ord ktype Ho _ _ _ _ _ V2 _ So) as (b' & Ex & Vb). rewrite (id_name _ _ _ _ _ _ _ _ _ _ _ _ G2 G5) in *. rewrite Ex. cbn [PibSpec.outcome]. rewrite Eb.
  do 3 eexists. exists q, ko. split; [reflexivity|]. split; [eapply inv_setkey; eassumption|]. split; [eapply ext_trans; [exact G3|eapply ext_upd, G5]|]. split; [exact G4|exact G6].
Qed.
Lemma op_getDefault : forall h ch I K s i r o, Inv h ch I K s -> I i = Some (r, o) ->
  match ch i with
  | Some k => exists q ko, id_getDefault ct_name ktype r s = (s, Ok q) /\ K k = Some (q, ko) /\ owner k = i
  | None => match def_key h i with
            | None => id_getDefault ct_name ktype r s = (s, Err OtherError)
            | Some k => exists s' I' K' q ko, id_getDefault ct_name ktype r s = (s', Ok q) /\ Inv h (choose i k ch) I' K' s' /\ ext I I' /\ ext K K' /\ K' k = Some (q, ko) /\ owner k = i
            end
  end.
Proof.
  intros h ch I K s i r o V E. destruct (i_id _ _ _ _ _ _ _ _ _ V i r o E) as (Vi & Ei & D1 & D2 & D3 & D4 & D5 & D6 & D7). unfold id_getDefault. sm. rewrite (b_the_id _ _ _ _ _ _ _ _ _ V i r o E). destruct (io_default o) as [q|] eqn:Ed.
  - destruct D7 as (k & ko & F1 & F2 & F3). rewrite F1. exists q, ko. auto.
  - rewrite D7. unfold ask. rewrite D1, (b_dk _ _ _ _ _ _ _ _ _ V i Vi). destruct (def_key h i) as [k|] eqn:Ek; [|reflexivity].
    destruct (spec_closed h (i_sane _ _ _ _ _ _ _ _ _ V)) as (_ & H2 & _ & H4 & _). destruct (H4 i k Ek) as [Ok Nk]. destruct (key_bits h k) as [b|] eqn:Eb; [|congruence]. destruct (H2 k b Eb) as (Ak & Vk & _).
    assert (Kk : key_of i k). { destruct Ak as (j & kid & Nj & ->). rewrite owner_key in Ok. subst j. split; [exact Nj|]. exists kid. reflexivity. }
    destruct (op_getKey ct_name ct_content ct_check ktype _ _ _ _ _ i r o k V E Vk) as [Gk _]. specialize (Gk Kk). rewrite Eb in Gk. destruct Gk as (s1 & I1 & K1 & q & ko & o1 & G1 & G2 & G3 & G4 & G5 & G6). rewrite G1, (b_the_id _ _ _ _ _ _ _ _ _ G2 i r o1 G5).
    do 3 eexists. exists q, ko. split; [reflexivity|]. split; [eapply inv_choose; eassumption|]. split; [eapply ext_trans; [exact G3|eapply ext_upd, G5]|]. auto.
Qed.
End F.
