(** * Proofs for C36: the invariant of FullPSync2017WithUsers *)
From Verif Require Import Base BaseLemmas TlvModel TlvSpec TlvProofs TlvEncProofs TlvDecProofs NameModel NameSpec NameProofs UriModel MatchProps IbltModel IbltSpec IbltProofs IbltProps DictModel DictProofs PsyncModel PsyncSpec PsyncProofs.
From Coq Require Import Permutation Lia.
Local Open Scope res_scope.

Lemma entry_prefix p q : n_getPrefix (entry p q) (-1) = Ok p.
Proof. unfold entry. rewrite n_getPrefix_ok. f_equal. cbn [Z.ltb Z.compare]. rewrite zlen_app, zlen_cons, zlen_nil. replace (Z.to_nat (zlen p + (1 + 0) + -1)) with (length p) by (unfold zlen; lia). rewrite firstn_app, Nat.sub_diag, firstn_all. apply app_nil_r. Qed.
Lemma entry_number q : 0 <= q < 2 ^ 64 -> c_toNumber (c_generic (nonneg q)) = q.
Proof. intro H. unfold c_toNumber. cbn [c_generic c_value]. rewrite be_value_fold, nonneg_value by lia. apply Z.mod_small. lia. Qed.
Lemma entry_inj p q p' q' : 0 <= q < 2 ^ 64 -> 0 <= q' < 2 ^ 64 -> entry p q = entry p' q' -> p = p' /\ q = q'.
Proof.
  intros H H' E. unfold entry in E. apply app_inj_tail in E. destruct E as [-> E]. split; [reflexivity|]. rewrite <- (entry_number q H), <- (entry_number q' H'). congruence.
Qed.

Section G.
Variables (mmh : Z -> bytes -> Z) (compress : bytes -> bytes) (decompress : bytes -> res bytes) (fuel : nat) (n : Z) (syncPrefix : name).
Variables (P : name -> Prop) (M : Z).
Hypothesis HG : group mmh P M.
Hypothesis Hn : 0 < n.
Notation hash := (hash mmh).
Definition U (x : name) : Prop := exists p q, P p /\ 0 < q <= M /\ x = entry p q.
Lemma M64 : 0 <= M < 2 ^ 64.
Proof. apply HG. Qed.
Lemma entry_valid p q : P p -> 0 <= q -> Forall c_valid (entry p q).
Proof.
  intros Hp Hq. unfold entry. apply Forall_app. split; [apply (g_valid mmh P M HG p Hp)|]. constructor; [|constructor]. split; [apply nonneg_ok; exact Hq|]. right. cbn. auto.
Qed.
Lemma U_valid x : U x -> Forall c_valid x.
Proof. intros (p & q & Hp & Hq & ->). apply entry_valid; [exact Hp|lia]. Qed.
Lemma U_inj x y : U x -> U y -> hash x = hash y -> x = y.
Proof. intros (p & q & Hp & Hq & ->) (p' & q' & Hp' & Hq' & ->) E. now apply (g_hash mmh P M HG). Qed.
Lemma Peq : forall a b, P a -> P b -> (n_equals a b = true <-> a = b).
Proof. intros a b Ha Hb. apply valid_equals; now apply (g_valid mmh P M HG). Qed.
Lemma entry_inj' p q p' q' : 0 <= q <= M -> 0 <= q' <= M -> entry p q = entry p' q' -> p = p' /\ q = q'.
Proof. pose proof M64. intros. apply entry_inj; [lia|lia|assumption]. Qed.
Lemma U_entry p q : P p -> 0 < q <= M -> U (entry p q).
Proof. intros Hp Hq. exists p, q. auto. Qed.

Notation tables := (tables mmh n U).
Notation seqs := (dget n_equals).
Record pfx (d : dict name Z) : Prop := Pfx { p_dom : dom P d; p_uniq : uniq d; p_val : forall p q, In (p, q) d -> 0 <= q <= M }.
Definition agrees (f : name -> option Z) (s : state) : Prop :=
  tables s /\ forall p q, P p -> 0 < q <= M -> (In (entry p q) (dkeys (s_n2h s)) <-> f p = Some q).
Definition inv (s : state) : Prop := pfx (s_prefixes s) /\ agrees (seqs (s_prefixes s)) s.
Lemma pfx_get d p q : pfx d -> P p -> seqs d p = Some q -> 0 <= q <= M.
Proof. intros [A B C] Hp H. apply (C p). eapply dget_in; [exact Peq|exact A|exact Hp|exact H]. Qed.
Lemma pfx_set d p q : pfx d -> P p -> 0 <= q <= M -> pfx (dset n_equals d p q).
Proof.
  intros [A B C] Hp Hq. split; [now apply dset_dom|eapply dset_uniq; [exact Peq|exact A|exact Hp|exact B]|]. intros p' q' H.
  assert (A' : dom P (dset n_equals d p q)) by now apply dset_dom. assert (B' : uniq (dset n_equals d p q)) by (eapply dset_uniq; [exact Peq|exact A|exact Hp|exact B]).
  assert (Hp' : P p') by (unfold dom in A'; rewrite Forall_forall in A'; apply (A' _ H)). apply (in_dget n_equals P Peq _ _ _ A' B') in H. rewrite (dset_get n_equals P Peq d p q p' A Hp Hp') in H.
  destruct (n_equals p p'); [injection H as <-; exact Hq|]. eapply pfx_get; [split; [exact A|exact B|exact C]|exact Hp'|exact H].
Qed.
Lemma pfx_remove d p : pfx d -> pfx (dremove n_equals d p).
Proof. intros [A B C]. split; [now apply dremove_dom|now apply dremove_uniq|]. intros p' q' H. apply (C p'). eapply dremove_in; exact H. Qed.
Lemma agrees_ext f g s : (forall p, P p -> f p = g p) -> agrees f s -> agrees g s.
Proof. intros E [T A]. split; [exact T|]. intros p q Hp Hq. rewrite (A p q Hp Hq), (E p Hp). reflexivity. Qed.
Lemma agrees_ext' f g s : (forall p q, P p -> 0 < q <= M -> (f p = Some q <-> g p = Some q)) -> agrees f s -> agrees g s.
Proof. intros E [T A]. split; [exact T|]. intros p q Hp Hq. rewrite (A p q Hp Hq). now apply E. Qed.
Lemma agrees_core f s s' : s_n2h s' = s_n2h s -> s_h2n s' = s_h2n s -> s_iblt s' = s_iblt s -> agrees f s -> agrees f s'.
Proof. intros E1 E2 E3 [T A]. split; [now apply (same_tables mmh n U s)|]. rewrite E1. exact A. Qed.
Lemma inv_core s s' : core s' = core s -> inv s -> inv s'.
Proof. intros E [A B]. apply core_eq in E. destruct E as (E0 & E1 & E2 & E3). split; [now rewrite E0|]. rewrite E0. eapply agrees_core; eassumption. Qed.
Definition override (f : name -> option Z) (p : name) (o : option Z) (p' : name) : option Z := if n_equals p p' then o else f p'.

(** *** Removing and inserting *)
Lemma remove_agrees f s p q : agrees f s -> P p -> 0 < q <= M -> f p = Some q -> exists s', removeName mmh (entry p q) s = (s', Ok tt) /\ rest_eq s s' /\ agrees (override f p None) s'.
Proof.
  intros [T A] Hp Hq Hf. destruct (remove_ok mmh n U U_valid U_inj s (entry p q) T (U_entry p q Hp Hq)) as (s' & E & T' & R & K). exists s'. split; [exact E|]. split; [exact R|]. split; [exact T'|].
  intros p' q' Hp' Hq'. rewrite K, (A p' q' Hp' Hq'). unfold override. destruct (eqb_case n_equals P Peq p p' Hp Hp') as [[<- ->]|[N ->]].
  - split; [|discriminate]. intros [E1 E2]. exfalso. apply E2. congruence.
  - split; [tauto|]. intro H. split; [exact H|]. intro X. apply entry_inj' in X; [destruct X; congruence|lia|lia].
Qed.
Lemma remove_zero f s p : agrees f s -> P p -> (forall q, 0 < q <= M -> f p <> Some q) -> agrees (override f p None) s.
Proof.
  intros [T A] Hp Hf. split; [exact T|]. intros p' q' Hp' Hq'. rewrite (A p' q' Hp' Hq'). unfold override. destruct (eqb_case n_equals P Peq p p' Hp Hp') as [[<- ->]|[N ->]]; [|reflexivity]. split; [intro H; exfalso; exact (Hf q' Hq' H)|discriminate].
Qed.
Lemma insert_agrees f s p q : agrees f s -> P p -> 0 < q <= M -> f p = None -> exists s', insertIntoIblt mmh (entry p q) s = (s', Ok tt) /\ rest_eq s s' /\ agrees (override f p (Some q)) s'.
Proof.
  intros [T A] Hp Hq Hf. destruct (insert_ok mmh n U U_valid U_inj s (entry p q) T (U_entry p q Hp Hq)) as (s' & E & T' & R & K); [rewrite (A p q Hp Hq); congruence|].
  exists s'. split; [exact E|]. split; [exact R|]. split; [exact T'|]. intros p' q' Hp' Hq'. rewrite K, in_app_iff, (A p' q' Hp' Hq'). cbn [In]. unfold override. destruct (eqb_case n_equals P Peq p p' Hp Hp') as [[<- ->]|[N ->]].
  - rewrite Hf. split; [intros [H|[H|[]]]; [discriminate|]; apply entry_inj' in H; [destruct H; congruence|lia|lia]|]. intro H. injection H as ->. auto.
  - split; [intros [H|[H|[]]]; [exact H|]; apply entry_inj' in H; [destruct H; congruence|lia|lia]|]. auto.
Qed.
Lemma fromNumber_entry q : 0 <= q -> c_fromNumber q = Ok (c_generic (nonneg q)).
Proof. apply c_fromNumber_ok. Qed.
Lemma override_eq f p o : P p -> override f p o p = o.
Proof. intro Hp. unfold override. rewrite (eqb_refl_ n_equals P Peq p Hp). reflexivity. Qed.
Lemma override_neq f p o p' : P p -> P p' -> p <> p' -> override f p o p' = f p'.
Proof. intros Hp Hp' N. unfold override. rewrite (eqb_neq n_equals P Peq p p' Hp Hp' N). reflexivity. Qed.

(** *** Received names *)
Definition newer (d : dict name Z) (x : name * Z) : bool := match seqs d (fst x) with None => true | Some old => old <? snd x end.
Lemma canAdd_ok f s p q : pfx (s_prefixes s) -> agrees f s -> P p -> 0 < q <= M -> f p = seqs (s_prefixes s) p ->
  exists s', canAddReceivedName mmh (entry p q) s = (s', Ok (newer (s_prefixes s) (p, q))) /\ rest_eq s s' /\
    agrees (if newer (s_prefixes s) (p, q) then override f p None else f) s'.
Proof.
  intros Hd A Hp Hq Hf. pose proof M64. unfold canAddReceivedName, bind, lift, get. rewrite entry_prefix. unfold entry at 1. rewrite last_getitem, entry_number by lia. unfold newer. cbn [fst snd].
  destruct (seqs (s_prefixes s) p) as [old|] eqn:G.
  - pose proof (pfx_get _ _ _ Hd Hp G) as Ho. destruct (old <? q) eqn:L; [|exists s; split; [reflexivity|]; split; [repeat split|exact A]].
    destruct (old =? 0) eqn:Z0; cbn [negb].
    + exists s. split; [reflexivity|]. split; [repeat split|]. apply remove_zero; [exact A|exact Hp|]. intros q' Hq' X. assert (old = q') by congruence. lia.
    + rewrite fromNumber_entry by lia. destruct (remove_agrees f s p old A Hp ltac:(lia) Hf) as (s' & E & R & A'). unfold entry in E. rewrite E. exists s'. split; [reflexivity|]. split; assumption.
  - exists s. split; [reflexivity|]. split; [repeat split|]. apply remove_zero; [exact A|exact Hp|]. intros; congruence.
Qed.
Lemma rest_trans s s' s'' : rest_eq s s' -> rest_eq s' s'' -> rest_eq s s''.
Proof. intros (A1 & A2 & A3 & A4 & A5 & A6) (B1 & B2 & B3 & B4 & B5 & B6). repeat split; congruence. Qed.
Definition entry2 (x : name * Z) : name := entry (fst x) (snd x).
Definition overrides (f : name -> option Z) (l : list (name * Z)) (p : name) : option Z := match seqs l p with Some q => Some q | None => f p end.
Lemma receive_ok : forall l f s, NoDup (map fst l) -> Forall (fun x => P (fst x) /\ 0 < snd x <= M) l -> pfx (s_prefixes s) -> agrees f s -> (forall x, In x l -> f (fst x) = seqs (s_prefixes s) (fst x)) ->
  exists s', receive mmh true (map entry2 l) s = (s', Ok (map entry2 (filter (newer (s_prefixes s)) l))) /\ rest_eq s s' /\ agrees (overrides f (filter (newer (s_prefixes s)) l)) s'.
Proof.
  induction l as [|[p q] l IH]; intros f s Hu Hl Hd A Hf.
  - exists s. split; [reflexivity|]. split; [repeat split|]. exact A.
  - inversion Hu as [|? ? U1 U2]; subst. inversion Hl as [|? ? [Hp Hq] Hl']; subst. cbn [fst snd] in *. cbn [map receive filter]. unfold bind at 1. unfold get. change (entry2 (p, q)) with (entry p q).
    assert (Td : dom U (s_n2h s)) by apply A. pose proof (din_iff n_equals U (Ueq U U_valid) (s_n2h s) (entry p q) Td (U_entry p q Hp Hq)) as I. rewrite (proj2 A p q Hp Hq) in I.
    destruct (din n_equals (s_n2h s) (entry p q)) eqn:D; cbn [negb].
    + assert (F : f p = Some q) by now apply I. assert (W : newer (s_prefixes s) (p, q) = false). { unfold newer. cbn [fst snd]. pose proof (Hf (p, q) (or_introl eq_refl)) as Hf0. cbn [fst] in Hf0. rewrite <- Hf0, F. apply Z.ltb_irrefl. }
      rewrite W. apply IH; [assumption|assumption|assumption|assumption|]. intros x Hx. apply Hf. now right.
    + unfold bind at 1. destruct (canAdd_ok f s p q Hd A Hp Hq (Hf (p, q) (or_introl eq_refl))) as (s1 & E1 & R1 & A1). rewrite E1. destruct (newer (s_prefixes s) (p, q)) eqn:W.
      * destruct (insert_agrees _ s1 p q A1 Hp Hq (override_eq f p None Hp)) as (s2 & E2 & R2 & A2). pose proof (rest_trans _ _ _ R1 R2) as R12. assert (Ep : s_prefixes s2 = s_prefixes s) by apply R12.
        unfold bind at 1. rewrite E2. unfold bind at 1.
        destruct (IH (override (override f p None) p (Some q)) s2) as (s' & E' & R' & A'); [assumption|assumption|now rewrite Ep|exact A2| |].
        { intros [p' q'] Hx. rewrite Ep. rewrite Forall_forall in Hl'. destruct (Hl' _ Hx) as [Hp' _]. cbn [fst] in *. assert (p <> p') by (intros ->; apply U1; apply (in_map fst) in Hx; exact Hx). rewrite !override_neq by assumption. apply (Hf (p', q')). now right. }
        rewrite E'. rewrite Ep in *. eexists. split; [reflexivity|]. split; [eapply rest_trans; eassumption|]. eapply agrees_ext; [|exact A']. intros p' Hp'. unfold overrides. cbn [dget].
        destruct (eqb_case n_equals P Peq p p' Hp Hp') as [[<- X]|[N X]]; rewrite X.
        -- rewrite (proj2 (dget_none n_equals P Peq (filter (newer (s_prefixes s)) l) p ltac:(unfold dom; rewrite Forall_forall in *; intros x Hx; apply filter_In in Hx; apply Hl', Hx) Hp)); [apply override_eq; exact Hp|].
           intro H0. apply U1. unfold dkeys in H0. apply in_map_iff in H0. destruct H0 as (x & <- & Hx). apply filter_In in Hx. apply in_map. apply Hx.
        -- rewrite !override_neq by assumption. reflexivity.
      * assert (Ep : s_prefixes s1 = s_prefixes s) by apply R1. destruct (IH f s1) as (s' & E' & R' & A'); [assumption|assumption|now rewrite Ep|exact A1|intros x Hx; rewrite Ep; apply Hf; now right|]. rewrite E'. rewrite Ep in *. exists s'. split; [reflexivity|]. split; [eapply rest_trans; eassumption|exact A'].
Qed.
Definition with_prefixes (s : state) (d : dict name Z) : state := State d (s_n2h s) (s_h2n s) (s_iblt s) (s_pending s) (s_removed s) (s_next s) (s_outstanding s) (s_log s).
Lemma updates_ok : forall l s, NoDup (map fst l) -> Forall (fun x => P (fst x) /\ 0 < snd x <= M) l -> pfx (s_prefixes s) ->
  exists d, updates (map entry2 l) s = (with_prefixes s d, Ok (map (fun x => (fst x, match seqs (s_prefixes s) (fst x) with Some q => q | None => 0 end + 1, snd x)) l)) /\ pfx d /\
    forall p, P p -> seqs d p = overrides (seqs (s_prefixes s)) l p.
Proof.
  induction l as [|[p q] l IH]; intros s Hu Hl Hd.
  - exists (s_prefixes s). split; [destruct s; reflexivity|]. split; [exact Hd|]. reflexivity.
  - inversion Hu as [|? ? U1 U2]; subst. inversion Hl as [|? ? [Hp Hq] Hl']; subst. cbn [fst snd] in *. pose proof M64. cbn [map updates]. change (entry2 (p, q)) with (entry p q). cbn [fst snd]. unfold bind, lift, get. rewrite entry_prefix. unfold entry at 1. rewrite last_getitem, entry_number by lia.
    unfold set_prefixes, put. set (s1 := State (dset n_equals (s_prefixes s) p q) _ _ _ _ _ _ _ _). destruct (IH s1 U2 Hl') as (d & E & Hd' & G); [apply pfx_set; [exact Hd|exact Hp|lia]|]. rewrite E. exists d. split; [|split; [exact Hd'|]].
    + unfold ret. f_equal. f_equal. f_equal. apply map_ext_in. intros [p' q'] Hx. cbn [fst snd s1 s_prefixes]. rewrite Forall_forall in Hl'. destruct (Hl' _ Hx) as [Hp' _]. cbn [fst] in Hp'.
      rewrite (dset_get n_equals P Peq _ _ _ _ (p_dom _ Hd) Hp Hp'), (eqb_neq n_equals P Peq p p' Hp Hp'); [reflexivity|]. intros ->. apply U1. apply (in_map fst) in Hx. exact Hx.
    + intros p' Hp'. rewrite (G p' Hp'). unfold overrides. cbn [s1 s_prefixes dget]. rewrite (dset_get n_equals P Peq _ _ _ _ (p_dom _ Hd) Hp Hp').
      destruct (eqb_case n_equals P Peq p p' Hp Hp') as [[<- X]|[N X]]; rewrite X; [|reflexivity].
      rewrite (proj2 (dget_none n_equals P Peq l p ltac:(unfold dom; rewrite Forall_forall in *; intros x Hx; apply Hl', Hx) Hp)); [reflexivity|exact U1].
Qed.
Lemma filter_nodup_fst (f : name * Z -> bool) l : NoDup (map fst l) -> NoDup (map fst (filter f l)).
Proof.
  induction l as [|x l IH]; intro H; [exact H|]. inversion H as [|? ? H1 H2]; subst. cbn [filter]. destruct (f x); [|now apply IH]. cbn [map]. constructor; [|now apply IH]. intro I. apply H1. apply in_map_iff in I. destruct I as (y & E & I). apply filter_In in I. apply in_map_iff. exists y. split; [exact E|apply I].
Qed.
Lemma filter_forall {A} (f : A -> bool) (Q : A -> Prop) l : Forall Q l -> Forall Q (filter f l).
Proof. rewrite !Forall_forall. intros H x Hx. apply filter_In in Hx. apply H, Hx. Qed.

(** *** The events *)
Lemma inv_start : inv (start compress n syncPrefix).
Proof.
  split; cbn [start sendSyncInterest new_state fst s_prefixes].
  - split; [constructor|constructor|intros ? ? []].
  - split; [|intros p q Hp Hq; split; [intros []|discriminate]]. destruct (new_sized n Hn) as [[Hb _] E]. split; [constructor|constructor|intros ? ? []|constructor|intros; cbn; tauto|]. cbn [bind get start sendSyncInterest new_state fst s_iblt s_n2h set_outstanding out put map inserts]. rewrite E. apply holds_new. exact Hb.
Qed.
Lemma pfx_agrees_set s p q o : pfx (s_prefixes s) -> P p -> agrees (override (seqs (s_prefixes s)) p o) s -> (o = Some q \/ (o = None /\ q = 0)) -> agrees (seqs (dset n_equals (s_prefixes s) p q)) s.
Proof.
  intros Hd Hp A Ho. eapply agrees_ext'; [|exact A]. intros p' q' Hp' Hq'. unfold override. rewrite (dset_get n_equals P Peq _ _ _ _ (p_dom _ Hd) Hp Hp'). destruct (n_equals p p'); [|reflexivity].
  destruct Ho as [->|[-> ->]]; [reflexivity|]. split; [discriminate|]. intro H. injection H as <-. lia.
Qed.
Definition after_set (s s' : state) (p : name) (o : option Z) : Prop := forall p', P p' -> seqs (s_prefixes s') p' = override (seqs (s_prefixes s)) p o p'.
Lemma add_ok s p : inv s -> P p -> exists s' b, addUserNode p s = (s', Ok b) /\ inv s' /\ after_set s s' p (match seqs (s_prefixes s) p with Some q => Some q | None => Some 0 end).
Proof.
  intros [Hd A] Hp. unfold addUserNode, bind, get, din. destruct (seqs (s_prefixes s) p) as [q|] eqn:G; cbn [negb].
  - eexists _, _. split; [reflexivity|]. split; [split; assumption|]. intros p' Hp'. unfold override. destruct (eqb_case n_equals P Peq p p' Hp Hp') as [[<- X]|[N X]]; rewrite X; [exact G|reflexivity].
  - unfold set_prefixes, put. eexists _, _. split; [reflexivity|]. pose proof M64. split; [split; cbn [s_prefixes]|].
    + apply pfx_set; [exact Hd|exact Hp|lia].
    + apply (agrees_core _ s); [reflexivity|reflexivity|reflexivity|]. eapply pfx_agrees_set with (o := None); [exact Hd|exact Hp| |auto]. apply remove_zero; [exact A|exact Hp|intros; congruence].
    + intros p' Hp'. cbn [s_prefixes]. rewrite (dset_get n_equals P Peq _ _ _ _ (p_dom _ Hd) Hp Hp'). reflexivity.
Qed.
Lemma removeUser_ok s p : inv s -> P p -> exists s', removeUserNode mmh p s = (s', Ok tt) /\ inv s' /\ after_set s s' p None.
Proof.
  intros [Hd A] Hp. unfold removeUserNode, bind, get. destruct (seqs (s_prefixes s) p) as [q|] eqn:G.
  - pose proof (pfx_get _ _ _ Hd Hp G) as Hq. unfold lift. rewrite fromNumber_entry by lia. unfold set_prefixes, put. set (s1 := State (dremove n_equals (s_prefixes s) p) _ _ _ _ _ _ _ _).
    assert (Q : forall p', P p' -> seqs (s_prefixes s1) p' = override (seqs (s_prefixes s)) p None p').
    { intros p' Hp'. cbn [s1 s_prefixes]. unfold override. apply (dremove_get n_equals P Peq _ _ _ (p_dom _ Hd) Hp Hp' (p_uniq _ Hd)). }
    assert (A1 : agrees (seqs (s_prefixes s)) s1) by (apply (agrees_core _ s); [reflexivity|reflexivity|reflexivity|exact A]).
    assert (Hd1 : pfx (s_prefixes s1)) by (apply pfx_remove; exact Hd).
    fold (entry p q). destruct (Z.eq_dec q 0) as [->|Nz].
    + (* a prefix with sequence number 0 is not in the table *)
      pose proof (remove_zero _ _ p A1 Hp ltac:(intros ? ? X; rewrite G in X; injection X as X; lia)) as A2.
      assert (D0 : dget n_equals (s_n2h s1) (entry p 0) = None).
      { destruct (dget n_equals (s_n2h s1) (entry p 0)) as [h|] eqn:D; [|reflexivity]. exfalso.
        assert (exists x, In (x, h) (s_n2h s1) /\ n_equals x (entry p 0) = true) as (x & Hx & Ex).
        { clear -D. induction (s_n2h s1) as [|[x h'] d IH]; [discriminate|]. cbn [dget] in D. destruct (n_equals x (entry p 0)) eqn:E; [injection D as ->; exists x; split; [now left|exact E]|]. destruct (IH D) as (y & Hy & Ey). exists y. split; [now right|exact Ey]. }
        assert (Ux : U x) by (destruct A1 as [[Td _ _ _ _ _] _]; unfold dom in Td; rewrite Forall_forall in Td; apply (Td _ Hx)). apply valid_equals in Ex; [|apply U_valid; exact Ux|apply entry_valid; [exact Hp|lia]].
        destruct Ux as (p' & q' & Hp' & Hq' & ->). apply entry_inj' in Ex; [lia|lia|pose proof M64; lia]. }
      unfold removeName, bind, get. rewrite D0. exists s1. split; [reflexivity|]. split; [split; [exact Hd1|]|exact Q]. eapply agrees_ext; [|exact A2]. intros p' Hp'. symmetry. now apply Q.
    + destruct (remove_agrees _ s1 p q A1 Hp ltac:(lia) G) as (s2 & E & R & A2). rewrite E. exists s2. split; [reflexivity|]. assert (Ep : s_prefixes s2 = s_prefixes s1) by apply R. split; [split; [now rewrite Ep|]|].
      * rewrite Ep. eapply agrees_ext; [|exact A2]. intros p' Hp'. symmetry. now apply Q.
      * intros p' Hp'. rewrite Ep. now apply Q.
  - exists s. split; [reflexivity|]. split; [split; assumption|]. intros p' Hp'. unfold override. destruct (eqb_case n_equals P Peq p p' Hp Hp') as [[<- X]|[N X]]; rewrite X; [exact G|reflexivity].
Qed.
Definition next_seq (d : dict name Z) (p : name) (q : Z) : option Z :=
  match seqs d p with None => None | Some old => Some (Z.max old (if 0 <=? q then q else old + 1)) end.
Lemma publish_ok s p q : inv s -> P p -> q <= M -> (q < 0 -> getSequenceNo s p < M) ->
  exists s1, inv s1 /\ after_set s s1 p (next_seq (s_prefixes s) p q) /\ s_log s1 = s_log s /\ s_pending s1 = s_pending s /\ s_outstanding s1 = s_outstanding s /\ s_removed s1 = s_removed s /\ s_next s1 = s_next s /\
   publishUser mmh compress fuel n syncPrefix p q s = (if match seqs (s_prefixes s) p with None => false | Some old => old <? (if 0 <=? q then q else old + 1) end then satisfyPendingInterests mmh compress fuel n syncPrefix s1 else (s1, Ok tt)).
Proof.
  intros [Hd A] Hp Hq Hm. pose proof M64. unfold publishUser, bind at 1, get at 1. unfold next_seq, getSequenceNo in *. destruct (seqs (s_prefixes s) p) as [old|] eqn:G.
  - pose proof (pfx_get _ _ _ Hd Hp G) as Ho. set (q' := if 0 <=? q then q else old + 1) in *. assert (Hq' : 0 <= q' <= M) by (unfold q'; destruct (0 <=? q) eqn:X; lia).
    unfold updateSequenceNo, bind, get. rewrite G. destruct (q' <=? old) eqn:L.
    + replace (old <? q') with false by lia. exists s. split; [split; assumption|]. split; [|repeat split]. intros p' Hp'. unfold override. destruct (eqb_case n_equals P Peq p p' Hp Hp') as [[<- X]|[N X]]; rewrite X; [|reflexivity]. rewrite G. f_equal. lia.
    + replace (old <? q') with true by lia. unfold set_prefixes, put, lift. set (s0 := State (dset n_equals (s_prefixes s) p q') _ _ _ _ _ _ _ _).
      assert (Hd0 : pfx (s_prefixes s0)) by (apply pfx_set; [exact Hd|exact Hp|lia]).
      assert (Q : forall p', P p' -> seqs (s_prefixes s0) p' = override (seqs (s_prefixes s)) p (Some q') p') by (intros p' Hp'; cbn [s0 s_prefixes]; now apply (dset_get n_equals P Peq _ _ _ _ (p_dom _ Hd) Hp Hp')).
      assert (A0 : agrees (seqs (s_prefixes s)) s0) by (apply (agrees_core _ s); [reflexivity|reflexivity|reflexivity|exact A]).
      assert (Tail : forall s1, rest_eq s0 s1 -> agrees (override (seqs (s_prefixes s)) p None) s1 -> exists s2, inv s2 /\ after_set s s2 p (Some (Z.max old q')) /\ s_log s2 = s_log s /\ s_pending s2 = s_pending s /\ s_outstanding s2 = s_outstanding s /\ s_removed s2 = s_removed s /\ s_next s2 = s_next s /\
        publishName mmh compress fuel n syncPrefix (entry p q') s1 = satisfyPendingInterests mmh compress fuel n syncPrefix s2).
      { intros s1 R1 A1. destruct (insert_agrees _ s1 p q' A1 Hp ltac:(lia) (override_eq _ p None Hp)) as (s2 & E2 & R2 & A2). pose proof (rest_trans _ _ _ R1 R2) as R. destruct R as (Rp & Rpe & Rr & Rn & Ro & Rl).
        exists s2. split; [split; [now rewrite Rp|]|].
        { rewrite Rp. eapply agrees_ext; [|exact A2]. intros p' Hp'. rewrite (Q p' Hp'). unfold override. destruct (n_equals p p'); reflexivity. }
        split. { intros p' Hp'. rewrite Rp, (Q p' Hp'). unfold override. destruct (n_equals p p'); [f_equal; lia|reflexivity]. }
        do 5 (split; [assumption|]).
        unfold publishName, bind at 1, get at 1.
        assert (I : din n_equals (s_n2h s1) (entry p q') = false).
        { destruct (din n_equals (s_n2h s1) (entry p q')) eqn:D; [|reflexivity]. exfalso. apply (din_iff n_equals U (Ueq U U_valid)) in D; [|apply A1|apply U_entry; [exact Hp|lia]]. apply (proj2 A1 p q' Hp ltac:(lia)) in D. rewrite override_eq in D by exact Hp. discriminate. }
        rewrite I. unfold bind. rewrite E2. reflexivity. }
      destruct (old =? 0) eqn:Z0; cbn [negb ret].
      * rewrite (fromNumber_entry q') by lia. apply Tail; [repeat split|]. apply remove_zero; [exact A0|exact Hp|]. intros ? ? X. rewrite G in X. injection X as X. lia.
      * rewrite (fromNumber_entry old) by lia. destruct (remove_agrees _ s0 p old A0 Hp ltac:(lia) G) as (s1 & E & R & A1). unfold entry in E. rewrite E. cbn [ret]. rewrite (fromNumber_entry q') by lia. apply Tail; assumption.
  - exists s. split; [split; assumption|]. split; [|repeat split]. intros p' Hp'. unfold override. destruct (eqb_case n_equals P Peq p p' Hp Hp') as [[<- X]|[N X]]; rewrite X; [exact G|reflexivity].
Qed.
Lemma data_ok s i l : inv s -> NoDup (map fst l) -> Forall (fun x => P (fst x) /\ 0 < snd x <= M) l ->
  let new_ := filter (newer (s_prefixes s)) l in
  let us := map (fun x => (fst x, match seqs (s_prefixes s) (fst x) with Some q => q | None => 0 end + 1, snd x)) new_ in
  exists s', onSyncData mmh compress syncPrefix true i (map entry2 l) s = (s', Ok tt) /\ inv s' /\ (forall p, P p -> seqs (s_prefixes s') p = overrides (seqs (s_prefixes s)) new_ p) /\
    s_log s' = s_log s ++ match new_ with [] => [] | _ => [LUpdate us; LInterest (syncPrefix ++ [c_generic (encode compress (s_iblt s'))])] end.
Proof.
  intros [Hd A] Hu Hl. cbn zeta. unfold onSyncData, bind at 1.
  pose proof (keeps_delete i s) as K. assert (Hdel : exists s0, deletePendingInterests i s = (s0, Ok tt) /\ s_log s0 = s_log s).
  { unfold deletePendingInterests, bind, get. destruct (seqs (s_pending s) i) as [e|] eqn:G; [|exists s; auto]. unfold set_removed, put, lift, ddel, din. rewrite G. eexists. split; reflexivity. }
  destruct Hdel as (s0 & E0 & L0). rewrite E0 in *. cbn [fst] in K. apply core_eq in K. destruct K as (K1 & K2 & K3 & K4).
  destruct (receive_ok l (seqs (s_prefixes s)) s0 Hu Hl) as (s1 & E1 & R1 & A1); [now rewrite K1|eapply agrees_core; eassumption|intros; now rewrite K1|]. rewrite K1 in *. unfold bind at 1. rewrite E1.
  destruct R1 as (Rp & _ & _ & _ & _ & Rl). set (new_ := filter (newer (s_prefixes s)) l) in *. destruct (0 <? zlen (map entry2 new_)) eqn:Z0.
  - unfold bind, onNamesUpdate. unfold bind.
    destruct (updates_ok new_ s1 (filter_nodup_fst _ _ Hu) (filter_forall _ _ _ Hl)) as (d & E2 & Hd2 & G2); [now rewrite Rp, K1|]. rewrite E2. rewrite Rp, K1 in *. unfold out, put, sendSyncInterest, get, bind, set_outstanding, put. cbn [fst].
    eexists. split; [reflexivity|]. split; [split; cbn [s_prefixes with_prefixes]|split].
    + exact Hd2.
    + apply (agrees_core _ s1); [reflexivity|reflexivity|reflexivity|]. eapply agrees_ext; [|exact A1]. intros p Hp. symmetry. now apply G2.
    + exact G2.
    + cbn [s_log s_iblt with_prefixes]. rewrite Rl, L0, <- app_assoc. destruct new_; [discriminate|reflexivity].
  - assert (N0 : new_ = []) by (destruct new_; [reflexivity|]; exfalso; cbn [map] in Z0; rewrite zlen_cons in Z0; pose proof (zlen_nonneg _ (map entry2 new_)); lia).
    rewrite N0 in *. exists s1. split; [reflexivity|]. split; [split; [now rewrite Rp, K1|rewrite Rp, K1; exact A1]|]. split; [intros; rewrite Rp, K1; reflexivity|]. rewrite app_nil_r. congruence.
Qed.
Lemma inv_step s e : inv s -> wf P M s e -> inv (step mmh compress decompress fuel n syncPrefix true s e).
Proof.
  intros I W. unfold step, act. destruct e as [p|p|p q|x|x|f p x|i c| |x e]; cbn [wf] in W; try contradiction.
  - destruct (add_ok s p I W) as (s' & b & E & I' & _). unfold bind. rewrite E. exact I'.
  - destruct (removeUser_ok s p I W) as (s' & E & I' & _). rewrite E. exact I'.
  - destruct W as (Hp & Hq & Hm). destruct (publish_ok s p q I Hp Hq Hm) as (s1 & I1 & _ & _ & _ & _ & _ & _ & E). rewrite E. match goal with |- context [if ?b then _ else _] => destruct b end; [|exact I1]. eapply inv_core; [apply keeps_satisfy|exact I1].
  - eapply inv_core; [apply keeps_onSyncInterest|exact I].
  - destruct W as (l & -> & Hu & Hl). destruct (data_ok s i l I Hu Hl) as (s' & E & I' & _). fold entry2. change (map (fun x => entry (fst x) (snd x)) l) with (map entry2 l). rewrite E. exact I'.
  - eapply inv_core; [apply keeps_sendSyncInterest|exact I].
  - eapply inv_core; [apply keeps_delayed|exact I].
Qed.
Lemma reach_inv s : reach mmh compress decompress fuel n syncPrefix P M s -> inv s.
Proof. induction 1 as [|s e H IH W]; [apply inv_start|now apply inv_step]. Qed.
End G.
