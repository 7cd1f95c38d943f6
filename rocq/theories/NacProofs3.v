(** * DecryptorV2: where the plain text comes from, and which Interests are sent *)
From Verif Require Import Base BaseLemmas NameModel NameSpec NameProofs DictModel DictProofs CertProofs WireModel CtlModel HierModel HierProps PibModel PibSpec PibProps FrontModel FrontProofs5 BagModel ChainModel CmdProps MatchProps NameProps NacModel NacSpec NacProofs NacProofs2.

(** ** Names *)
Lemma equals_app : forall a a' b b', n_equals a a' = true -> n_equals b b' = true -> n_equals (a ++ b) (a' ++ b') = true.
Proof. intros a a' b b' H1 H2. apply n_equals_ckey in H1, H2. apply n_equals_ckey. rewrite !map_app. congruence. Qed.
Lemma get_last1 : forall (i : name) a b, py_getitem (i ++ [a; b]) (-1) = Ok b.
Proof. intros. replace (i ++ [a; b]) with ((i ++ [a]) ++ [b]) by (rewrite <- app_assoc; reflexivity). exact (getitem_neg _ _ b []). Qed.
Lemma get_last2 : forall (i : name) a b, py_getitem (i ++ [a; b]) (-2) = Ok a. Proof. intros. exact (getitem_neg _ _ a [b]). Qed.
Lemma get_prefix2 : forall (i : name) a b, n_getPrefix (i ++ [a; b]) (-2) = Ok i. Proof. intros. exact (getPrefix_app i [a; b] ltac:(discriminate)). Qed.
Lemma kdk_prefix_ok : forall i c, kdk_prefix (i ++ [N_KEK; c]) = Ok (Some (i ++ [N_KDK; c])).
Proof.
  intros i c. unfold kdk_prefix. pose proof (zlen_nonneg _ i). replace (zlen (i ++ [N_KEK; c]) <? 2) with false by (zl; lia). rewrite get_last2. cbn [rbind]. replace (c_equals N_KEK N_KEK) with true by reflexivity. cbn [negb]. rewrite get_prefix2, get_last1. reflexivity.
Qed.
Lemma kdk_prefix_inv : forall k pre, kdk_prefix k = Ok (Some pre) -> exists i a c, k = i ++ [a; c] /\ c_equals a N_KEK = true /\ pre = i ++ [N_KDK; c].
Proof.
  intros k pre. unfold kdk_prefix. destruct (zlen k <? 2) eqn:L; [discriminate|]. destruct (last2 k) as (i & a & c & ->); [lia|]. rewrite get_last2. cbn [rbind]. destruct (c_equals a N_KEK) eqn:E; cbn [negb]; [|discriminate]. rewrite get_prefix2, get_last1. cbn. intros [= <-]. exists i, a, c. auto.
Qed.
Lemma kdk_key_of_ok : forall i a c, kdk_key_of (i ++ [a; c]) = Ok (kdk_key_name i c).
Proof. intros. unfold kdk_key_of. rewrite get_prefix2, get_last1. reflexivity. Qed.
Lemma subname_from : forall (p q : name), n_getSubName (p ++ q) (zlen p) None = Ok q.
Proof. intros p q. pose proof (zlen_nonneg _ p). pose proof (zlen_nonneg _ q). rewrite C10_getSubName_rest by (zl; lia). cbv zeta. replace (zlen p <? 0) with false by lia. replace (Z.to_nat (zlen p)) with (length p) by (unfold zlen; lia). rewrite skipn_app, Nat.sub_diag, skipn_all. reflexivity. Qed.
(** The CK Data name, in general *)
Lemma kdk_info_split : forall k pfx a kek, zlen pfx = zlen k ->
  kdk_info (pfx ++ a :: kek) k = (if negb (n_equals pfx k) then Ok (BadName E_CkInvalidName) else if negb (c_equals a N_ENCRYPTED_BY) then Ok (BadName E_CkInvalidName)
    else rbind (kdk_prefix kek) (fun o => match o with None => Ok (BadName E_KekInvalidName) | Some pre => rbind (n_getPrefix kek (-2)) (fun i => rbind (py_getitem kek (-1)) (fun l => Ok (KdkInfo pre i (i ++ [KEY] ++ [l])))) end)).
Proof.
  intros k pfx a kek L. unfold kdk_info. pose proof (zlen_nonneg _ kek). replace (zlen (pfx ++ a :: kek) <? zlen k + 1) with false by (zl; lia). rewrite <- L.
  rewrite n_getPrefix_ok. pose proof (zlen_nonneg _ pfx). replace (zlen pfx <? 0) with false by lia. replace (Z.to_nat (zlen pfx)) with (length pfx) by (unfold zlen; lia). rewrite firstn_app, Nat.sub_diag, firstn_O, app_nil_r, firstn_all. cbn [rbind]. destruct (n_equals pfx k); cbn [negb]; [|reflexivity].
  rewrite (getitem_split _ pfx a kek). cbn [rbind]. destruct (c_equals a N_ENCRYPTED_BY); cbn [negb]; [|reflexivity]. replace (pfx ++ a :: kek) with ((pfx ++ [a]) ++ kek) by (rewrite <- app_assoc; reflexivity). replace (zlen pfx + 1) with (zlen (pfx ++ [a])) by (zl; lia). rewrite subname_from. reflexivity.
Qed.
Lemma kdk_info_ok : forall ck i c, kdk_info (ck_data_name ck i c) ck = Ok (KdkInfo (i ++ [N_KDK; c]) i (kdk_key_name i c)).
Proof. intros k i c. unfold ck_data_name. change ([N_ENCRYPTED_BY] ++ i ++ [N_KEK; c]) with (N_ENCRYPTED_BY :: (i ++ [N_KEK; c])). rewrite kdk_info_split by reflexivity. rewrite eq_refl_n. replace (c_equals N_ENCRYPTED_BY N_ENCRYPTED_BY) with true by reflexivity. cbn [negb]. rewrite kdk_prefix_ok. cbn [rbind]. rewrite get_prefix2, get_last1. reflexivity. Qed.
Lemma kdk_info_inv : forall n k pre i key, kdk_info n k = Ok (KdkInfo pre i key) -> exists c, n_equals n (ck_data_name k i c) = true /\ pre = i ++ [N_KDK; c] /\ key = kdk_key_name i c /\ kdk_key_of pre = Ok key.
Proof.
  intros n k pre i key H. assert (L : zlen k + 1 <= zlen n). { unfold kdk_info in H. destruct (zlen n <? zlen k + 1) eqn:E; [discriminate H|lia]. }
  assert (S : exists pfx a kek, n = pfx ++ a :: kek /\ zlen pfx = zlen k). { exists (firstn (length k) n). destruct (skipn (length k) n) as [|a kek] eqn:E; [apply (f_equal (@length _)) in E; rewrite skipn_length in E; unfold zlen in L; cbn in E; lia|]. exists a, kek. rewrite <- E, firstn_skipn. split; [reflexivity|]. unfold zlen in *. rewrite firstn_length. lia. }
  destruct S as (pfx & a & kek & -> & Lp). rewrite kdk_info_split in H by exact Lp. destruct (n_equals pfx k) eqn:E1; [|discriminate H]. cbn [negb] in H. destruct (c_equals a N_ENCRYPTED_BY) eqn:E2; [|discriminate H]. cbn [negb] in H. destruct (kdk_prefix kek) as [[pre'|]|] eqn:E3; cbn [rbind] in H; try discriminate H.
  destruct (kdk_prefix_inv _ _ E3) as (i' & b & c & -> & E4 & ->). rewrite get_prefix2, get_last1 in H. cbn [rbind] in H. injection H as <- <- <-. exists c. split; [|split; [reflexivity|split; [reflexivity|apply kdk_key_of_ok]]].
  unfold ck_data_name. apply equals_app; [exact E1|]. cbn [app n_equals]. rewrite E2, Bool.andb_true_r. apply equals_app; [apply eq_refl_n|]. change [b; c] with ([b] ++ [c]). change [N_KEK; c] with ([N_KEK] ++ [c]). apply equals_app; [|apply eq_refl_n]. cbn [n_equals]. rewrite E4. reflexivity.
Qed.

Section N.
Variable P : Type.
Variable psign : Z -> P -> bytes -> bytes.
Variable pverify : bytes -> bytes -> bytes -> res bool.
Variable ktype : bytes -> res Z.
Variable load : bytes -> option bytes -> res P.
Variable ord : list name -> list name.
Variable pdec : P -> bytes -> res bytes.
Variable cbc_inv : bytes -> bytes -> bytes -> res bytes.
Variable credentials : name.
Notation dstate := (dstate P).
Notation do_decrypt := (do_decrypt cbc_inv).
Notation d_step := (d_step P psign pverify ktype load ord pdec cbc_inv credentials).
Notation d_run := (d_run P psign pverify ktype load ord pdec cbc_inv credentials).
Notation done := (done P cbc_inv credentials).
Notation kdk_from := (kdk_from P load).
Notation ck_from := (ck_from P pdec).
Notation inv := (inv P cbc_inv).
Notation kdk_got := (kdk_got P load).
Notation ck_got := (ck_got P load pdec).
Notation reason := (reason credentials).
Notation holds := (holds P).

Definition pend_good (l : list event) (p : pend) : Prop :=
  (exists e, In (pend_request p, e) (requests l) /\ usable e = true /\ ck_of e = pend_ck p) /\
  match p with
  | PCk _ t _ => 1 <= t <= 3
  | PKdk k pre d t _ => 1 <= t <= 3 /\ exists id cred rnd x i key, In (EData id d cred rnd x) l /\ kdk_info (d_name d) k = Ok (KdkInfo pre i key)
  end.
Record sound (l : list event) (s : dstate) : Prop := {
  s_chain : forall k p, holds (d_chain s) k p -> kdk_got l k p;
  s_bits : forall k c bits, nval k -> dget n_equals (d_keys s) k = Some c -> ck_bits c = Some bits -> ck_got l k bits;
  s_queue : forall k c q, nval k -> dget n_equals (d_keys s) k = Some c -> In q (ck_queue c) -> In q (asks l k);
  s_pend : forall id p, In (id, p) (d_pend s) -> pend_good l p;
  s_out : forall r m, In (r, Success m) (answers (d_out s)) -> exists e bits, In (r, e) (requests l) /\ usable e = true /\ ck_got l (ck_of e) bits /\ do_decrypt e bits = Success m;
  s_sends : forall x, In x (sends (d_out s)) -> reason l x }.
Lemma sends_app : forall a b, sends (a ++ b) = sends a ++ sends b.
Proof. induction a as [|o a IH]; intros b; [reflexivity|]. destruct o; cbn [app sends]; rewrite IH; reflexivity. Qed.
Lemma kdk_got_app : forall l l' k p, kdk_got l k p -> kdk_got (l ++ l') k p.
Proof. intros l l' k p (id & d & cred & rnd & x & I & K). exists id, d, cred, rnd, x. split; [apply in_or_app; auto|exact K]. Qed.
Lemma ck_from_weak : forall d (K K' : P -> Prop) bits, (forall p, K p -> K' p) -> ck_from d K bits -> ck_from d K' bits.
Proof. intros d K K' bits W (e & c & p & A & B & C & D). exists e, c, p. auto. Qed.
Lemma ck_got_app : forall l l' k b, ck_got l k b -> ck_got (l ++ l') k b.
Proof. intros l l' k b (id & d & cred & rnd & x & i & c & I & E & K). exists id, d, cred, rnd, x, i, c. split; [apply in_or_app; auto|]. split; [exact E|]. eapply ck_from_weak; [|exact K]. intros p. apply kdk_got_app. Qed.
Lemma reason_app : forall l l' x, reason l x -> reason (l ++ l') x.
Proof.
  intros l l' x (r & e & I & U & H). exists r, e. rewrite requests_app. split; [apply in_or_app; auto|]. split; [exact U|]. destruct H as [H|(id & d & cred & rnd & x' & i & c & J & H)]; [left; exact H|]. right. exists id, d, cred, rnd, x', i, c. split; [apply in_or_app; auto|exact H].
Qed.
Lemma pend_good_app : forall l l' p, pend_good l p -> pend_good (l ++ l') p.
Proof.
  intros l l' p [(e & I & H) G]. split; [exists e; rewrite requests_app; split; [apply in_or_app; auto|exact H]|]. destruct p as [k t r|k pre d t r]; [exact G|]. destruct G as [T (id & cred & rnd & x & i & key & J & H')]. split; [exact T|]. exists id, cred, rnd, x, i, key. split; [apply in_or_app; auto|exact H'].
Qed.
Lemma pend_reason : forall l p n cp mf, pend_good l p -> pend_send credentials p = (n, cp, mf) -> reason l (n, cp, mf).
Proof.
  intros l p n cp mf [(e & I & U & Ek) G] S. exists (pend_request p), e. split; [exact I|]. split; [exact U|]. destruct p as [k t r|k pre d t r]; cbn [pend_send pend_ck] in *; injection S as <- <- <-; [left; congruence|right].
  destruct G as [_ (id & cred & rnd & x & i & key & J & H)]. destruct (kdk_info_inv _ _ _ _ _ H) as (c & En & -> & _). exists id, d, cred, rnd, x, i, c. split; [exact J|]. rewrite Ek. split; [exact En|]. unfold kdk_name, kdk_data_name. rewrite <- app_assoc. reflexivity.
Qed.
(** A handler keeps it *)
Lemma done_sound : forall l o s0 k r x (N : name -> P -> Prop) (got : bytes -> Prop) (next : pend -> Prop) s', nval k -> dom nval (d_keys s0) ->
  sound (l ++ [o]) s0 -> ck_bits (ck P s0 k) = None ->
  (forall k p, N k p -> kdk_got (l ++ [o]) k p) -> (forall b, got b -> ck_got (l ++ [o]) k b) -> (forall p, next p -> pend_good (l ++ [o]) p) ->
  done s0 k r x N got next s' -> sound (l ++ [o]) s'.
Proof.
  intros l o s0 k r x N got next s' Vk Dm S0 Eb HN Hg Hn D. destruct S0 as [A B C E F G]. destruct D as [chain' code Gr|id p n cp mf chain' Ex Hp Hs Gr|bits chain' Hb Gr].
  - constructor; cbn [d_keys d_pend d_chain d_out]; auto.
    + intros k' p H. destruct (Gr _ _ H) as [H'|H']; auto.
    + intros r' m H. rewrite answers_app in H. apply in_app_or in H. destruct H as [H|[H|[]]]; [apply F, H|discriminate H].
    + intros y H. rewrite sends_app in H. apply in_app_or in H. destruct H as [H|[]]. apply G, H.
  - constructor; cbn [d_keys d_pend d_chain d_out]; auto.
    + intros k' p' H. destruct (Gr _ _ H) as [H'|H']; auto.
    + intros k' c b V H Y. rewrite (dset_get n_equals nval Heqn) in H by auto. destruct (n_equals k k'); [|apply (B _ _ _ V H Y)]. injection H as <-. cbn in Y. rewrite Eb in Y. discriminate Y.
    + intros k' c q V H Y. rewrite (dset_get n_equals nval Heqn) in H by auto. rewrite equals_dec in H by auto. destruct (name_dec k k') as [<-|Nk]; [|apply (C _ _ _ V H Y)]. injection H as <-. cbn in Y. unfold ck in Y. destruct (dget n_equals (d_keys s0) k) as [c|] eqn:Ec; [|destruct Y]. apply (C _ _ _ Vk Ec Y).
    + intros id' p' H. apply dset_in' in H. destruct H as [H|[-> _]]; [apply (E _ _ H)|apply Hn, Hp].
    + intros r' m H. rewrite answers_app in H. apply in_app_or in H. destruct H as [H|[]]. apply F, H.
    + intros y H. rewrite sends_app in H. apply in_app_or in H. destruct H as [H|[<-|[]]]; [apply G, H|]. apply (pend_reason _ p); auto.
  - constructor; cbn [d_keys d_pend d_chain d_out]; auto.
    + intros k' p' H. destruct (Gr _ _ H) as [H'|H']; auto.
    + intros k' c b V H Y. rewrite (dset_get n_equals nval Heqn) in H by auto. rewrite equals_dec in H by auto. destruct (name_dec k k') as [<-|Nk]; [|apply (B _ _ _ V H Y)]. injection H as <-. cbn in Y. injection Y as <-. apply Hg, Hb.
    + intros k' c q V H Y. rewrite (dset_get n_equals nval Heqn) in H by auto. rewrite equals_dec in H by auto. destruct (name_dec k k') as [<-|Nk]; [|apply (C _ _ _ V H Y)]. injection H as <-. destruct Y.
    + intros r' m H. rewrite answers_app in H. apply in_app_or in H. destruct H as [H|H]; [apply F, H|]. assert (X : exists q, In q (ck_queue (ck P s0 k)) /\ r' = fst q /\ do_decrypt (snd q) bits = Success m).
      { clear - H. induction (ck_queue (ck P s0 k)) as [|q u IH]; [destruct H|]. destruct H as [H|H]; [injection H as H1 H2; exists q; split; [left; reflexivity|auto]|]. destruct (IH H) as (q' & J & X). exists q'. split; [right; exact J|exact X]. }
      destruct X as ([r0 e0] & Y & -> & Ed). unfold ck in Y. destruct (dget n_equals (d_keys s0) k) as [c|] eqn:Ec; [|destruct Y]. pose proof (C _ _ _ Vk Ec Y) as J. apply asks_in in J. destruct J as (J & U & Ek). cbn [snd] in *. exists e0, bits. split; [exact J|]. split; [exact U|]. rewrite Ek. auto.
    + intros y H. rewrite sends_app in H. apply in_app_or in H. destruct H as [H|H]; [apply G, H|]. exfalso. clear - H. induction (ck_queue (ck P s0 k)) as [|q u IH]; [destruct H|auto].
Qed.
Lemma sound_app : forall l o s, sound l s -> sound (l ++ [o]) s.
Proof.
  intros l o s [A B C E F G]. constructor.
  - intros k p H. apply kdk_got_app, A, H.
  - intros k c b V H Y. apply ck_got_app, (B _ _ _ V H Y).
  - intros k c q V H Y. rewrite asks_app. apply in_or_app. left. apply (C _ _ _ V H Y).
  - intros id p H. apply pend_good_app, (E _ _ H).
  - intros r m H. destruct (F _ _ H) as (e & b & X1 & X2 & X3 & X4). exists e, b. rewrite requests_app. split; [apply in_or_app; auto|]. split; [exact X2|]. split; [apply ck_got_app, X3|exact X4].
  - intros x H. apply reason_app, G, H.
Qed.
Lemma sound_shut : forall ks l s, sound l s -> dom nval (d_keys s) -> Forall nval ks -> sound l (fold_left (shut P) ks s).
Proof.
  induction ks as [|k ks IH]; intros l s So Dm V; [exact So|]. inversion V as [|? ? V1 V2]; subst. cbn [fold_left]. unfold shut at 2. cbv zeta. destruct (0 <? ck_pending (ck P s k)) eqn:L; [|apply IH; assumption]. apply IH; [|apply (dset_dom n_equals nval); assumption|exact V2]. destruct So as [A B C E F G]. constructor; cbn [d_keys d_pend d_chain d_out]; auto.
  - intros k' c b V' H Y. rewrite (dset_get n_equals nval Heqn) in H by auto. rewrite equals_dec in H by auto. destruct (name_dec k k') as [<-|Nk]; [|apply (B _ _ _ V' H Y)]. injection H as <-. cbn in Y. unfold ck in Y. destruct (dget n_equals (d_keys s) k) as [c|] eqn:Ec; [|discriminate Y]. apply (B _ _ _ V1 Ec Y).
  - intros k' c q V' H Y. rewrite (dset_get n_equals nval Heqn) in H by auto. rewrite equals_dec in H by auto. destruct (name_dec k k') as [<-|Nk]; [|apply (C _ _ _ V' H Y)]. injection H as <-. destruct Y.
  - intros id p H. apply dremove_in in H. apply (E _ _ H).
  - intros r m H. rewrite answers_app in H. apply in_app_or in H. destruct H as [H|H]; [apply F, H|]. exfalso. clear - H. induction (ck_queue (ck P s k)) as [|q u IH]; [destruct H|]. destruct H as [H|H]; [discriminate H|auto].
  - intros x H. rewrite sends_app in H. apply in_app_or in H. destruct H as [H|H]; [apply G, H|]. exfalso. clear - H. induction (ck_queue (ck P s k)) as [|q u IH]; [destruct H|auto].
Qed.
Lemma event_sound : forall l o id s, inv l s -> sound l s -> proper (l ++ [o]) -> about o = Some id -> sound (l ++ [o]) (fst (d_step o s)).
Proof.
  intros l o id s I S Pr A. assert (R : requests [o] = []) by (destruct o; try discriminate A; reflexivity). destruct (dget Z.eqb (d_pend s) id) as [p|] eqn:Eg.
  2: { rewrite (about_none P psign pverify ktype load ord pdec cbc_inv credentials o id s A Eg). apply sound_app, S. }
  destruct (about_some P psign pverify ktype load ord pdec cbc_inv credentials o id s p A Eg) as (s' & E & D). rewrite E. cbn [fst]. set (k := pend_ck p) in *.
  assert (J : In (id, p) (d_pend s)) by (apply (dget_in Z.eqb (fun _ => True) zeq); [apply zdom|exact Logic.I|exact Eg]). destruct (i_pk _ _ _ _ I _ _ J) as (Vk & c & Ec & Ei). fold k in Vk, Ec. pose proof (pos_id P cbc_inv l s id p I (proper_app _ _ Pr) J) as Ps. pose proof (s_pend _ _ S _ _ J) as Pg.
  assert (Eb : ck_bits c = None). { pose proof (i_ck _ _ _ _ I k Vk) as K. unfold KI in K. rewrite Ec in K. destruct (ck_bits c) as [bits|]; [lia|reflexivity]. }
  assert (S0 : sound (l ++ [o]) (begin_handler P s id k)).
  { destruct (sound_app l o s S) as [A1 B1 C1 E1 F1 G1]. constructor; unfold begin_handler; cbn [d_keys d_pend d_chain d_out]; auto.
    - intros k' c' b V H Y. rewrite (dset_get n_equals nval Heqn) in H by (auto; apply I). destruct (n_equals k k'); [|apply (B1 _ _ _ V H Y)]. injection H as <-. cbn in Y. unfold ck in Y. rewrite Ec, Eb in Y. discriminate Y.
    - intros k' c' q V H Y. rewrite (dset_get n_equals nval Heqn) in H by (auto; apply I). rewrite equals_dec in H by auto. destruct (name_dec k k') as [<-|Nk]; [|apply (C1 _ _ _ V H Y)]. injection H as <-. cbn in Y. unfold ck in Y. rewrite Ec in Y. apply (C1 _ _ _ Vk Ec Y).
    - intros id' p' H. apply dremove_in in H. apply (E1 _ _ H). }
  assert (Hc : forall K : P -> Prop, True) by auto. clear Hc.
  refine (done_sound l o (begin_handler P s id k) k (pend_request p) (x_of o) _ _ _ s' Vk _ S0 _ _ _ _ D).
  - cbn [begin_handler d_keys]. apply (dset_dom n_equals nval); [apply I|exact Vk].
  - unfold begin_handler, ck. cbn [d_keys]. rewrite dget_dset by apply eq_refl_n. cbn. rewrite Ec. exact Eb.
  - intros k' p' HN. destruct o as [|id' d cred rnd x|? ?| |]; cbn in HN; try contradiction. exists id', d, cred, rnd, x. split; [apply in_or_app; right; left; reflexivity|exact HN].
  - intros b Hg. destruct o as [|id' d cred rnd x|? ?| |]; try (destruct p; contradiction). destruct Pg as [_ Pg]. destruct p as [k0 t rr|k0 pre ckd t rr]; cbn in Hg.
    + destruct Hg as (pre & i & key & Hi & Hg). destruct (kdk_info_inv _ _ _ _ _ Hi) as (cc & En & -> & -> & _). exists id', d, cred, rnd, x, i, cc. split; [apply in_or_app; right; left; reflexivity|]. split; [exact En|]. eapply ck_from_weak; [|exact Hg]. intros p' Hp. apply kdk_got_app, (s_chain _ _ S), Hp.
    + destruct Hg as (key & Hk & Hg). destruct Pg as [_ (id2 & cred2 & rnd2 & x2 & i & key' & J2 & Hi)]. destruct (kdk_info_inv _ _ _ _ _ Hi) as (cc & En & -> & -> & Hk'). rewrite Hk' in Hk. injection Hk as <-. exists id2, ckd, cred2, rnd2, x2, i, cc. split; [apply in_or_app; left; exact J2|]. split; [exact En|]. eapply ck_from_weak; [|exact Hg]. intros p' [Hp|Hp]; [apply kdk_got_app, (s_chain _ _ S), Hp|]. exists id', d, cred, rnd, x. split; [apply in_or_app; right; left; reflexivity|exact Hp].
  - intros p' Hn. destruct (pend_good_app l [o] p Pg) as [Q1 Q2]. destruct o as [|id' d cred rnd x|? ?| |], p as [k0 t rr|k0 pre ckd t rr]; cbn in Hn; try contradiction.
    + destruct Hn as (pre & i & key & Hi & ->). split; [exact Q1|]. split; [unfold N_RETRIES; lia|]. exists id', cred, rnd, x, i, key. split; [apply in_or_app; right; left; reflexivity|exact Hi].
    + destruct Hn as [T ->]. split; [exact Q1|]. lia.
    + destruct Hn as [T ->]. split; [exact Q1|]. destruct Q2 as [T' Q2]. split; [lia|exact Q2].
Qed.
Theorem run_sound : forall l c, (forall k p, ~ holds c k p) -> proper l -> sound l (d_run (d_new c) l).
Proof.
  intros l c Hc. induction l as [|o l IH] using rev_ind; intros Pr.
  { constructor; cbn; try (intros; contradiction); try (intros; discriminate). intros k p H. destruct (Hc _ _ H). }
  pose proof (run_inv P psign pverify ktype load ord pdec cbc_inv credentials l c (proper_app _ _ Pr)) as I. specialize (IH (proper_app _ _ Pr)). unfold NacModel.d_run in *. rewrite fold_left_app. cbn [fold_left]. set (s := fold_left _ l _) in *. destruct o as [r e x|id d cred rnd x|id x|id|].
  - destruct (usable e) eqn:U.
    + pose proof (usable_step P psign pverify ktype load ord pdec cbc_inv credentials r e x s U) as E. cbv zeta in E. set (o := EDecrypt r e x) in *. set (k := ck_of e) in *. assert (Vk : nval k). { destruct Pr as (_ & _ & _ & Hv). apply (Hv r e). rewrite requests_app. apply in_or_app. right. left. reflexivity. }
      assert (Ask : In (r, e) (asks (l ++ [o]) k)). { apply asks_in. split; [rewrite requests_app; apply in_or_app; right; left; reflexivity|auto]. }
      assert (Rq : In (r, e) (requests (l ++ [o]))) by (rewrite requests_app; apply in_or_app; right; left; reflexivity).
      pose proof (sound_app l o s IH) as S1. destruct (dget n_equals (d_keys s) k) as [c0|] eqn:Eg; [destruct (ck_bits c0) as [bits|] eqn:Eb|].
      * rewrite E. cbn [fst]. pose proof (s_bits _ _ S1 _ _ _ Vk Eg Eb) as Kb. destruct S1 as [A B C E' F G]. constructor; cbn [d_keys d_pend d_chain d_out]; auto.
        -- intros r' m H. rewrite answers_app in H. apply in_app_or in H. destruct H as [H|[H|[]]]; [apply F, H|]. injection H as <- H. exists e, bits. auto.
        -- intros y H. rewrite sends_app in H. apply in_app_or in H. destruct H as [H|[]]. apply G, H.
      * rewrite E. cbn [fst]. destruct S1 as [A B C E' F G]. constructor; cbn [d_keys d_pend d_chain d_out]; auto.
        -- intros k' c' b V H Y. rewrite (dset_get n_equals nval Heqn) in H by (auto; apply I). destruct (n_equals k k'); [|apply (B _ _ _ V H Y)]. injection H as <-. discriminate Y.
        -- intros k' c' q V H Y. rewrite (dset_get n_equals nval Heqn) in H by (auto; apply I). rewrite equals_dec in H by auto. destruct (name_dec k k') as [<-|Nk]; [|apply (C _ _ _ V H Y)]. injection H as <-. cbn in Y. apply in_app_or in Y. destruct Y as [Y|[<-|[]]]; [apply (C _ _ _ Vk Eg Y)|exact Ask].
      * destruct E as (s' & E & D). rewrite E. cbn [fst]. refine (done_sound l o _ k r x _ _ _ s' Vk _ _ _ _ _ _ D).
        -- cbn [d_keys]. apply (dset_dom n_equals nval); [apply I|exact Vk].
        -- destruct S1 as [A B C E' F G]. constructor; cbn [d_keys d_pend d_chain d_out]; auto.
           ++ intros k' c' b V H Y. rewrite (dset_get n_equals nval Heqn) in H by (auto; apply I). destruct (n_equals k k'); [|apply (B _ _ _ V H Y)]. injection H as <-. discriminate Y.
           ++ intros k' c' q V H Y. rewrite (dset_get n_equals nval Heqn) in H by (auto; apply I). rewrite equals_dec in H by auto. destruct (name_dec k k') as [<-|Nk]; [|apply (C _ _ _ V H Y)]. injection H as <-. cbn in Y. destruct Y as [<-|[]]. exact Ask.
        -- unfold ck. cbn [d_keys]. rewrite dget_dset by apply eq_refl_n. reflexivity.
        -- intros k' p' [].
        -- intros b [].
        -- intros p ->. split; [exists e; auto|]. unfold N_RETRIES. lia.
    + destruct (unusable_step P psign pverify ktype load ord pdec cbc_inv credentials r e x s U) as [code E]. rewrite E. cbn [fst]. destruct (sound_app l (EDecrypt r e x) s IH) as [A B C E' F G]. constructor; cbn [d_keys d_pend d_chain d_out]; auto.
      * intros r' m H. rewrite answers_app in H. apply in_app_or in H. destruct H as [H|[H|[]]]; [apply F, H|discriminate H].
      * intros y H. rewrite sends_app in H. apply in_app_or in H. destruct H as [H|[]]. apply G, H.
  - apply (event_sound l _ id); auto.
  - apply (event_sound l _ id); auto.
  - apply (event_sound l _ id); auto.
  - unfold NacModel.d_step, shutdown, bind, get. rewrite shutdown_ok. cbn [fst]. apply sound_shut; [apply sound_app, IH|apply I|]. apply Forall_forall. intros k J. apply in_map_iff in J. destruct J as ([k' c0] & <- & J). pose proof (i_dom _ _ _ _ I) as Dm. unfold dom in Dm. rewrite Forall_forall in Dm. apply (Dm _ J).
Qed.

(** ** The number of Interests *)
Definition pot (p : pend) : Z := match p with PCk _ t _ => t + 2 | PKdk _ _ _ t _ => t - 1 end.
Fixpoint total (d : dict Z pend) : Z := match d with [] => 0 | (_, p) :: d' => pot p + total d' end.
Lemma total_drop : forall d id p, dget Z.eqb d id = Some p -> total (dremove Z.eqb d id) = total d - pot p.
Proof. induction d as [|[i q] d IH]; intros id p H; [discriminate H|]. cbn [dget dremove total] in *. destruct (i =? id); [injection H as ->; lia|]. cbn [total]. rewrite (IH _ _ H). lia. Qed.
Lemma total_drop_none : forall (d : dict Z pend) id, dget Z.eqb d id = None -> dremove Z.eqb d id = d.
Proof. induction d as [|[i q] d IH]; intros id H; [reflexivity|]. cbn [dget dremove] in *. destruct (i =? id); [discriminate H|]. rewrite (IH _ H). reflexivity. Qed.
Lemma total_set : forall d id p, dget Z.eqb d id = None -> total (dset Z.eqb d id p) = total d + pot p.
Proof. induction d as [|[i q] d IH]; intros id p H; cbn [dget dset total] in *; [lia|]. destruct (i =? id); [discriminate H|]. cbn [total]. rewrite (IH _ _ H). lia. Qed.
Lemma pot_pos : forall l p, pend_good l p -> 0 <= pot p. Proof. intros l p [_ G]. destruct p; cbn in *; lia. Qed.
Definition count (s : dstate) : Z := zlen (sends (d_out s)) + total (d_pend s).
Lemma done_count : forall s k r x N got (next : pend -> Prop) m s', (forall p, next p -> pot p + 1 <= m) -> 0 <= m -> (forall id, x = Some id -> dget Z.eqb (d_pend s) id = None) -> din n_equals (d_keys s) k = true -> dom nval (d_keys s) -> nval k -> done s k r x N got next s' -> count s' <= count s + m /\ zlen (d_keys s') = zlen (d_keys s).
Proof.
  intros s k r x N got next m s' Hn Hm Hx Hk Dm Vk D. unfold count.
  assert (Lk : forall c, zlen (dset n_equals (d_keys s) k c) = zlen (d_keys s)). { intros c. pose proof (dset_keys n_equals nval Heqn (d_keys s) k c Dm Vk) as X. rewrite Hk in X. apply (f_equal (@length _)) in X. unfold dkeys in X. rewrite !map_length in X. unfold zlen. congruence. }
  destruct D as [chain' code Gr|id p n cp mf chain' Ex Hp Hs Gr|bits chain' Hb Gr]; cbn [d_keys d_pend d_out]; rewrite sends_app, zlen_app, ?Lk.
  - cbn [sends]. rewrite zlen_nil. lia.
  - cbn [sends]. rewrite zlen_cons, zlen_nil, total_set by (apply Hx, Ex). pose proof (Hn p Hp). lia.
  - replace (sends (map _ _)) with (@nil (name * bool * bool)); [rewrite zlen_nil; lia|]. clear. induction (ck_queue (ck P s k)) as [|q u IH]; [reflexivity|]. cbn. exact IH.
Qed.
Lemma fresh_pend : forall l o s id, inv l s -> proper (l ++ [o]) -> In id (id_of o) -> dget Z.eqb (d_pend s) id = None.
Proof.
  intros l o s id I (_ & Ni & _) J. destruct (dget Z.eqb (d_pend s) id) as [p|] eqn:E; [|reflexivity]. exfalso. apply (dget_in Z.eqb (fun _ => True) zeq) in E; [|apply zdom|exact Logic.I]. apply (i_ids _ _ _ _ I) in E. rewrite ids_app in Ni. apply (nodup_app_disj _ _ _ id Ni E). unfold ids. cbn. rewrite app_nil_r. exact J.
Qed.
Lemma drop_none : forall (d : dict Z pend) id id', dget Z.eqb d id = None -> dget Z.eqb (dremove Z.eqb d id') id = None.
Proof. induction d as [|[i q] d IH]; intros id id' H; [reflexivity|]. cbn [dget dremove] in *. destruct (i =? id) eqn:E; [discriminate H|]. destruct (i =? id'); [exact H|]. cbn [dget]. rewrite E. apply IH, H. Qed.
Lemma set_len : forall (d : dict name ckey) k c, dom nval d -> nval k -> zlen (dset n_equals d k c) = zlen d + (if din n_equals d k then 0 else 1).
Proof. intros d k c Dm Vk. pose proof (dset_keys n_equals nval Heqn d k c Dm Vk) as X. apply (f_equal (@length _)) in X. unfold dkeys in X. destruct (din n_equals d k); rewrite ?app_length, !map_length in X; unfold zlen; cbn in X; lia. Qed.
Lemma shut_count : forall ks s, (forall id p, In (id, p) (d_pend s) -> 0 <= pot p) -> dom nval (d_keys s) -> Forall nval ks -> count (fold_left (shut P) ks s) <= count s /\ zlen (d_keys s) <= zlen (d_keys (fold_left (shut P) ks s)).
Proof.
  induction ks as [|k ks IH]; intros s Hp Dm V; [cbn; lia|]. inversion V as [|? ? V1 V2]; subst. cbn [fold_left]. unfold shut at 2 4. cbv zeta. destruct (0 <? ck_pending (ck P s k)); [|apply IH; auto]. set (s1 := DState _ _ _ _).
  assert (H1 : count s1 <= count s). { unfold count, s1. cbn [d_out d_pend]. rewrite sends_app, zlen_app. replace (sends (map _ _)) with (@nil (name * bool * bool)); [|clear; induction (ck_queue (ck P s k)) as [|q u IH]; [reflexivity|]; cbn; exact IH]. rewrite zlen_nil. destruct (dget Z.eqb (d_pend s) (ck_pending (ck P s k))) as [p|] eqn:E; [|rewrite total_drop_none by exact E; lia]. rewrite (total_drop _ _ p E). apply (dget_in Z.eqb (fun _ => True) zeq) in E; [|apply zdom|exact Logic.I]. specialize (Hp _ _ E). lia. }
  assert (H2 : zlen (d_keys s) <= zlen (d_keys s1)). { unfold s1. cbn [d_keys]. rewrite set_len by auto. destruct (din _ _ _); lia. }
  destruct (IH s1) as [X Y]; [|apply (dset_dom n_equals nval); auto|exact V2|lia]. intros id p J. unfold s1 in J. cbn [d_pend] in J. apply dremove_in in J. apply (Hp _ _ J).
Qed.
Theorem run_count : forall l c, (forall k p, ~ holds c k p) -> proper l -> count (d_run (d_new c) l) <= 6 * zlen (d_keys (d_run (d_new c) l)).
Proof.
  intros l c Hc. induction l as [|o l IH] using rev_ind; intros Pr; [cbn; lia|]. pose proof (run_inv P psign pverify ktype load ord pdec cbc_inv credentials l c (proper_app _ _ Pr)) as I. pose proof (run_sound l c Hc (proper_app _ _ Pr)) as S. specialize (IH (proper_app _ _ Pr)). unfold NacModel.d_run in *. rewrite fold_left_app. cbn [fold_left]. set (s := fold_left _ l _) in *.
  assert (Fr : forall id, In id (id_of o) -> dget Z.eqb (d_pend s) id = None) by (intros id J; apply (fresh_pend l o s id I Pr J)).
  assert (Ev : forall id, about o = Some id -> count (fst (d_step o s)) <= 6 * zlen (d_keys (fst (d_step o s)))).
  { intros id A. destruct (dget Z.eqb (d_pend s) id) as [p|] eqn:Eg; [|rewrite (about_none P psign pverify ktype load ord pdec cbc_inv credentials o id s A Eg); exact IH].
    destruct (about_some P psign pverify ktype load ord pdec cbc_inv credentials o id s p A Eg) as (s' & E & D). rewrite E. cbn [fst]. set (k := pend_ck p) in *. assert (J : In (id, p) (d_pend s)) by (apply (dget_in Z.eqb (fun _ => True) zeq); [apply zdom|exact Logic.I|exact Eg]). destruct (i_pk _ _ _ _ I _ _ J) as (Vk & c' & Ec & Ei). fold k in Vk, Ec. pose proof (s_pend _ _ S _ _ J) as Pg. pose proof (pot_pos _ _ Pg) as Pp.
    pose proof (set_len (d_keys s) k (CKey (ck_bits (ck P s k)) 0 (ck_queue (ck P s k))) (i_dom _ _ _ _ I) Vk) as Ls. unfold din in Ls. rewrite Ec in Ls.
    destruct (done_count (begin_handler P s id k) k (pend_request p) (x_of o) (N_of P load o) (got_of P load pdec s o p) (next_of o p) (pot p) s') with (7 := D) as [X Y]; auto.
    - intros p' Hn. destruct Pg as [_ Pg]. destruct o as [|id' d cred rnd x|? ?| |], p as [k0 t rr|k0 pre ckd t rr]; cbn in Hn; try contradiction.
      + destruct Hn as (pre & i & key & Hi & ->). cbn. unfold N_RETRIES. lia.
      + destruct Hn as [T ->]. cbn. lia.
      + destruct Hn as [T ->]. cbn. lia.
    - intros id' X. cbn [begin_handler d_pend]. apply drop_none, Fr. destruct o as [|? ? ? ? x|? x| |]; cbn in X; try discriminate X; subst x; left; reflexivity.
    - unfold din. cbn [begin_handler d_keys]. rewrite dget_dset by apply eq_refl_n. reflexivity.
    - cbn [begin_handler d_keys]. apply (dset_dom n_equals nval); [apply I|exact Vk].
    - rewrite Y. unfold count in *. unfold begin_handler in *. cbn [d_keys d_out d_pend] in *. rewrite (total_drop _ _ p Eg) in X. rewrite Ls. lia. }
  destruct o as [r e x|id d cred rnd x|id x|id|]; [|apply (Ev id eq_refl)|apply (Ev id eq_refl)|apply (Ev id eq_refl)|].
  - destruct (usable e) eqn:U.
    + pose proof (usable_step P psign pverify ktype load ord pdec cbc_inv credentials r e x s U) as E. cbv zeta in E. set (o := EDecrypt r e x) in *. set (k := ck_of e) in *. assert (Vk : nval k). { destruct Pr as (_ & _ & _ & Hv). apply (Hv r e). rewrite requests_app. apply in_or_app. right. left. reflexivity. }
      destruct (dget n_equals (d_keys s) k) as [c0|] eqn:Eg; [destruct (ck_bits c0) as [bits|] eqn:Eb|].
      * rewrite E. unfold count in *. cbn [fst d_keys d_out d_pend]. rewrite sends_app, zlen_app. cbn [sends]. rewrite zlen_nil. lia.
      * rewrite E. unfold count in *. cbn [fst d_keys d_out d_pend]. rewrite set_len by (auto; apply I). unfold din. rewrite Eg. lia.
      * destruct E as (s' & E & D). rewrite E. cbn [fst]. pose proof (set_len (d_keys s) k (CKey None 0 [(r, e)]) (i_dom _ _ _ _ I) Vk) as Ls. unfold din in Ls. rewrite Eg in Ls.
        destruct (done_count (DState (dset n_equals (d_keys s) k (CKey None 0 [(r, e)])) (d_pend s) (d_chain s) (d_out s)) k r x (nothing P) (fun _ => False) (fun p => p = PCk k N_RETRIES r) 6 s') with (7 := D) as [X Y]; auto.
        -- intros p ->. cbn. unfold N_RETRIES. lia.
        -- lia.
        -- intros id X. cbn [d_pend]. apply Fr. subst x. left. reflexivity.
        -- unfold din. cbn [d_keys]. rewrite dget_dset by apply eq_refl_n. reflexivity.
        -- cbn [d_keys]. apply (dset_dom n_equals nval); [apply I|exact Vk].
        -- rewrite Y. unfold count in *. cbn [d_keys d_out d_pend] in *. lia.
    + destruct (unusable_step P psign pverify ktype load ord pdec cbc_inv credentials r e x s U) as [code E]. rewrite E. unfold count in *. cbn [fst d_keys d_out d_pend]. rewrite sends_app, zlen_app. cbn [sends]. rewrite zlen_nil. lia.
  - unfold NacModel.d_step, shutdown, bind, get. rewrite shutdown_ok. cbn [fst]. destruct (shut_count (dkeys (d_keys s)) s) as [X Y]; [|apply I| |lia].
    + intros id p J. apply (pot_pos l). apply (s_pend _ _ S _ _ J).
    + apply Forall_forall. intros k J. apply in_map_iff in J. destruct J as ([k' c0] & <- & J). pose proof (i_dom _ _ _ _ I) as Dm. unfold dom in Dm. rewrite Forall_forall in Dm. apply (Dm _ J).
Qed.
End N.
