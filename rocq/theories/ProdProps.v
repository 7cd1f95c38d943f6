(** * C82 The producer of name-based access control *)
From Verif Require Import Base BaseLemmas NameModel NameSpec NameProofs DictModel DictProofs WireModel WireSpec WireProps BlobModel CalModel CalProps CtlModel CtlSpec MatchSpec MatchProps EncrModel GmModel GmSpec GmProofs3 ExclModel ExclSpec ExclProofs ExclProps ProdModel ProdSpec ProdProofs ProdProofs2 ProdProofs3 ProdProofs4 ProdProofs5 ProdProofs6.
Local Open Scope res_scope.

Section Producer.
Variable rsa_enc : bytes -> bytes -> Z -> Z -> rsa_out.
Variable aes_enc : bytes -> bytes -> Z -> bytes -> res bytes.
Variables prefix dataType : name.
Variable maxRepeat : Z.
Variable db : dict Z bytes.
Hypothesis Hp : name_ok prefix.
Hypothesis Hd : name_ok dataType.
Notation after := (pafter rsa_enc aes_enc prefix dataType maxRepeat db).
Notation step := (pstep rsa_enc aes_enc prefix dataType maxRepeat).
Notation history := (history rsa_enc aes_enc prefix dataType maxRepeat db).
Notation smooth := (smooth rsa_enc aes_enc prefix dataType maxRepeat db).
Notation is_node := (is_node prefix dataType).
Notation sealed_packets := (sealed_packets rsa_enc aes_enc prefix dataType).
Notation inv := (history_inv rsa_enc aes_enc prefix dataType maxRepeat db Hp Hd).

(** onEncryptedKeys is called at most once for a call, and only for one that created the content key. Then
    it gets the content key encrypted for each node, except those for which there was no answer. *)
Theorem C82_answer : forall l o t c, history l o t -> Forall pevent_ok l -> distinct_calls l ->
  answers c t = [] \/ exists s xs, In s (starts db l) /\ s_call s = c /\ s_wants s = true /\ answers c t = [xs] /\ sealed_packets l s xs.
Proof.
  intros l o t c H Oks Dc. pose proof (v_J _ _ _ _ _ _ _ _ _ (inv _ _ _ H Oks Dc) false ltac:(discriminate)) as HJ. destruct (answers c t) as [|x y] eqn:E; [now left|right]. destruct (j_other _ _ _ _ _ _ _ _ _ _ HJ c ltac:(congruence)) as (s & Is & <-). destruct (j_call _ _ _ _ _ _ _ _ _ _ HJ s Is) as [[_ X]|(_ & W & xs & X & P)]; [congruence|]. exists s, xs. rewrite <- E. auto.
Qed.

(** Unless something goes wrong, it is called, exactly when no Interest of the call is outstanding. *)
Theorem C82_called : forall l o t s, history l o t -> Forall pevent_ok l -> distinct_calls l -> smooth l -> dataType <> [] -> In s (starts db l) -> s_wants s = true ->
  ((forall i, In i o -> i_call i <> s_call s) <-> exists xs, answers (s_call s) t = [xs]).
Proof.
  intros l o t s H Oks Dc Sm Nd Is W. pose proof (inv _ _ _ H Oks Dc) as V. pose proof (v_J _ _ _ _ _ _ _ _ _ V true (fun _ => Sm)) as HJ. split.
  - intro No. destruct (j_call _ _ _ _ _ _ _ _ _ _ HJ s Is) as [[[q Q] _]|(_ & _ & xs & X & _)]; [|eauto]. exfalso. destruct (j_req _ _ _ _ _ _ _ _ _ _ HJ _ q Q) as (s' & S1 & S2 & S3 & _ & S5 & _). assert (s' = s) by (eapply J_slot; eassumption). subst s'. specialize (S3 W Nd). specialize (S5 eq_refl).
    destruct (filter (at_slot (s_ts s)) (map (fun i => token i) o)) as [|[ts n] r] eqn:F; [cbn in S5; congruence|]. assert (I : In (ts, n) (filter (at_slot (s_ts s)) (map (fun i => token i) o))) by (rewrite F; now left). apply filter_In in I. destruct I as [I E]. cbn [fst] in E. apply Z.eqb_eq in E. apply in_map_iff in I. destruct I as (i & Ei & I). injection Ei as E1 E2. apply (No i I). destruct (v_own _ _ _ _ _ _ _ _ _ V i I) as (s' & T1 & T2 & T3 & _). assert (s' = s) by (eapply J_slot; [exact HJ| | |]; [assumption|assumption|congruence]). congruence.
  - intros (xs & X) i I E. destruct (j_call _ _ _ _ _ _ _ _ _ _ HJ s Is) as [[_ Y]|(Q & _)]; [congruence|]. destruct (v_own _ _ _ _ _ _ _ _ _ V i I) as (s' & T1 & T2 & T3 & _). assert (s' = s) by (eapply J_callq; [exact HJ| | |]; [assumption|assumption|congruence]). subst s'. destruct (j_live _ _ _ _ _ _ _ _ _ _ HJ (i_ts i) (i_name i)) as [_ (q & Q')]; [apply in_map_iff; eauto|]. congruence.
Qed.

(** For a call and a node at most one Interest is outstanding; it is for a node, and of a call that
    created the content key. *)
Theorem C82_one_interest : forall l o1 i o2 t, history l (o1 ++ i :: o2) t -> Forall pevent_ok l -> distinct_calls l ->
  is_node (i_name i) /\ (exists s, In s (starts db l) /\ i_ts i = s_ts s /\ i_call i = s_call s /\ i_wants i = s_wants s) /\
  forall j, In j (o1 ++ o2) -> i_call j = i_call i -> i_name j <> i_name i.
Proof.
  intros l o1 i o2 t H Oks Dc. pose proof (inv _ _ _ H Oks Dc) as V. pose proof (v_J _ _ _ _ _ _ _ _ _ V false ltac:(discriminate)) as HJ. assert (Ii : In i (o1 ++ i :: o2)) by (apply in_or_app; right; now left). split; [apply (j_live _ _ _ _ _ _ _ _ _ _ HJ (i_ts i)), in_map_iff; eauto|]. split; [apply (v_own _ _ _ _ _ _ _ _ _ V i Ii)|].
  intros j Ij C N. destruct (v_own _ _ _ _ _ _ _ _ _ V i Ii) as (s & S1 & S2 & S3 & _). destruct (v_own _ _ _ _ _ _ _ _ _ V j ltac:(now apply in_cut)) as (s' & T1 & T2 & T3 & _). assert (s' = s) by (eapply J_callq; [exact HJ| | |]; [assumption|assumption|congruence]). subst s'. pose proof (j_tok _ _ _ _ _ _ _ _ _ _ HJ) as Nt. rewrite map_app in Nt. cbn [map] in Nt. apply NoDup_remove_2 in Nt. apply Nt. rewrite <- map_app. apply in_map_iff. exists j. split; [congruence|exact Ij].
Qed.

(** After a timeout the same Interest is expressed again, [maxRepeat] times in a row; after the last time,
    and after a Nack, no Interest is expressed. Neither callback raises. *)
Theorem C82_retry : forall l o i t, history l o t -> Forall pevent_ok l -> distinct_calls l -> In i o ->
  (let r := step (after l) (TimedOut i) in snd r = Ok ADone /\ if timeouts (i_call i) (i_name i) l <? maxRepeat then pr_outs (fst r) = [PExpress i] else flat_map expressed (pr_outs (fst r)) = []) /\
  (let r := step (after l) (Nacked i) in snd r = Ok ADone /\ flat_map expressed (pr_outs (fst r)) = []).
Proof.
  intros l o i t H Oks Dc Ii. pose proof (inv _ _ _ H Oks Dc) as V. pose proof (v_J _ _ _ _ _ _ _ _ _ V false ltac:(discriminate)) as HJ. destruct (v_own _ _ _ _ _ _ _ _ _ V i Ii) as (s & S1 & S2 & S3 & S4). pose proof Ii as Ii0. apply in_split in Ii. destruct Ii as (o1 & o2 & ->). rewrite map_app in HJ. cbn [map] in HJ.
  assert (HJ1 : forall e, J rsa_enc aes_enc prefix dataType false (l ++ [e]) (starts db l) (map (fun i => token i) o1 ++ token i :: map (fun i => token i) o2) t (pbegin (after l))) by (intro e; unfold pbegin; apply J_outs, J_more, HJ).
  pose proof (v_track _ _ _ _ _ _ _ _ _ V) as Tr. pose proof (v_count _ _ _ _ _ _ _ _ _ V i Ii0) as Ct. split; cbv zeta; unfold pstep, pact_of, panswer, pbind.
  - destruct (handleTimeout maxRepeat i (pbegin (after l))) as [p' r] eqn:E.
    assert (Hf : failed (l ++ [TimedOut i]) s (i_name i)) by (exists i; split; [left; apply in_or_app; right; now left|auto]).
    destruct (timeout_ok rsa_enc aes_enc prefix dataType maxRepeat Hp Hd i (l ++ [TimedOut i]) (starts db l) _ _ t (pbegin (after l)) s eq_refl S1 S2 S3 S4 (HJ1 _) Tr _ Ct p' r Hf E) as (_ & X & ->). unfold pret. cbn [fst snd]. split; [reflexivity|exact X].
  - destruct (handleNetworkNack i (pbegin (after l))) as [p' r] eqn:E.
    assert (Hf : failed (l ++ [Nacked i]) s (i_name i)) by (exists i; split; [right; apply in_or_app; right; now left|auto]).
    destruct (nack_ok rsa_enc aes_enc prefix dataType i (l ++ [Nacked i]) (starts db l) _ _ t (pbegin (after l)) s eq_refl S1 S2 S3 S4 (HJ1 _) Tr p' r 0 Hf E) as (_ & X & ->). unfold pret. cbn [fst snd]. split; [reflexivity|exact X].
Qed.

(** The filter of an Interest excludes exactly the components from the time slot on, and those up to the
    start of an E-KEY that came in before. *)
Theorem C82_filter : forall l o t i, history l o t -> Forall pevent_ok l -> distinct_calls l -> matching l -> In i o ->
  ordered (i_excl i) /\ exists ch, iso_of (i_ts i) ch /\ forall c, regular c -> (excluded (i_excl i) c <-> le_k ch c \/ seen_from l i c).
Proof. intros l o t i H Oks Dc M. apply (f_ok _ _ _ (history_filt rsa_enc aes_enc prefix dataType maxRepeat db Hp Hd _ _ _ H Oks Dc M) i). Qed.
(** An E-KEY that begins exactly at the time slot would cover it, but it is excluded. *)
Theorem C82_starts_at_slot_refuted : forall l o t i, history l o t -> Forall pevent_ok l -> distinct_calls l -> matching l -> In i o -> exists ch, iso_of (i_ts i) ch /\ excluded (i_excl i) ch.
Proof. intros l o t i H Oks Dc M Ii. destruct (C82_filter l o t i H Oks Dc M Ii) as (_ & ch & Io & F). exists ch. split; [exact Io|]. apply F; [eapply iso_regular, Io|]. left. right. reflexivity. Qed.

(** The content key of an hour: that of the database at first, or of the first call *)
Definition content_key (l : list pevent) (h : Z) (k : bytes) : Prop := In (h, k) db \/ exists s, In s (starts db l) /\ hour_of (s_ts s) = h /\ s_key s = k.
Lemma creating_new : forall l hs s, In s (creating hs l) -> ~ In (hour_of (s_ts s)) hs.
Proof.
  induction l as [|x l IH]; intros hs s; cbn [creating]; [intros []|]. destruct (in_dec _ _ _) as [I|I]; [apply IH|]. intros [<-|J]; [exact I|]. intro X. apply (IH _ _ J). apply in_or_app. now left.
Qed.
(** createContentKey returns /prefix/SAMPLE/data type/C-KEY/hour. *)
Theorem C82_name : forall l o t ts c w k rs n, history l o t -> slot_ok ts -> snd (step (after l) (Create ts c w k rs)) = Ok (AName n) ->
  exists ch, iso_of (hour_of ts * 3600000) ch /\ n = (prefix ++ [c_generic [83; 65; 77; 80; 76; 69]] ++ dataType) ++ [c_generic [67; 45; 75; 69; 89]; ch].
Proof.
  intros l o t ts c w k rs n _ So E. destruct (create_eq rsa_enc aes_enc prefix dataType ts c w k rs (pbegin (after l)) So) as (n0 & c0 & En & _ & Ec).
  assert (n = n0). { unfold pstep, pact_of, panswer, pbind in E. rewrite Ec in E. destruct (in_dec _ _ _); [cbn [snd pret] in E; congruence|]. cbv zeta in E. destruct (snd (key_loop _ _ _ _ _ _ _ _ _ _ _)); cbn [snd pret] in E; congruence. }
  subst n0. unfold contentKeyName in En. destruct (iso_comp_of (rounded ts)) as [ch|e] eqn:Ei; [|discriminate En]. cbn [rbind] in En. injection En as <-. exists ch. split; [apply (iso_comp_ok _ _ Ei)|]. unfold p_namespace. rewrite <- !app_assoc. reflexivity.
Qed.
(** What produce returns: the content encrypted under the content key of its hour, of which there is only one *)
Theorem C82_produce : forall l o t ts c content k iv rs x, history l o t -> Forall pevent_ok l -> distinct_calls l -> slot_ok ts -> NoDup (map fst db) -> ~ In c (map s_call (flat_map asks l)) ->
  let e := Produce ts c content k iv rs in snd (step (after l) e) = Ok (APacket x) ->
  exists ck ct ch, content_key (l ++ [e]) (hour_of ts) ck /\ (forall ck', content_key (l ++ [e]) (hour_of ts) ck' -> ck' = ck) /\ iso_of ts ct /\ iso_of (hour_of ts * 3600000) ch /\
    let ckn := (prefix ++ [c_generic [83; 65; 77; 80; 76; 69]] ++ dataType) ++ [c_generic [67; 45; 75; 69; 89]; ch] in
    ck_name x = (prefix ++ [c_generic [83; 65; 77; 80; 76; 69]] ++ dataType) ++ [ct; c_generic [70; 79; 82]] ++ ckn /\ aes_part aes_enc ck content iv ckn (ck_content x).
Proof.
  intros l o t ts c content k iv rs x H Oks Dc So Nd Nc e E.
  assert (H' : history (l ++ [e]) (o ++ flat_map expressed (pr_outs (fst (step (after l) e)))) (t ++ pr_outs (fst (step (after l) e)))) by (apply (H_call _ _ _ _ _ _ _ _ _ e H); discriminate).
  assert (Dc' : distinct_calls (l ++ [e])). { unfold distinct_calls. rewrite flat_map_app, map_app. cbn [flat_map asks app map e s_call]. apply nodup_snoc; assumption. }
  assert (Ok' : Forall pevent_ok (l ++ [e])) by (apply Forall_app; split; [exact Oks|constructor; [exact So|constructor]]).
  pose proof (inv _ _ _ H' Ok' Dc') as V. pose proof (v_db _ _ _ _ _ _ _ _ _ V) as Vd. rewrite after_snoc in Vd.
  pose proof (v_J _ _ _ _ _ _ _ _ _ V false ltac:(discriminate)) as HJ.
  assert (Un : uniq (pr_db (fst (step (after l) e)))). { rewrite Vd. unfold uniq, dkeys. rewrite map_app, map_map. cbn [fst]. pose proof (j_hours _ _ _ _ _ _ _ _ _ _ HJ) as Nh. assert (Dj : forall s, In s (starts db (l ++ [e])) -> ~ In (hour_of (s_ts s)) (map fst db)) by (intros s Is; eapply creating_new, Is). revert Nd Nh Dj. clear. generalize (starts db (l ++ [e])) as st. intros st Nd Nh Dj. induction Nd as [|y ys N Nd IH]; [exact Nh|]. cbn [app]. constructor; [|apply IH; intros s Is X; apply (Dj s Is); now right]. intro X. apply in_app_or in X. destruct X as [X|X]; [contradiction|]. apply in_map_iff in X. destruct X as (s & <- & Is). apply (Dj s Is). now left. }
  assert (Ck : forall h k', content_key (l ++ [e]) h k' <-> dget Z.eqb (pr_db (fst (step (after l) e))) h = Some k').
  { intros h k'. split.
    - intro X. apply (in_dget _ _ zeq); [apply zdom|exact Un|]. rewrite Vd. apply in_or_app. destruct X as [X|(s & S1 & S2 & S3)]; [now left|right]. apply in_map_iff. exists s. split; [congruence|exact S1].
    - intro X. apply (dget_in _ _ zeq) in X; [|apply zdom|exact I]. rewrite Vd in X. apply in_app_or in X. destruct X as [X|X]; [now left|right]. apply in_map_iff in X. destruct X as (s & S1 & S2). injection S1 as <- <-. eauto. }
  pose proof E as E0. unfold e, pstep, pact_of, panswer in E, Ck. unfold pbind at 1 in E. destruct (produce rsa_enc aes_enc prefix dataType ts c content k iv rs (pbegin (after l))) as [p' [y|er]] eqn:Ep; [|discriminate E]. unfold pret in E. cbn [snd] in E. injection E as ->.
  unfold pbind at 1 in Ck. rewrite Ep in Ck. unfold pret in Ck. cbn [fst] in Ck. unfold ProdModel.produce in Ep. unfold pbind at 1 in Ep. destruct (createContentKey rsa_enc aes_enc prefix dataType ts c false k rs (pbegin (after l))) as [p1 [n|er]] eqn:Ec; [|discriminate Ep].
  destruct (C82_name l o t ts c false k rs n H So) as (ch & Ich & En). { unfold pstep, pact_of, panswer, pbind. rewrite Ec. reflexivity. }
  unfold pbind at 1, getContentKey, pbind at 1, pget at 1 in Ep. change (hour ts) with (hour_of ts) in Ep. destruct (dget Z.eqb (pr_db p1) (hour_of ts)) as [ck|] eqn:Eg; [|discriminate Ep]. unfold pret at 1 in Ep. unfold pbind at 1, plift at 1 in Ep. destruct (iso_comp_of ts) as [ct|er] eqn:Et; [|discriminate Ep]. unfold pbind at 1, plift at 1 in Ep.
  destruct (encryptContent rsa_enc aes_enc content n ck ALG_AES_CBC (Some iv) (Rnd 0 0 [] [])) as [w|er] eqn:Ew; [|discriminate Ep]. unfold pret in Ep. injection Ep as Ep1 Ep2. subst p1 x. exists ck, ct, ch. split; [apply Ck, Eg|]. split; [intros ck' X; apply Ck in X; congruence|]. split; [apply (iso_comp_ok _ _ Et)|]. split; [exact Ich|]. cbv zeta. rewrite <- En. cbn [ck_name ck_content].
  split; [unfold encryptedName, p_namespace; rewrite <- !app_assoc; reflexivity|].
  assert (Nn : name_ok n). { destruct Ich as (sx & Es & ->). destruct (iso_ascii _ _ Es) as [B _]. assert (G : forall b, bytes_okb b = true -> comp_ok (c_generic b)) by apply gen_ok. subst n. unfold name_ok in *. rewrite !Forall_app. split; [split; [exact Hp|split; [constructor; [apply G; reflexivity|constructor]|exact Hd]]|]. constructor; [apply G; reflexivity|]. constructor; [apply G, bytes_okb_ok, B|constructor]. }
  unfold encryptContent in Ew. change ((ALG_AES_CBC =? ALG_AES_CBC) || (ALG_AES_CBC =? ALG_AES_ECB)) with true in Ew. cbv iota in Ew. unfold encryptSymmetric in Ew. change ((ALG_AES_CBC =? ALG_AES_CBC) || (ALG_AES_CBC =? ALG_AES_ECB)) with true in Ew. cbv iota in Ew. change (ALG_AES_CBC =? ALG_AES_CBC) with true in Ew. cbn [andb] in Ew.
  unfold aes_part. destruct (Z.eqb_spec (zlen iv) 16) as [L|L]; cbn [negb rbind] in Ew; [|discriminate Ew]. split; [exact L|]. change ALG_AES_CBC with 1 in Ew. destruct (aes_enc ck content 1 iv) as [c2|er] eqn:E2; cbn [rbind] in Ew; [|discriminate Ew]. exists c2. split; [reflexivity|].
  rewrite (encode_ec _ 1) in Ew; [congruence|left; split; [reflexivity|exact Nn]|reflexivity|vm_compute; split; congruence].
Qed.
End Producer.

(** ** Concrete histories *)
Section Drive.
Variable rsa_enc : bytes -> bytes -> Z -> Z -> rsa_out.
Variable aes_enc : bytes -> bytes -> Z -> bytes -> res bytes.
Variables prefix dataType : name.
Variable maxRepeat : Z.
Variable db : dict Z bytes.
Notation history := (history rsa_enc aes_enc prefix dataType maxRepeat db).
(** a call, or a callback for the outstanding Interest number [k] *)
Inductive move : Type := MCall (e : pevent) | MGot (k : nat) (n : name) (c : bytes) (r : rnd) | MTimeout (k : nat) | MNack (k : nat).
Definition one (s : list pevent * list kint * list pact) (m : move) : option (list pevent * list kint * list pact) :=
  let '(l, o, t) := s in
  let act e o1 o2 := let a := pr_outs (fst (pstep rsa_enc aes_enc prefix dataType maxRepeat (pafter rsa_enc aes_enc prefix dataType maxRepeat db l) e)) in Some (l ++ [e], o1 ++ o2 ++ flat_map expressed a, t ++ a) in
  match m with
  | MCall e => match asks e with [] => None | _ => act e o [] end
  | MGot k n c r => match skipn k o with [] => None | i :: o2 => act (GotKey i n c r) (firstn k o) o2 end
  | MTimeout k => match skipn k o with [] => None | i :: o2 => act (TimedOut i) (firstn k o) o2 end
  | MNack k => match skipn k o with [] => None | i :: o2 => act (Nacked i) (firstn k o) o2 end
  end.
Fixpoint drive (s : list pevent * list kint * list pact) (ms : list move) : option (list pevent * list kint * list pact) :=
  match ms with [] => Some s | m :: r => match one s m with Some s' => drive s' r | None => None end end.
Lemma one_history l o t m l' o' t' : history l o t -> one (l, o, t) m = Some (l', o', t') -> history l' o' t'.
Proof.
  intros H. unfold one. destruct m as [e|k n c r|k|k].
  - destruct (asks e) as [|s q] eqn:E; [discriminate|]. intros [= <- <- <-]. cbn [app]. apply (H_call _ _ _ _ _ _ _ _ _ e H). congruence.
  - destruct (skipn k o) as [|i o2] eqn:E; [discriminate|]. intros [= <- <- <-]. rewrite <- (firstn_skipn k o), E in H. apply (H_back _ _ _ _ _ _ _ _ _ _ _ (GotKey i n c r) H). left. eauto.
  - destruct (skipn k o) as [|i o2] eqn:E; [discriminate|]. intros [= <- <- <-]. rewrite <- (firstn_skipn k o), E in H. apply (H_back _ _ _ _ _ _ _ _ _ _ _ (TimedOut i) H). auto.
  - destruct (skipn k o) as [|i o2] eqn:E; [discriminate|]. intros [= <- <- <-]. rewrite <- (firstn_skipn k o), E in H. apply (H_back _ _ _ _ _ _ _ _ _ _ _ (Nacked i) H). auto.
Qed.
Lemma drive_history : forall ms l o t l' o' t', history l o t -> drive (l, o, t) ms = Some (l', o', t') -> history l' o' t'.
Proof.
  induction ms as [|m ms IH]; intros l o t l' o' t' H; cbn [drive]; [intros [= <- <- <-]; exact H|]. destruct (one (l, o, t) m) as [[[l1 o1] t1]|] eqn:E; [|discriminate]. intro D. eapply IH; [eapply one_history; eassumption|exact D].
Qed.
End Drive.

Definition x_rsa (key m : bytes) (alg pad : Z) : rsa_out := Sealed (key ++ m).
Definition x_fail (key m : bytes) (alg pad : Z) : rsa_out := RsaError ValueError.
Definition x_aes (key m : bytes) (alg : Z) (iv : bytes) : res bytes := Ok (key ++ m).
Definition x_pre : name := [c_generic [112]].
Definition x_type : name := [c_generic [97]; c_generic [98]].
Definition x_ts : Z := 1440495000000.
Definition x_create (c : Z) : pevent := Create x_ts c true [1; 2] (fun _ => Rnd 0 0 [] []).
Definition x_time (h1 h2 : Z) : comp := c_generic ([50; 48; 49; 53; 48; 56; 50; 53; 84; h1; h2] ++ [48; 48; 48; 48]).
Definition x_node (t : name) : name := x_pre ++ [c_generic [82; 69; 65; 68]] ++ t ++ [c_generic [69; 45; 75; 69; 89]].
(** The first node answers with an E-KEY from 6 to 8 o'clock, then with one from 8 to 10; the other one
    times out, then answers *)
Definition x_moves : list move :=
  [MCall (x_create 7); MGot 0 (x_node x_type ++ [x_time 48 54; x_time 48 56]) [9] (Rnd 0 0 [] []); MTimeout 0;
   MGot 0 (x_node x_type ++ [x_time 48 56; x_time 49 48]) [9] (Rnd 0 0 [] []); MGot 0 (x_node [c_generic [97]] ++ [x_time 48 57; x_time 49 48]) [8] (Rnd 0 0 [] [])].
Notation x_run rsa type db := (drive rsa x_aes x_pre type 1 db ([], [], [])).
Lemma x_start rsa type db : history rsa x_aes x_pre type 1 db [] [] [].
Proof. constructor. Qed.

Ltac name_tac := unfold name_ok; repeat (apply Forall_cons; [apply gen_ok; reflexivity|]); apply Forall_nil.
Ltac evs := repeat (apply Forall_cons; [first [exact I|unfold pevent_ok; name_tac|vm_compute; split; congruence]|]); apply Forall_nil.
Ltac smooth_tac :=
  let l1 := fresh "l1" in let X := fresh "X" in
  intros l1 ? ? X; repeat (destruct l1 as [|? l1]; [cbn [app] in X; injection X; intros; subst; split; [eexists; vm_compute; reflexivity|let c := fresh in let n := fresh in let Y := fresh in intros c n Y; vm_compute in Y; repeat (destruct Y as [Y|Y]; [discriminate Y|]); destruct Y]|cbn [app] in X; first [discriminate X|injection X as ? X]; subst]); destruct l1; discriminate X.
Example C82_example : exists l o t xs, history x_rsa x_aes x_pre x_type 1 [] l o t /\ Forall pevent_ok l /\ distinct_calls l /\ smooth x_rsa x_aes x_pre x_type 1 [] l /\ length l = 5%nat /\ o = [] /\
  answers 7 t = [xs] /\ length xs = 2%nat /\ zlen (flat_map expressed t) = 4 /\ In (Start x_ts 7 true [1; 2]) (starts [] l).
Proof.
  destruct (x_run x_rsa x_type [] x_moves) as [[[l o] t]|] eqn:E; [|vm_compute in E; discriminate E]. pose proof (drive_history x_rsa x_aes x_pre x_type 1 [] x_moves _ _ _ _ _ _ (x_start _ _ _) E) as H. exists l, o, t.
  vm_compute in E. injection E as <- <- <-. eexists. split; [exact H|]. split; [evs|]. split; [unfold distinct_calls; cbn; constructor; [intros []|constructor]|]. split; [smooth_tac|]. split; [reflexivity|]. split; [reflexivity|]. split; [reflexivity|]. split; [reflexivity|]. split; [reflexivity|]. left. reflexivity.
Qed.

(** and what came in matched the Interests *)
Lemma gv : forall v, bytes_okb v = true -> c_valid (c_generic v).
Proof. intros v B. apply (proj1 (gen_regular v B)). Qed.
Ltac m_case X := injection X; intros; subst; match goal with |- exists m cb ce, ?n = _ /\ _ => exists (firstn (length n - 2) n), (nth (length n - 2) n c_empty), (nth (length n - 1) n c_empty) end;
  cbn [length Nat.sub firstn nth app]; split; [reflexivity|]; split; [apply gen_regular; reflexivity|]; split; [discriminate|]; apply unexcluded; [apply gv; reflexivity| |vm_compute; reflexivity];
  let c := fresh in let Y := fresh in intros c Y; cbn [i_excl In] in Y; repeat (destruct Y as [Y|Y]; [first [discriminate Y|injection Y as <-; apply gv; reflexivity]|]); destruct Y.
Example C82_example_matching : exists l o t, history x_rsa x_aes x_pre x_type 1 [] l o t /\ Forall pevent_ok l /\ distinct_calls l /\ matching l /\ length l = 5%nat /\ length o = 3%nat.
Proof.
  set (ms := firstn 4 x_moves ++ [MCall (Create (x_ts + 86400000) 8 true [5] (fun _ => Rnd 0 0 [] []))]). destruct (x_run x_rsa x_type [] ms) as [[[l o] t]|] eqn:E; [|vm_compute in E; discriminate E]. pose proof (drive_history x_rsa x_aes x_pre x_type 1 [] ms _ _ _ _ _ _ (x_start _ _ _) E) as H. exists l, o, t.
  vm_compute in E. injection E as <- <- <-. split; [exact H|]. split; [evs|]. split; [unfold distinct_calls; cbn; constructor; [intros [X|[]]; discriminate X|constructor; [intros []|constructor]]|]. split; [|split; reflexivity].
  intros i n c r X. cbn [In] in X. repeat (destruct X as [X|X]; [first [discriminate X|m_case X]|]). destruct X.
Qed.

Ltac wit ms rsa type db :=
  destruct (x_run rsa type db ms) as [[[l o] t]|] eqn:E; [|vm_compute in E; discriminate E]; pose proof (drive_history rsa x_aes x_pre type 1 db ms _ _ _ _ _ _ (x_start _ _ _) E) as H; exists l, o, t; vm_compute in E; injection E as <- <- <-; split; [exact H|]; split; [evs|].
(** The encryption with an E-KEY fails: onError is called, but onEncryptedKeys never, not even without this
    node: nothing is outstanding any more. *)
Theorem C82_error_refuted : exists l o t, history x_fail x_aes x_pre x_type 1 [] l o t /\ Forall pevent_ok l /\ distinct_calls l /\ o = [] /\ In (Start x_ts 7 true [1; 2]) (starts [] l) /\ In (PError 7 103) t /\ answers 7 t = [].
Proof.
  wit [MCall (x_create 7); MGot 0 (x_node x_type ++ [x_time 48 56; x_time 49 48]) [9] (Rnd 0 0 [] []); MNack 0] x_fail x_type (@nil (Z * bytes)).
  split; [unfold distinct_calls; cbn; constructor; [intros []|constructor]|]. split; [reflexivity|]. split; [left; reflexivity|]. split; [|reflexivity]. cbn. auto.
Qed.
(** A name of an E-KEY that is not one: an exception, and onEncryptedKeys is not called. *)
Theorem C82_bad_name_refuted : exists l o t, history x_rsa x_aes x_pre x_type 1 [] l o t /\ Forall pevent_ok l /\ distinct_calls l /\ o = [] /\ In (Start x_ts 7 true [1; 2]) (starts [] l) /\ (forall c n, ~ In (PError c n) t) /\ answers 7 t = [].
Proof.
  wit [MCall (x_create 7); MGot 0 (x_node x_type) [9] (Rnd 0 0 [] []); MNack 0] x_rsa x_type (@nil (Z * bytes)).
  split; [unfold distinct_calls; cbn; constructor; [intros []|constructor]|]. split; [reflexivity|]. split; [left; reflexivity|]. split; [|reflexivity]. intros c n Y. repeat (destruct Y as [Y|Y]; [discriminate Y|]). destruct Y.
Qed.
(** An empty data type: nothing to wait for, but onEncryptedKeys is not called. *)
Theorem C82_empty_type_refuted : exists l o t, history x_rsa x_aes x_pre [] 1 [] l o t /\ Forall pevent_ok l /\ o = [] /\ In (Start x_ts 7 true [1; 2]) (starts [] l) /\ t = [].
Proof. wit [MCall (x_create 7)] x_rsa (@nil comp) (@nil (Z * bytes)). split; [reflexivity|]. split; [left; reflexivity|reflexivity]. Qed.
(** A content key that is in the database already (after a restart, or after produce): nothing is
    encrypted, nothing is expressed, onEncryptedKeys is not called. *)
Theorem C82_known_key_refuted : exists l o t, history x_rsa x_aes x_pre x_type 1 [(400137, [3])] l o t /\ Forall pevent_ok l /\ l = [x_create 7] /\ o = [] /\ t = [].
Proof. wit [MCall (x_create 7)] x_rsa x_type [(400137, [3])]. split; [reflexivity|]. split; reflexivity. Qed.

Print Assumptions C82_answer.
Print Assumptions C82_called.
Print Assumptions C82_one_interest.
Print Assumptions C82_retry.
Print Assumptions C82_filter.
Print Assumptions C82_starts_at_slot_refuted.
Print Assumptions C82_name.
Print Assumptions C82_produce.
Print Assumptions C82_error_refuted.
Print Assumptions C82_bad_name_refuted.
Print Assumptions C82_empty_type_refuted.
Print Assumptions C82_known_key_refuted.
