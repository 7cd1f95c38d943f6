(** * C77: PibSqlite3 *)
From Verif Require Import Base BaseLemmas NameModel NameSpec WireModel WireSpec WireProofs5 HierModel HierSpec PibModel PibSpec PibProps ChainModel SqlModel SqlSpec SqlTable SqlProofs SqlProofs2 SqlProofs3.

(** ** What the queries give *)
Lemma wire_ok : forall c, storable c -> x_check c = Ok tt -> cert_wireDecode (data_bytes c) = Ok c.
Proof. intros c (_ & D & Sn & L) K. unfold cert_wireDecode. rewrite (decodeData_ok cert_blank c D L). cbn [rbind fst]. rewrite Sn. unfold x_check in K. rewrite K. reflexivity. Qed.
Lemma q_id : forall d F i, View d F -> fits i -> answer d (p_hasIdentity i) (Ok (a_id F i)).
Proof. intros d F i V Fi. unfold answer, p_hasIdentity, some_row. cbn [perform give]. rewrite (read_id d F i V Fi). destruct (a_id F i); reflexivity. Qed.
Lemma q_def : forall d F, View d F -> answer d p_getDefaultIdentity (or_pib_error (a_def F)).
Proof. intros d F V. unfold answer, p_getDefaultIdentity, one_row. cbn [perform pbind give]. rewrite (read_def d F V). destruct (a_def F) as [n|] eqn:E; [|reflexivity]. cbn [pbind perform plift]. rewrite (enc_ok n (v_deff d F V n E)). reflexivity. Qed.
Lemma q_key : forall d F k, View d F -> fits k -> answer d (p_hasKey k) (Ok (is_some (a_bits F k))).
Proof. intros d F i V Fi. unfold answer, p_hasKey, some_row. cbn [perform give]. rewrite (read_key d F i V Fi). destruct (a_bits F i); reflexivity. Qed.
Lemma q_bits : forall d F k, View d F -> fits k -> answer d (p_getKeyBits k) (or_pib_error (a_bits F k)).
Proof. intros d F i V Fi. unfold answer, p_getKeyBits, one_row. cbn [perform pbind give]. rewrite (read_bits d F i V Fi). destruct (a_bits F i); reflexivity. Qed.
Lemma q_dk : forall d F i, View d F -> fits i -> answer d (p_getDefaultKey i) (or_pib_error (a_dk F i)).
Proof.
  intros d F i V Fi. unfold answer, p_getDefaultKey. rewrite perform_bind. rewrite (q_id d F i V Fi). destruct (a_id F i) eqn:Ei; cbn [negb].
  - unfold one_row. cbn [perform pbind give]. rewrite (read_dk d F i V Fi). destruct (a_dk F i) as [k|] eqn:E; [|reflexivity]. cbn [pbind perform plift]. rewrite (enc_ok k (v_dkf d F V i k Fi E)). reflexivity.
  - pose proof (v_dk d F V i Fi) as X. unfold below in X. rewrite (v_id d F V i Fi) in Ei. destruct (look (b_ids d) (enc i)) as [[[? ?] ?]|]; [discriminate Ei|]. destruct (a_dk F i); [discriminate X|reflexivity].
Qed.
Lemma q_hascert : forall d F n, View d F -> fits n -> answer d (p_hasCertificate n) (Ok (is_some (a_crt F n))).
Proof. intros d F i V Fi. unfold answer, p_hasCertificate, some_row. cbn [perform give]. rewrite (read_cert d F i V Fi). destruct (a_crt F i); reflexivity. Qed.
Lemma q_cert : forall d F n, View d F -> fits n -> answer d (p_getCertificate n) (or_pib_error (a_crt F n)).
Proof. intros d F i V Fi. unfold answer, p_getCertificate, one_row. cbn [perform pbind give]. rewrite (read_cdata d F i V Fi). destruct (a_crt F i) as [c|] eqn:E; [|reflexivity]. cbn [pbind perform plift]. destruct (v_crtf d F V i c Fi E) as (S1 & K & _). rewrite (wire_ok c S1 K). reflexivity. Qed.
Lemma q_dc : forall d F k, View d F -> fits k -> answer d (p_getDefaultCert k) (or_pib_error (dcert F k)).
Proof.
  intros d F i V Fi. unfold answer, p_getDefaultCert, one_row, dcert. cbn [perform pbind give]. rewrite (read_dc d F i V Fi). destruct (a_dc F i) as [n|] eqn:E; [|reflexivity]. destruct (a_crt F n) as [c|] eqn:Ec; [|reflexivity]. cbn [pbind perform plift]. destruct (v_crtf d F V n c (v_dcf d F V i n Fi E) Ec) as (S1 & K & _). rewrite (wire_ok c S1 K). reflexivity.
Qed.
Lemma decode_names : forall l, Forall (fun b => exists n, fits n /\ b = enc n) l -> exists ns, decode_all l = Ok ns /\ Forall fits ns /\ map enc ns = l.
Proof.
  induction l as [|b l IH]; intros H; [exists []; repeat split; constructor|]. inversion H as [|? ? (n & Fn & ->) Hl]; subst. destruct (IH Hl) as (ns & E & Fs & M). exists (n :: ns). cbn [decode_all map]. rewrite (enc_ok n Fn), E, M. auto.
Qed.
Lemma q_list : forall q d, Forall (fun b => exists n, fits n /\ b = enc n) (read q d) -> NoDup (read q d) ->
  exists l, answer d (names_of q) (Ok l) /\ NoDup l /\ forall n, In n l <-> fits n /\ In (enc n) (read q d).
Proof.
  intros q d H N. destruct (decode_names _ H) as (ns & E & Fs & M). exists ns. split; [|split].
  - unfold answer, names_of. cbn [perform]. rewrite E. reflexivity.
  - rewrite <- M in N. eapply NoDup_map_inv. exact N.
  - intros n. rewrite <- M. rewrite Forall_forall in Fs. split; [intros I; split; [apply Fs, I|apply in_map, I]|]. intros [Fn I]. apply in_map_iff in I. destruct I as (m & Em & I). apply enc_inj in Em; [subst m; exact I|apply Fs, I|exact Fn].
Qed.
Lemma nodup_filter_map : forall A B (f : A -> B) p l, NoDup (map f l) -> NoDup (map f (filter p l)).
Proof.
  induction l as [|x l IH]; intros N; [constructor|]. cbn [map] in N. inversion N as [|? ? N1 N2]; subst. cbn [filter]. destruct (p x); [|apply IH, N2]. cbn [map]. constructor; [|apply IH, N2]. intros I. apply N1. apply in_map_iff in I. destruct I as (y & E & I). apply filter_In in I. rewrite <- E. apply in_map, I.
Qed.
Lemma q_ids : forall d F, View d F -> exists l, answer d p_getIdentities (Ok l) /\ NoDup l /\ forall i, In i l <-> fits i /\ a_id F i = true.
Proof.
  intros d F V. pose proof (v_good d F V) as G. destruct (q_list QIdentities d) as (l & A & N & I).
  - cbn [read]. apply Forall_forall. intros b H. apply in_map_iff in H. destruct H as (r & <- & H). exact (proj2 (g_id d G _ _ _ _ (look_row _ r (g_i d G) H))).
  - cbn [read]. apply (g_i d G).
  - exists l. split; [exact A|]. split; [exact N|]. intros i. rewrite I. split; intros [Fi H]; (split; [exact Fi|]).
    + cbn [read] in H. apply in_map_iff in H. destruct H as (r & E & H). rewrite (v_id d F V i Fi), <- E, (look_row _ r (g_i d G) H). reflexivity.
    + rewrite (v_id d F V i Fi) in H. destruct (look (b_ids d) (enc i)) as [[[x s] b]|] eqn:L; [|discriminate H]. apply (look_in _ _ _ _ _ (g_i d G)) in L. destruct L as [df L]. cbn [read]. apply in_map_iff. exists (Row x s (enc i) b df). auto.
Qed.
Lemma q_keys : forall d F i, View d F -> fits i -> exists l, answer d (p_getKeysOfIdentity i) (Ok l) /\ NoDup l /\ forall k, In k l <-> fits k /\ a_bits F k <> None /\ owner k = i.
Proof.
  intros d F i V Fi. pose proof (v_good d F V) as G. assert (R : read (QKeysOf (enc i)) d = match look (b_ids d) (enc i) with Some (x, _, _) => map r_name (filter (fun r => r_scope r =? x) (b_keys d)) | None => [] end). { cbn [read]. rewrite joined_ok by apply G. destruct (look (b_ids d) (enc i)) as [[[x s] b]|]; reflexivity. }
  destruct (q_list (QKeysOf (enc i)) d) as (l & A & N & I).
  - rewrite R. destruct (look (b_ids d) (enc i)) as [[[x s] b]|]; [|constructor]. apply Forall_forall. intros b0 H. apply in_map_iff in H. destruct H as (r & <- & H). apply filter_In in H. destruct (g_key d G _ _ _ _ (look_row _ r (g_k d G) (proj1 H))) as (k & Fk & E & _). eauto.
  - rewrite R. destruct (look (b_ids d) (enc i)) as [[[x s] b]|]; [|constructor]. apply nodup_filter_map, (g_k d G).
  - exists l. split; [exact A|]. split; [exact N|]. intros k. rewrite I, R. split.
    + intros [Fk H]. split; [exact Fk|]. destruct (look (b_ids d) (enc i)) as [[[x s] b]|] eqn:Li; [|destruct H]. apply in_map_iff in H. destruct H as (r & E & H). apply filter_In in H. destruct H as [H Es]. apply Z.eqb_eq in Es. pose proof (look_row _ r (g_k d G) H) as L. rewrite E in L. rewrite (v_bits d F V k Fk), L. split; [discriminate|].
      destruct (key_row d k _ _ _ G Fk L) as (s' & x' & Lo). rewrite Es in Lo. eapply same_name; [apply (g_i d G)|apply owner_fits, Fk|exact Fi|exact Lo|exact Li].
    + intros (Fk & H & <-). split; [exact Fk|]. rewrite (v_bits d F V k Fk) in H. destruct (look (b_keys d) (enc k)) as [[[x s] b]|] eqn:L; [|exfalso; apply H; reflexivity]. destruct (key_row d k _ _ _ G Fk L) as (s' & x' & Lo). rewrite Lo. apply (look_in _ _ _ _ _ (g_k d G)) in L. destruct L as [df L]. apply in_map_iff. exists (Row x s (enc k) b df). split; [reflexivity|]. apply filter_In. split; [exact L|apply Z.eqb_refl].
Qed.
Lemma q_certs : forall d F k, View d F -> fits k -> exists l, answer d (p_getCertificatesOfKey k) (Ok l) /\ NoDup l /\ forall n, In n l <-> fits n /\ a_crt F n <> None /\ owner n = k.
Proof.
  intros d F i V Fi. pose proof (v_good d F V) as G. assert (R : read (QCertsOf (enc i)) d = match look (b_keys d) (enc i) with Some (x, _, _) => map r_name (filter (fun r => r_scope r =? x) (b_certs d)) | None => [] end). { cbn [read]. rewrite joined_ok by apply G. destruct (look (b_keys d) (enc i)) as [[[x s] b]|]; reflexivity. }
  destruct (q_list (QCertsOf (enc i)) d) as (l & A & N & I).
  - rewrite R. destruct (look (b_keys d) (enc i)) as [[[x s] b]|]; [|constructor]. apply Forall_forall. intros b0 H. apply in_map_iff in H. destruct H as (r & <- & H). apply filter_In in H. destruct (g_cert d G _ _ _ _ (look_row _ r (g_c d G) (proj1 H))) as (k & Fk & E & _). eauto.
  - rewrite R. destruct (look (b_keys d) (enc i)) as [[[x s] b]|]; [|constructor]. apply nodup_filter_map, (g_c d G).
  - exists l. split; [exact A|]. split; [exact N|]. intros k. rewrite I, R. split.
    + intros [Fk H]. split; [exact Fk|]. destruct (look (b_keys d) (enc i)) as [[[x s] b]|] eqn:Li; [|destruct H]. apply in_map_iff in H. destruct H as (r & E & H). apply filter_In in H. destruct H as [H Es]. apply Z.eqb_eq in Es. pose proof (look_row _ r (g_c d G) H) as L. rewrite E in L. split; [intros X; apply (dmap_none d F k V Fk) in X; congruence|].
      destruct (cert_row d k _ _ _ G Fk L) as (s' & x' & Lo). rewrite Es in Lo. eapply same_name; [apply (g_k d G)|apply owner_fits, Fk|exact Fi|exact Lo|exact Li].
    + intros (Fk & H & <-). split; [exact Fk|]. destruct (look (b_certs d) (enc k)) as [[[x s] b]|] eqn:L; [|exfalso; apply H; apply (dmap_none d F k V Fk); exact L]. destruct (cert_row d k _ _ _ G Fk L) as (s' & x' & Lo). rewrite Lo. apply (look_in _ _ _ _ _ (g_c d G)) in L. destruct L as [df L]. apply in_map_iff. exists (Row x s (enc k) b df). split; [reflexivity|]. apply filter_In. split; [exact L|apply Z.eqb_refl].
Qed.

(** ** By the history *)
Definition abs_of (h : list (call data)) : abs := Abs (ident x_name h) (def_id x_name h) (key_bits x_name x_content h) (sql_def_key h) (cert x_name h) (def_cert x_name h).
Lemma act_history : forall h o, sql_sane o -> eqv (act o (abs_of h)) (abs_of (o :: h)) /\ act_out o (abs_of h) = outcome x_name x_content h o.
Proof.
  intros h o [S _]. split; [|destruct o; reflexivity]. destruct o as [i|i| |i|i k b|k|i k|c|n|k n]; cbn [sane] in S.
  - constructor; cbn; auto.
  - constructor; cbn; auto.
  - constructor; cbn; auto.
  - constructor; cbn; auto.
  - destruct S as (_ & _ & kid & ->). constructor; cbn; auto; rewrite owner_key; unfold upd, or_first; intros; auto. destruct (name_dec i n) as [<-|N]; [reflexivity|]. destruct (sql_def_key h n); reflexivity.
  - constructor; cbn; auto.
  - destruct S as (_ & _ & kid & ->). cbn [act]. unfold A_setkey. cbn [abs_of a_bits]. destruct (key_bits x_name x_content h (key_name i kid)) eqn:E; constructor; cbn; auto; rewrite ?owner_key; unfold upd; intros; destruct (name_dec i n) as [<-|N]; rewrite ?E; reflexivity.
  - constructor; cbn; auto; unfold upd, or_first, x_name; intros; auto.
    + destruct (name_dec (owner (owner (d_name c))) n) as [<-|N]; [reflexivity|]. destruct (sql_def_key h n); reflexivity.
    + change (@d_name) with d_name. destruct (name_dec (owner (d_name c)) n) as [<-|N]; [reflexivity|]. destruct (def_cert (fun d => d_name d) h n); reflexivity.
  - constructor; cbn; auto.
  - destruct S as (_ & _ & <-). cbn [act]. unfold A_setcert. cbn [abs_of a_crt]. destruct (cert x_name h n) eqn:E; constructor; cbn; auto; unfold upd; intros m; destruct (name_dec (owner n) m) as [<-|N]; rewrite ?E; reflexivity.
Qed.
Lemma view_new : View db_new (abs_of []).
Proof. eapply view_eqv; [|apply (view_empty db_new good_new eq_refl)]. constructor; reflexivity. Qed.
Lemma step_history : forall d h o, View d (abs_of h) -> sql_sane o -> exists d', perform (p_call o) d = (d', outcome x_name x_content h o) /\ View d' (abs_of (o :: h)) /\
  forall d1, In d1 (crashes (p_call o) d) -> exists X, View d1 X /\ btw (abs_of h) (abs_of (o :: h)) X /\ exists d2, perform (p_call o) d1 = (d2, outcome x_name x_content h o) /\ View d2 (abs_of (o :: h)).
Proof.
  intros d h o V S. destruct (act_history h o S) as [Ev Eo]. destruct (eff_call o d _ V S) as [(d' & P & V') C]. exists d'. rewrite Eo in P. split; [exact P|]. split; [eapply view_eqv; eassumption|].
  intros d1 I. destruct (C d1 I) as (X & VX & BX). exists X. split; [exact VX|]. split; [eapply btw_eqv; eassumption|]. destruct (act_again o _ X BX) as [E1 E2]. destruct (eff_call o d1 X VX S) as [(d2 & P2 & V2) _]. exists d2. rewrite E2, Eo in P2. split; [exact P2|]. eapply view_eqv; [exact Ev|]. eapply view_eqv; [exact E1|exact V2].
Qed.
Lemma run_snoc : forall h o d, s_run (h ++ [o]) d = fst (perform (p_call o) (s_run h d)).
Proof. intros. unfold s_run. rewrite fold_left_app. reflexivity. Qed.
Lemma run_view : forall h, Forall sql_sane h -> View (s_run h db_new) (abs_of (rev h)).
Proof.
  induction h as [|o h IH] using rev_ind; intros H; [apply view_new|]. apply Forall_app in H. destruct H as [H Ho]. inversion Ho as [|? ? So _]; subst. rewrite run_snoc, rev_app_distr. destruct (step_history _ _ o (IH H) So) as (d' & P & V & _). rewrite P. exact V.
Qed.
Lemma view_tells : forall d h, View d (abs_of h) -> tells d h.
Proof.
  intros d h V. unfold tells. split; [intros i Fi; exact (q_id d _ i V Fi)|]. split; [exact (q_def d _ V)|]. split; [intros k Fk; exact (q_key d _ k V Fk)|]. split; [intros k Fk; exact (q_bits d _ k V Fk)|]. split; [intros k Fk; exact (q_dk d _ k V Fk)|]. split; [intros k Fk; exact (q_hascert d _ k V Fk)|]. split; [intros k Fk; exact (q_cert d _ k V Fk)|]. split; [intros k Fk; exact (q_dc d _ k V Fk)|].
  split; [destruct (q_ids d _ V) as (l & A & _ & I); eauto|]. split; [intros i Fi; destruct (q_keys d _ i V Fi) as (l & A & _ & I); eauto|intros k Fk; destruct (q_certs d _ k V Fk) as (l & A & _ & I); eauto].
Qed.
(** Every answer is the one that the calls so far determine, and a call raises exactly if it makes
    a key or a certificate the default that is not there. *)
Theorem C77_state : forall h, Forall sql_sane h -> tells (s_run h db_new) (rev h) /\ forall o, sql_sane o -> snd (perform (p_call o) (s_run h db_new)) = outcome x_name x_content (rev h) o.
Proof.
  intros h H. pose proof (run_view h H) as V. split; [apply view_tells, V|]. intros o So. destruct (step_history _ _ o V So) as (d' & P & _). rewrite P. reflexivity.
Qed.
(** If the process ends or a statement raises inside a call, each answer is the one from before the
    call or the one from after it. *)
Theorem C77_crash : forall h o d1, Forall sql_sane h -> sql_sane o -> In d1 (crashes (p_call o) (s_run h db_new)) -> old_or_new d1 (s_run h db_new) (s_run (h ++ [o]) db_new).
Proof.
  intros h o d1 H So I. pose proof (run_view h H) as V. assert (V2 : View (s_run (h ++ [o]) db_new) (abs_of (o :: rev h))). { pose proof (run_view (h ++ [o])) as W. rewrite rev_app_distr in W. apply W. apply Forall_app. auto. }
  destruct (step_history _ _ o V So) as (_ & _ & _ & C). destruct (C d1 I) as (X & VX & [b1 b2 b3 b4 b5 b6 b7] & _). unfold old_or_new, either, gives.
  split; [intros i Fi; rewrite (q_id _ _ i V Fi), (q_id _ _ i V2 Fi), (q_id _ _ i VX Fi); cbn [snd]; destruct (b1 i) as [-> | ->]; auto|].
  split; [rewrite (q_def _ _ V), (q_def _ _ V2), (q_def _ _ VX); cbn [snd]; destruct b2 as [-> | ->]; auto|].
  split; [intros i Fi; rewrite (q_key _ _ i V Fi), (q_key _ _ i V2 Fi), (q_key _ _ i VX Fi); cbn [snd]; destruct (b3 i) as [-> | ->]; auto|].
  split; [intros i Fi; rewrite (q_bits _ _ i V Fi), (q_bits _ _ i V2 Fi), (q_bits _ _ i VX Fi); cbn [snd]; destruct (b3 i) as [-> | ->]; auto|].
  split; [intros i Fi; rewrite (q_dk _ _ i V Fi), (q_dk _ _ i V2 Fi), (q_dk _ _ i VX Fi); cbn [snd]; destruct (b4 i) as [-> | ->]; auto|].
  split; [intros i Fi; rewrite (q_hascert _ _ i V Fi), (q_hascert _ _ i V2 Fi), (q_hascert _ _ i VX Fi); cbn [snd]; destruct (b5 i) as [-> | ->]; auto|].
  split; [intros i Fi; rewrite (q_cert _ _ i V Fi), (q_cert _ _ i V2 Fi), (q_cert _ _ i VX Fi); cbn [snd]; destruct (b5 i) as [-> | ->]; auto|].
  intros i Fi; rewrite (q_dc _ _ i V Fi), (q_dc _ _ i V2 Fi), (q_dc _ _ i VX Fi); cbn [snd]; destruct (b7 i) as [-> | ->]; auto.
Qed.
(** After that, the call can be made again, and then everything is as if it had succeeded at once. *)
Theorem C77_retry : forall h o d1, Forall sql_sane h -> sql_sane o -> In d1 (crashes (p_call o) (s_run h db_new)) ->
  snd (perform (p_call o) d1) = outcome x_name x_content (rev h) o /\ tells (fst (perform (p_call o) d1)) (o :: rev h).
Proof.
  intros h o d1 H So I. destruct (step_history _ _ o (run_view h H) So) as (_ & _ & _ & C). destruct (C d1 I) as (X & _ & _ & d2 & P & V). rewrite P. split; [reflexivity|apply view_tells, V].
Qed.

(** ** Several processes, failures and crashes *)
Definition dec_opt (o : option bytes) : option name := match o with Some b => match decodeName b with Ok n => Some n | Err _ => None end | None => None end.
Definition crt_opt (o : option bytes) : option data := match o with Some b => match cert_wireDecode b with Ok c => Some c | Err _ => None end | None => None end.
Definition abs_db (d : db) : abs := Abs (fun n => is_some (look (b_ids d) (enc n))) (dec_opt (dflt (b_ids d) 0)) (fun k => third (look (b_keys d) (enc k))) (fun i => dec_opt (below (b_ids d) (b_keys d) (enc i))) (fun n => crt_opt (third (look (b_certs d) (enc n)))) (fun k => dec_opt (below (b_keys d) (b_certs d) (enc k))).
Lemma dec_enc : forall o, (forall b, o = Some b -> exists n, fits n /\ b = enc n) -> emap (dec_opt o) = o /\ forall n, dec_opt o = Some n -> fits n.
Proof. intros [b|] H; [|split; [reflexivity|discriminate]]. destruct (H b eq_refl) as (n & Fn & ->). cbn [dec_opt]. rewrite (enc_ok n Fn). split; [reflexivity|]. intros m [= <-]. exact Fn. Qed.
Lemma good_view : forall d, Good d -> View d (abs_db d).
Proof.
  intros d G. assert (N1 : forall b, dflt (b_ids d) 0 = Some b -> exists n, fits n /\ b = enc n). { intros b E. apply (dflt_look _ _ _ (g_i d G)) in E. destruct E as (i & x & E). apply (g_id d G _ _ _ _ E). }
  assert (N2 : forall i b, below (b_ids d) (b_keys d) i = Some b -> exists n, fits n /\ b = enc n). { intros i b E. unfold below in E. destruct (look (b_ids d) i) as [[[x s] y]|]; [|discriminate E]. apply (dflt_look _ _ _ (g_k d G)) in E. destruct E as (j & z & E). destruct (g_key d G _ _ _ _ E) as (k & Fk & Ek & _). eauto. }
  assert (N3 : forall i b, below (b_keys d) (b_certs d) i = Some b -> exists n, fits n /\ b = enc n). { intros i b E. unfold below in E. destruct (look (b_keys d) i) as [[[x s] y]|]; [|discriminate E]. apply (dflt_look _ _ _ (g_c d G)) in E. destruct E as (j & z & E). destruct (g_cert d G _ _ _ _ E) as (k & Fk & Ek & _). eauto. }
  assert (N4 : forall n b, fits n -> third (look (b_certs d) (enc n)) = Some b -> exists c, storable c /\ x_check c = Ok tt /\ d_name c = n /\ b = data_bytes c). { intros n b Fn E. destruct (look (b_certs d) (enc n)) as [[[x s] y]|] eqn:L; [|discriminate E]. injection E as ->. destruct (g_cert d G _ _ _ _ L) as (m & Fm & Em & K & _). apply enc_inj in Em; [|exact Fn|exact Fm]. subst m. exact K. }
  constructor; cbn [abs_db a_id a_def a_bits a_dk a_crt a_dc]; auto.
  - apply dec_enc, N1. - intros n. apply dec_enc, N1. - intros i _. apply dec_enc, N2. - intros i k _. apply dec_enc, N2.
  - intros n Fn. destruct (third (look (b_certs d) (enc n))) as [b|] eqn:E; [|reflexivity]. destruct (N4 n b Fn E) as (c & Sc & Kc & _ & ->). cbn [crt_opt]. rewrite (wire_ok c Sc Kc). reflexivity.
  - intros n c Fn H. destruct (third (look (b_certs d) (enc n))) as [b|] eqn:E; [|discriminate H]. destruct (N4 n b Fn E) as (c' & Sc & Kc & En & ->). cbn [crt_opt] in H. rewrite (wire_ok c' Sc Kc) in H. injection H as <-. auto.
  - intros k _. apply dec_enc, N3. - intros k n _. apply dec_enc, N3.
Qed.
Lemma or_err : forall A (o : option A), or_pib_error o = Err OtherError \/ exists a, or_pib_error o = Ok a /\ o = Some a.
Proof. intros A [a|]; [right; exists a; auto|left; reflexivity]. Qed.
Lemma gives_of : forall A d (p : prog A) r, answer d p r -> gives d p = r.
Proof. intros A d p r H. unfold gives. rewrite H. reflexivity. Qed.
Lemma ok_true : forall A (o : option A), Ok (is_some o) = Ok true <-> o <> None.
Proof. intros A [a|]; cbn; split; congruence. Qed.
Lemma dk_facts : forall d F i k, View d F -> fits i -> a_dk F i = Some k -> owner k = i /\ a_bits F k <> None.
Proof.
  intros d F i k V Fi E. pose proof (v_good d F V) as G. pose proof (v_dkf d F V i k Fi E) as Fk. pose proof (v_dk d F V i Fi) as X. rewrite E in X. unfold below in X. destruct (look (b_ids d) (enc i)) as [[[x s] b]|] eqn:Li; [|discriminate X]. symmetry in X. apply (dflt_look _ _ _ (g_k d G)) in X. destruct X as (j & b' & X). cbn in X. destruct (key_row d k _ _ _ G Fk X) as (s' & x' & Lo). split.
  - eapply same_name; [apply (g_i d G)|apply owner_fits, Fk|exact Fi|exact Lo|exact Li].
  - rewrite (v_bits d F V k Fk), X. discriminate.
Qed.
Lemma dc_facts : forall d F k n, View d F -> fits k -> a_dc F k = Some n -> owner n = k.
Proof.
  intros d F i k V Fi E. pose proof (v_good d F V) as G. pose proof (v_dcf d F V i k Fi E) as Fk. pose proof (v_dc d F V i Fi) as X. rewrite E in X. unfold below in X. destruct (look (b_keys d) (enc i)) as [[[x s] b]|] eqn:Li; [|discriminate X]. symmetry in X. apply (dflt_look _ _ _ (g_c d G)) in X. destruct X as (j & b' & X). cbn in X. destruct (cert_row d k _ _ _ G Fk X) as (s' & x' & Lo).
  eapply same_name; [apply (g_k d G)|apply owner_fits, Fk|exact Fi|exact Lo|exact Li].
Qed.
Lemma good_consistent : forall d, Good d -> consistent d.
Proof.
  intros d G. pose proof (good_view d G) as V. set (F := abs_db d) in *. clearbody F. constructor.
  - rewrite (gives_of _ _ _ _ (q_def d F V)). destruct (or_err _ (a_def F)) as [E|(i & E & Ei)]; [auto|right]. exists i. split; [exact E|]. pose proof (v_deff d F V i Ei) as Fi. rewrite (gives_of _ _ _ _ (q_id d F i V Fi)), (v_id d F V i Fi). pose proof (v_def d F V) as D. rewrite Ei in D. symmetry in D. apply (dflt_look _ _ _ (g_i d G)) in D. destruct D as (j & b & D). cbn in D. rewrite D. reflexivity.
  - intros k Fk. rewrite (gives_of _ _ _ _ (q_key d F k V Fk)), (gives_of _ _ _ _ (q_bits d F k V Fk)), ok_true. destruct (a_bits F k) as [b|]; cbn; split; intros H; try congruence; [eauto|destruct H; congruence].
  - intros k Fk. rewrite (gives_of _ _ _ _ (q_key d F k V Fk)), ok_true. intros H. rewrite (gives_of _ _ _ _ (q_id d F _ V (owner_fits k Fk))), (v_id d F V _ (owner_fits k Fk)). rewrite (v_bits d F V k Fk) in H. destruct (look (b_keys d) (enc k)) as [[[x s] b]|] eqn:L; [|exfalso; apply H; reflexivity]. destruct (key_row d k _ _ _ G Fk L) as (s' & x' & Lo). rewrite Lo. reflexivity.
  - intros i Fi. rewrite (gives_of _ _ _ _ (q_dk d F i V Fi)). destruct (or_err _ (a_dk F i)) as [E|(k & E & Ek)]; [auto|right]. exists k. split; [exact E|]. destruct (dk_facts d F i k V Fi Ek) as [Eo Eb]. split; [exact Eo|]. rewrite (gives_of _ _ _ _ (q_key d F k V (v_dkf d F V i k Fi Ek))). apply ok_true, Eb.
  - intros n Fn. rewrite (gives_of _ _ _ _ (q_hascert d F n V Fn)), (gives_of _ _ _ _ (q_cert d F n V Fn)), ok_true. destruct (a_crt F n) as [c|] eqn:E; cbn; split; intros H; try congruence.
    + exists c. destruct (v_crtf d F V n c Fn E) as (_ & K & En). auto.
    + destruct H as (c & H & _). discriminate H.
  - intros n Fn. rewrite (gives_of _ _ _ _ (q_hascert d F n V Fn)), ok_true. intros H. rewrite (gives_of _ _ _ _ (q_key d F _ V (owner_fits n Fn))). apply ok_true. rewrite (v_bits d F V _ (owner_fits n Fn)). destruct (look (b_certs d) (enc n)) as [[[x s] b]|] eqn:L; [|exfalso; apply H; apply (dmap_none d F n V Fn), L]. destruct (cert_row d n _ _ _ G Fn L) as (s' & x' & Lo). rewrite Lo. discriminate.
  - intros k Fk. rewrite (gives_of _ _ _ _ (q_dc d F k V Fk)). destruct (or_err _ (dcert F k)) as [E|(c & E & Ec)]; [auto|right]. exists c. split; [exact E|]. unfold dcert in Ec. destruct (a_dc F k) as [n|] eqn:En; [|discriminate Ec]. pose proof (v_dcf d F V k n Fk En) as Fn. destruct (v_crtf d F V n c Fn Ec) as (_ & _ & En'). rewrite En'. split; [apply (dc_facts d F k n V Fk En)|]. rewrite (gives_of _ _ _ _ (q_cert d F n V Fn)), Ec. reflexivity.
  - destruct (q_ids d F V) as (l & A & N & I). exists l. split; [apply gives_of, A|]. split; [exact N|]. intros i. rewrite I. split; intros [Fi H]; (split; [exact Fi|]); rewrite (gives_of _ _ _ _ (q_id d F i V Fi)) in *; congruence.
  - intros i Fi. destruct (q_keys d F i V Fi) as (l & A & N & I). exists l. split; [apply gives_of, A|]. split; [exact N|]. intros k. rewrite I. split; [intros (Fk & H & Eo)|intros (Fk & Eo & H)]; (split; [exact Fk|]); rewrite (gives_of _ _ _ _ (q_key d F k V Fk)) in *; [split; [exact Eo|apply ok_true, H]|split; [apply ok_true, H|exact Eo]].
  - intros i Fi. destruct (q_certs d F i V Fi) as (l & A & N & I). exists l. split; [apply gives_of, A|]. split; [exact N|]. intros k. rewrite I. split; [intros (Fk & H & Eo)|intros (Fk & Eo & H)]; (split; [exact Fk|]); rewrite (gives_of _ _ _ _ (q_hascert d F k V Fk)) in *; [split; [exact Eo|apply ok_true, H]|split; [apply ok_true, H|exact Eo]].
Qed.
Lemma reach_good : forall s, y_reach sql_sane s -> Good (y_db s) /\ Forall issues (y_procs s).
Proof.
  intros s R. induction R as [|s s' R [G I] St]; [split; [apply good_new|constructor]|]. inversion St as [d ps o Ho|d a q k b|d a u k b d' W|d a p b]; subst; cbn [y_db y_procs] in *.
  - split; [exact G|]. constructor; [apply issues_call, Ho|exact I].
  - split; [exact G|]. apply Forall_app in I. destruct I as [Ia Ib]. inversion Ib as [|? ? Ip Ib']; subst. apply Forall_app. split; [exact Ia|]. constructor; [|exact Ib']. inversion Ip; subst. auto.
  - apply Forall_app in I. destruct I as [Ia Ib]. inversion Ib as [|? ? Ip Ib']; subst. inversion Ip as [| |? ? Uo Ik]; subst. split; [eapply good_write; eassumption|]. apply Forall_app. auto.
  - split; [exact G|]. apply Forall_app in I. destruct I as [Ia Ib]. inversion Ib; subst. apply Forall_app. auto.
Qed.
(** However the calls of the processes are interleaved, fail and break off: the answers fit together. *)
Theorem C77_integrity : forall s, y_reach sql_sane s -> consistent (y_db s) /\ one_default (b_ids (y_db s)) /\ one_default (b_keys (y_db s)) /\ one_default (b_certs (y_db s)).
Proof.
  intros s R. destruct (reach_good s R) as [G _]. split; [apply good_consistent, G|]. pose proof (g_i _ G) as W1. pose proof (g_k _ G) as W2. pose proof (g_c _ G) as W3.
  split; [|split]; (split; [apply w_name; assumption|]); intros r r' I I' Es D D'; [eapply (w_def _ W1)|eapply (w_def _ W2)|eapply (w_def _ W3)]; assumption.
Qed.

(** ** Compared with PibMemory *)
(** Only the default key differs, and only once a key was removed. *)
Theorem C77_like_memory : forall h i, (forall k, ~ In (RemoveKey k) h) -> sql_def_key h i = def_key x_name x_content h i.
Proof.
  induction h as [|o h IH]; intros i N; [reflexivity|]. assert (N' : forall k, ~ In (RemoveKey k) h) by (intros k I; apply (N k); right; exact I). specialize (IH i N'). destruct o; cbn [sql_def_key def_key]; rewrite ?IH; try reflexivity. exfalso. eapply N. left. reflexivity.
Qed.

(** ** The TPM locator *)
Definition set_all (ls : list bytes) (d : db) : db := fold_left (fun d l => fst (perform (p_setTpmLocator l) d)) ls d.
Lemma set_snoc : forall ls l d, set_all (ls ++ [l]) d = fst (perform (p_setTpmLocator l) (set_all ls d)).
Proof. intros. unfold set_all. rewrite fold_left_app. reflexivity. Qed.
Lemma set_one : forall d l, (b_tpm d = [] \/ exists x r, b_tpm d = x :: r /\ x <> []) -> perform (p_setTpmLocator l) d = (Db (match b_tpm d with [] => [l] | _ => map (fun _ => l) (b_tpm d) end) (b_ids d) (b_keys d) (b_certs d), Ok tt).
Proof.
  intros d l H. unfold p_setTpmLocator, p_getTpmLocator, one_row, give. cbn [pbind perform read]. destruct H as [E|(x & r & E & N)]; rewrite E; cbn [pbind perform].
  - cbn [zlist_eqb do give perform write]. rewrite E. reflexivity.
  - destruct (zlist_eqb x []) eqn:Ex; [apply zlist_eqb_eq in Ex; contradiction|]. cbn [do give perform write]. rewrite E. reflexivity.
Qed.
(** The locator is the last one set, as long as none of those before was empty; the other calls
    leave it alone. *)
Theorem C77_locator : forall ls l, Forall (fun x => x <> []) ls -> gives (set_all (ls ++ [l]) db_new) p_getTpmLocator = Ok l.
Proof.
  intros ls l H. assert (K : forall ls, Forall (fun x => x <> []) ls -> b_tpm (set_all ls db_new) = [] \/ exists x r, b_tpm (set_all ls db_new) = x :: r /\ x <> []).
  { clear. induction ls as [|x ls IH] using rev_ind; intros H; [left; reflexivity|]. right. apply Forall_app in H. destruct H as [H Hx]. inversion Hx; subst. rewrite set_snoc. rewrite (set_one _ x (IH H)). cbn [fst b_tpm]. destruct (IH H) as [E|(y & r & E & N)]; rewrite E; cbn [map]; eauto. }
  rewrite set_snoc. rewrite (set_one _ l (K ls H)). unfold gives, p_getTpmLocator, one_row, give. cbn [pbind perform read fst b_tpm]. destruct (K ls H) as [E|(y & r & E & N)]; rewrite E; reflexivity.
Qed.
Lemma write_tpm : forall u d d', write u d = Some d' -> match u with UInsertTpm _ | USetTpm _ => True | _ => b_tpm d' = b_tpm d end.
Proof. intros u d d' E. destruct u; cbn [write] in E; auto; repeat match type of E with context [match ?x with _ => _ end] => destruct x; try discriminate E end; injection E as <-; reflexivity. Qed.
Inductive no_tpm {A} : prog A -> Prop :=
  | NDone : forall r, no_tpm (Done r)
  | NAsk : forall q k, (forall rows, no_tpm (k rows)) -> no_tpm (Ask q k)
  | NRun : forall u k, match u with UInsertTpm _ | USetTpm _ => False | _ => True end -> no_tpm k -> no_tpm (Run u k).
Lemma no_tpm_bind : forall A B (p : prog A) (f : A -> prog B), no_tpm p -> (forall a, no_tpm (f a)) -> no_tpm (pbind p f).
Proof. intros A B p f H F. induction H; cbn [pbind]; [destruct r; [apply F|constructor]|constructor; auto|constructor; auto]. Qed.
Lemma no_tpm_perform : forall A (p : prog A), no_tpm p -> forall d, b_tpm (fst (perform p d)) = b_tpm d.
Proof. intros A p H. induction H as [r|q k H IH|u k U H IH]; intros d; cbn [perform]; [reflexivity|apply IH|]. destruct (write u d) as [d'|] eqn:E; [|reflexivity]. rewrite IH. apply write_tpm in E. destruct u; (exact E || destruct U). Qed.
Ltac nt := repeat match goal with
  | |- no_tpm (pbind _ _) => apply no_tpm_bind; [|intros ?]
  | |- no_tpm (Done _) => constructor
  | |- no_tpm (give _) => constructor
  | |- no_tpm (stop _) => constructor
  | |- no_tpm (plift _) => constructor
  | |- no_tpm (some_row _) => constructor; intros ?; constructor
  | |- no_tpm (do _) => constructor; [exact Logic.I|constructor]
  | |- no_tpm (if ?b then _ else _) => destruct b
  end.
Lemma no_tpm_call : forall o, no_tpm (p_call o).
Proof. intros o. destruct o; cbn [p_call]; unfold p_addCertificate, p_addKey, p_addIdentity, p_setDefaultIdentity, p_setDefaultKey, p_setDefaultCert, p_hasIdentity, p_hasDefaultIdentity, p_hasKey, p_hasDefaultKey, p_hasCertificate, p_hasDefaultCert, p_removeIdentity, p_clearIdentities, p_removeKey, p_removeCertificate; nt. Qed.
Theorem C77_locator_kept : forall o d, gives (fst (perform (p_call o) d)) p_getTpmLocator = gives d p_getTpmLocator.
Proof. intros o d. unfold gives, p_getTpmLocator, one_row, give. cbn [pbind perform read]. rewrite (no_tpm_perform _ _ (no_tpm_call o) d). reflexivity. Qed.
