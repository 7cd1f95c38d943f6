(** * What the statements do to what the database shows *)
From Verif Require Import Base BaseLemmas NameModel NameSpec WireModel WireSpec HierModel HierSpec PibModel PibSpec PibProps ChainModel SqlModel SqlSpec SqlTable SqlProofs.

Record abs : Type := Abs { a_id : name -> bool; a_def : option name; a_bits : name -> option bytes; a_dk : name -> option name; a_crt : name -> option data; a_dc : name -> option name }.
Definition third (o : option (Z * Z * bytes)) : option bytes := match o with Some (_, _, b) => Some b | None => None end.
Definition below (p c : table) (n : bytes) : option bytes := match look p n with Some (x, _, _) => dflt c x | None => None end.
Definition emap (o : option name) : option bytes := match o with Some n => Some (enc n) | None => None end.
Definition dmap (o : option data) : option bytes := match o with Some c => Some (data_bytes c) | None => None end.
Record View (d : db) (F : abs) : Prop := MkView {
  v_good : Good d;
  v_id : forall n, fits n -> a_id F n = is_some (look (b_ids d) (enc n));
  v_def : emap (a_def F) = dflt (b_ids d) 0;
  v_deff : forall n, a_def F = Some n -> fits n;
  v_bits : forall k, fits k -> a_bits F k = third (look (b_keys d) (enc k));
  v_dk : forall i, fits i -> emap (a_dk F i) = below (b_ids d) (b_keys d) (enc i);
  v_dkf : forall i k, fits i -> a_dk F i = Some k -> fits k;
  v_crt : forall n, fits n -> dmap (a_crt F n) = third (look (b_certs d) (enc n));
  v_crtf : forall n c, fits n -> a_crt F n = Some c -> storable c /\ x_check c = Ok tt /\ d_name c = n;
  v_dc : forall k, fits k -> emap (a_dc F k) = below (b_keys d) (b_certs d) (enc k);
  v_dcf : forall k n, fits k -> a_dc F k = Some n -> fits n }.
Lemma third_some : forall o b, third o = Some b -> exists i s, o = Some (i, s, b).
Proof. intros [[[i s] x]|] b H; [injection H as ->; eauto|discriminate H]. Qed.
Lemma third_none : forall o, third o = None -> o = None.
Proof. intros [[[i s] x]|] H; [discriminate H|reflexivity]. Qed.
Lemma key_row : forall d k i s b, Good d -> fits k -> look (b_keys d) (enc k) = Some (i, s, b) -> exists s' x', look (b_ids d) (enc (owner k)) = Some (s, s', x').
Proof. intros d k i s b G Fk H. destruct (g_key d G _ _ _ _ H) as (k' & Fk' & E & X). apply enc_inj in E; [|assumption|assumption]. subst k'. exact X. Qed.
Lemma cert_row : forall d n i s b, Good d -> fits n -> look (b_certs d) (enc n) = Some (i, s, b) -> exists s' x', look (b_keys d) (enc (owner n)) = Some (s, s', x').
Proof. intros d n i s b G Fn H. destruct (g_cert d G _ _ _ _ H) as (n' & Fn' & E & _ & X). apply enc_inj in E; [|assumption|assumption]. subst n'. exact X. Qed.
Lemma same_name : forall t a b i s x s' x', Wf t -> fits a -> fits b -> look t (enc a) = Some (i, s, x) -> look t (enc b) = Some (i, s', x') -> a = b.
Proof. intros t a b i s x s' x' W Fa Fb Ha Hb. apply enc_inj; try assumption. eapply look_id_inj; eassumption. Qed.
Lemma no_key_fresh : forall d, Good d -> dflt (b_keys d) (new_id (b_ids d)) = None.
Proof.
  intros d G. destruct (dflt (b_keys d) (new_id (b_ids d))) as [m|] eqn:E; [|reflexivity]. exfalso. apply (dflt_look _ _ _ (g_k d G)) in E. destruct E as (i & b & E). destruct (g_key d G _ _ _ _ E) as (k & _ & _ & s' & x' & L). pose proof (look_fresh _ _ _ _ _ (g_i d G) L). lia.
Qed.
Lemma no_cert_fresh : forall d, Good d -> dflt (b_certs d) (new_id (b_keys d)) = None.
Proof.
  intros d G. destruct (dflt (b_certs d) (new_id (b_keys d))) as [m|] eqn:E; [|reflexivity]. exfalso. apply (dflt_look _ _ _ (g_c d G)) in E. destruct E as (i & b & E). destruct (g_cert d G _ _ _ _ E) as (k & _ & _ & _ & s' & x' & L). pose proof (look_fresh _ _ _ _ _ (g_k d G) L). lia.
Qed.
Definition upd {A} (f : name -> A) (n : name) (a : A) (m : name) : A := if name_dec n m then a else f m.

(** ** identities *)
Definition o_ins (i : name) (F : abs) : abs := Abs (upd (a_id F) i true) (match a_def F with Some n => Some n | None => Some i end) (a_bits F) (a_dk F) (a_crt F) (a_dc F).
Definition o_def (i : name) (F : abs) : abs := Abs (a_id F) (Some i) (a_bits F) (a_dk F) (a_crt F) (a_dc F).
Lemma ins_id : forall d F i, View d F -> fits i -> a_id F i = false -> exists d', write (UInsertIdentity (enc i)) d = Some d' /\ View d' (o_ins i F).
Proof.
  intros d F i V Fi Ei. pose proof (v_good d F V) as G. assert (Li : look (b_ids d) (enc i) = None). { rewrite (v_id d F V i Fi) in Ei. destruct (look (b_ids d) (enc i)); [discriminate Ei|reflexivity]. }
  destruct (t_insert_ok (b_ids d) 0 (enc i) [] (g_i d G) Li) as (t & Et & W & L & _ & _ & D). assert (Ew : write (UInsertIdentity (enc i)) d = Some (w_ids d t)) by (cbn [write]; rewrite Et; reflexivity). exists (w_ids d t). split; [exact Ew|].
  assert (G' : Good (w_ids d t)) by (eapply good_write; [exact G| |exact Ew]; exists i; auto). destruct V. constructor; cbn [o_ins w_ids b_ids b_keys b_certs a_id a_def a_bits a_dk a_crt a_dc]; auto.
  - intros n Fn. rewrite L, (enc_eqb i n Fi Fn). unfold upd. destruct (name_dec i n); [reflexivity|auto].
  - rewrite D, <- v_def0. destruct (a_def F); reflexivity.
  - intros n. destruct (a_def F) as [m|]; [auto|intros [= <-]; exact Fi].
  - intros j Fj. rewrite (v_dk0 j Fj). unfold below. rewrite L, (enc_eqb i j Fi Fj). destruct (name_dec i j) as [<-|N]; [|reflexivity]. rewrite Li, (no_key_fresh d G). reflexivity.
Qed.
Lemma def_id_ok : forall d F i, View d F -> fits i -> a_id F i = true -> exists d', write (UDefaultIdentity (enc i)) d = Some d' /\ View d' (o_def i F).
Proof.
  intros d F i V Fi Ei. pose proof (v_good d F V) as G. destruct (t_mark_ok (b_ids d) (enc i) (g_i d G)) as (W & L & _ & _ & D). eexists. split; [reflexivity|]. assert (G' : Good (w_ids d (t_mark (b_ids d) (enc i)))) by (apply (good_write (UDefaultIdentity (enc i)) d); [exact G|exact Logic.I|reflexivity]).
  rewrite (v_id d F V i Fi) in Ei. destruct (look (b_ids d) (enc i)) as [[[x s] b]|] eqn:Li; [|discriminate Ei]. destruct (g_id d G _ _ _ _ Li) as [-> _].
  destruct V. constructor; cbn [o_def w_ids b_ids b_keys b_certs a_id a_def a_bits a_dk a_crt a_dc]; auto.
  - intros n Fn. rewrite L. auto.
  - rewrite D. reflexivity.
  - intros n [= <-]. exact Fi.
  - intros j Fj. rewrite (v_dk0 j Fj). unfold below. rewrite L. reflexivity.
Qed.
(** ** keys *)
Definition or_first {A} (o : option A) (a : A) : option A := match o with Some x => Some x | None => Some a end.
Definition o_key (k : name) (b : bytes) (F : abs) : abs := Abs (a_id F) (a_def F) (upd (a_bits F) k (Some b)) (upd (a_dk F) (owner k) (or_first (a_dk F (owner k)) k)) (a_crt F) (a_dc F).
Definition o_bits (k : name) (b : bytes) (F : abs) : abs := Abs (a_id F) (a_def F) (upd (a_bits F) k (Some b)) (a_dk F) (a_crt F) (a_dc F).
Definition o_dk (k : name) (F : abs) : abs := Abs (a_id F) (a_def F) (a_bits F) (upd (a_dk F) (owner k) (Some k)) (a_crt F) (a_dc F).
Lemma ins_key : forall d F k b, View d F -> fits k -> a_id F (owner k) = true -> a_bits F k = None -> exists d', write (UInsertKey (enc (owner k)) (enc k) b) d = Some d' /\ View d' (o_key k b F).
Proof.
  intros d F k b V Fk Ei Ek. pose proof (v_good d F V) as G. pose proof (owner_fits k Fk) as Fo. assert (Lk : look (b_keys d) (enc k) = None) by (apply third_none; rewrite <- (v_bits d F V k Fk); exact Ek).
  rewrite (v_id d F V _ Fo) in Ei. destruct (look (b_ids d) (enc (owner k))) as [[[s s0] x0]|] eqn:Lo; [|discriminate Ei].
  destruct (t_insert_ok (b_keys d) s (enc k) b (g_k d G) Lk) as (t & Et & W & L & _ & _ & D). assert (Ew : write (UInsertKey (enc (owner k)) (enc k) b) d = Some (w_keys d t)) by (cbn [write]; rewrite t_id_look, Lo, Et; reflexivity). exists (w_keys d t). split; [exact Ew|].
  assert (G' : Good (w_keys d t)) by (eapply good_write; [exact G| |exact Ew]; exists k; auto). pose proof (g_i d G) as Wi. destruct V. constructor; cbn [o_key w_keys b_ids b_keys b_certs a_id a_def a_bits a_dk a_crt a_dc]; auto.
  - intros n Fn. rewrite L, (enc_eqb k n Fk Fn). unfold upd. destruct (name_dec k n); [reflexivity|auto].
  - intros j Fj. unfold below, upd. destruct (look (b_ids d) (enc j)) as [[[x sx] bx]|] eqn:Lj.
    + rewrite D. specialize (v_dk0 j Fj) as Vj. unfold below in Vj. rewrite Lj in Vj. rewrite <- Vj. destruct (name_dec (owner k) j) as [<-|N].
      * rewrite Lo in Lj. injection Lj as -> _ _. rewrite Z.eqb_refl. destruct (a_dk F (owner k)); reflexivity.
      * destruct (Z.eqb_spec s x) as [-> |Nx]; [exfalso; apply N; eapply same_name; [exact Wi|assumption|assumption|exact Lo|exact Lj]|]. destruct (a_dk F j); reflexivity.
    + destruct (name_dec (owner k) j) as [<-|N]; [congruence|]. rewrite (v_dk0 j Fj). unfold below. rewrite Lj. reflexivity.
  - intros i k' Fi. unfold upd. destruct (name_dec (owner k) i) as [<-|N]; [|apply v_dkf0, Fi]. unfold or_first. destruct (a_dk F (owner k)) eqn:E; intros [= <-]; [eapply v_dkf0; eassumption|exact Fk].
  - intros m Fm. rewrite (v_dc0 m Fm). unfold below. rewrite L, (enc_eqb k m Fk Fm). destruct (name_dec k m) as [<-|N]; [|reflexivity]. rewrite Lk, (no_cert_fresh d G). reflexivity.
Qed.
Lemma set_bits : forall d F k b, View d F -> fits k -> a_bits F k <> None -> exists d', write (USetKey (enc k) b) d = Some d' /\ View d' (o_bits k b F).
Proof.
  intros d F k b V Fk Ek. pose proof (v_good d F V) as G. destruct (t_update_ok (b_keys d) (enc k) b (g_k d G)) as (W & _ & _ & L & D). eexists. split; [reflexivity|]. assert (G' : Good (w_keys d (t_update (b_keys d) (enc k) b))) by (apply (good_write (USetKey (enc k) b) d); [exact G|exact Logic.I|reflexivity]).
  destruct V. constructor; cbn [o_bits w_keys b_ids b_keys b_certs a_id a_def a_bits a_dk a_crt a_dc]; auto.
  - intros n Fn. rewrite L, (enc_eqb k n Fk Fn). unfold upd. destruct (name_dec k n) as [<-|N].
    + rewrite (v_bits0 k Fk) in Ek. destruct (look (b_keys d) (enc k)) as [[[x s] y]|]; [reflexivity|exfalso; apply Ek; reflexivity].
    + rewrite (v_bits0 n Fn). destruct (look (b_keys d) (enc n)) as [[[x s] y]|]; reflexivity.
  - intros i Fi. rewrite (v_dk0 i Fi). unfold below. destruct (look (b_ids d) (enc i)) as [[[x s] y]|]; [|reflexivity]. rewrite D. reflexivity.
  - intros m Fm. rewrite (v_dc0 m Fm). unfold below. rewrite L. destruct (look (b_keys d) (enc m)) as [[[x s] y]|]; reflexivity.
Qed.
Lemma def_key_ok : forall d F k, View d F -> fits k -> a_bits F k <> None -> exists d', write (UDefaultKey (enc k)) d = Some d' /\ View d' (o_dk k F).
Proof.
  intros d F k V Fk Ek. pose proof (v_good d F V) as G. destruct (t_mark_ok (b_keys d) (enc k) (g_k d G)) as (W & L & _ & _ & D). eexists. split; [reflexivity|]. assert (G' : Good (w_keys d (t_mark (b_keys d) (enc k)))) by (apply (good_write (UDefaultKey (enc k)) d); [exact G|exact Logic.I|reflexivity]).
  rewrite (v_bits d F V k Fk) in Ek. destruct (look (b_keys d) (enc k)) as [[[x s] y]|] eqn:Lk; [|cbn in Ek; congruence]. destruct (key_row d k _ _ _ G Fk Lk) as (s' & x' & Lo). pose proof (g_i d G) as Wi. pose proof (owner_fits k Fk) as Fo.
  destruct V. constructor; cbn [o_dk w_keys b_ids b_keys b_certs a_id a_def a_bits a_dk a_crt a_dc]; auto.
  - intros n Fn. rewrite L. auto.
  - intros j Fj. unfold below, upd. destruct (look (b_ids d) (enc j)) as [[[xj sj] bj]|] eqn:Lj.
    + rewrite D. destruct (name_dec (owner k) j) as [<-|N].
      * rewrite Lo in Lj. injection Lj as -> _ _. rewrite Z.eqb_refl. reflexivity.
      * destruct (Z.eqb_spec s xj) as [-> |Nx]; [exfalso; apply N; eapply same_name; [exact Wi|assumption|assumption|exact Lo|exact Lj]|]. rewrite (v_dk0 j Fj). unfold below. rewrite Lj. reflexivity.
    + destruct (name_dec (owner k) j) as [<-|N]; [congruence|]. rewrite (v_dk0 j Fj). unfold below. rewrite Lj. reflexivity.
  - intros i k' Fi. unfold upd. destruct (name_dec (owner k) i) as [<-|N]; [intros [= <-]; exact Fk|apply v_dkf0, Fi].
  - intros m Fm. rewrite (v_dc0 m Fm). unfold below. rewrite L. reflexivity.
Qed.
(** ** certificates *)
Definition o_cert (c : data) (F : abs) : abs := Abs (a_id F) (a_def F) (a_bits F) (a_dk F) (upd (a_crt F) (d_name c) (Some c)) (upd (a_dc F) (owner (d_name c)) (or_first (a_dc F (owner (d_name c))) (d_name c))).
Definition o_data (c : data) (F : abs) : abs := Abs (a_id F) (a_def F) (a_bits F) (a_dk F) (upd (a_crt F) (d_name c) (Some c)) (a_dc F).
Definition o_dc (n : name) (F : abs) : abs := Abs (a_id F) (a_def F) (a_bits F) (a_dk F) (a_crt F) (upd (a_dc F) (owner n) (Some n)).
Lemma dmap_none : forall d F n, View d F -> fits n -> a_crt F n = None <-> look (b_certs d) (enc n) = None.
Proof. intros d F n V Fn. pose proof (v_crt d F V n Fn) as E. split; intros H; rewrite H in E; [symmetry in E; apply third_none, E|]. destruct (a_crt F n); [discriminate E|reflexivity]. Qed.
Lemma ins_cert : forall d F c, View d F -> storable c -> x_check c = Ok tt -> a_bits F (owner (d_name c)) <> None -> a_crt F (d_name c) = None ->
  exists d', write (UInsertCert (enc (owner (d_name c))) (enc (d_name c)) (data_bytes c)) d = Some d' /\ View d' (o_cert c F).
Proof.
  intros d F c V Sc Kc Ek Ec. pose proof (v_good d F V) as G. pose proof (proj1 Sc) as Fn. set (n := d_name c) in *. pose proof (owner_fits n Fn) as Fo. assert (Lc : look (b_certs d) (enc n) = None) by (apply (dmap_none d F n V Fn); exact Ec).
  rewrite (v_bits d F V _ Fo) in Ek. destruct (look (b_keys d) (enc (owner n))) as [[[s s0] x0]|] eqn:Lo; [|cbn in Ek; congruence].
  destruct (t_insert_ok (b_certs d) s (enc n) (data_bytes c) (g_c d G) Lc) as (t & Et & W & L & _ & _ & D). assert (Ew : write (UInsertCert (enc (owner n)) (enc n) (data_bytes c)) d = Some (w_certs d t)) by (cbn [write]; rewrite t_id_look, Lo, Et; reflexivity). exists (w_certs d t). split; [exact Ew|].
  assert (G' : Good (w_certs d t)) by (eapply good_write; [exact G| |exact Ew]; exists n; repeat (split; [solve [auto]|]); apply kept_of; assumption). pose proof (g_k d G) as Wk. destruct V. constructor; cbn [o_cert w_certs b_ids b_keys b_certs a_id a_def a_bits a_dk a_crt a_dc]; auto.
  - intros m Fm. rewrite L, (enc_eqb n m Fn Fm). unfold upd. fold n. destruct (name_dec n m); [reflexivity|auto].
  - intros m c' Fm. unfold upd. fold n. destruct (name_dec n m) as [<-|N]; [intros [= <-]; auto|apply v_crtf0, Fm].
  - intros j Fj. unfold below, upd. fold n. destruct (look (b_keys d) (enc j)) as [[[x sx] bx]|] eqn:Lj.
    + rewrite D. specialize (v_dc0 j Fj) as Vj. unfold below in Vj. rewrite Lj in Vj. rewrite <- Vj. destruct (name_dec (owner n) j) as [<-|N].
      * rewrite Lo in Lj. injection Lj as -> _ _. rewrite Z.eqb_refl. destruct (a_dc F (owner n)); reflexivity.
      * destruct (Z.eqb_spec s x) as [-> |Nx]; [exfalso; apply N; eapply same_name; [exact Wk|assumption|assumption|exact Lo|exact Lj]|]. destruct (a_dc F j); reflexivity.
    + destruct (name_dec (owner n) j) as [<-|N]; [congruence|]. rewrite (v_dc0 j Fj). unfold below. rewrite Lj. reflexivity.
  - intros i k' Fi. unfold upd. fold n. destruct (name_dec (owner n) i) as [<-|N]; [|apply v_dcf0, Fi]. unfold or_first. destruct (a_dc F (owner n)) eqn:E; intros [= <-]; [eapply v_dcf0; eassumption|exact Fn].
Qed.
Lemma set_cert : forall d F c, View d F -> storable c -> x_check c = Ok tt -> a_crt F (d_name c) <> None -> exists d', write (USetCert (enc (d_name c)) (data_bytes c)) d = Some d' /\ View d' (o_data c F).
Proof.
  intros d F c V Sc Kc Ec. pose proof (v_good d F V) as G. pose proof (proj1 Sc) as Fn. set (n := d_name c) in *. destruct (t_update_ok (b_certs d) (enc n) (data_bytes c) (g_c d G)) as (W & _ & _ & L & D). eexists. split; [reflexivity|].
  assert (G' : Good (w_certs d (t_update (b_certs d) (enc n) (data_bytes c)))) by (apply (good_write (USetCert (enc n) (data_bytes c)) d); [exact G| |reflexivity]; exists n; repeat (split; [solve [auto]|]); apply kept_of; assumption).
  assert (Lc : look (b_certs d) (enc n) <> None) by (intros X; apply (dmap_none d F n V Fn) in X; contradiction).
  destruct V. constructor; cbn [o_data w_certs b_ids b_keys b_certs a_id a_def a_bits a_dk a_crt a_dc]; auto.
  - intros m Fm. rewrite L, (enc_eqb n m Fn Fm). unfold upd. fold n. destruct (name_dec n m) as [<-|N].
    + destruct (look (b_certs d) (enc n)) as [[[x s] y]|]; [reflexivity|congruence].
    + rewrite (v_crt0 m Fm). destruct (look (b_certs d) (enc m)) as [[[x s] y]|]; reflexivity.
  - intros m c' Fm. unfold upd. fold n. destruct (name_dec n m) as [<-|N]; [intros [= <-]; auto|apply v_crtf0, Fm].
  - intros m Fm. rewrite (v_dc0 m Fm). unfold below. destruct (look (b_keys d) (enc m)) as [[[x s] y]|]; [|reflexivity]. rewrite D. reflexivity.
Qed.
Lemma def_cert_ok : forall d F n, View d F -> fits n -> a_crt F n <> None -> exists d', write (UDefaultCert (enc n)) d = Some d' /\ View d' (o_dc n F).
Proof.
  intros d F k V Fk Ek. pose proof (v_good d F V) as G. destruct (t_mark_ok (b_certs d) (enc k) (g_c d G)) as (W & L & _ & _ & D). eexists. split; [reflexivity|]. assert (G' : Good (w_certs d (t_mark (b_certs d) (enc k)))) by (apply (good_write (UDefaultCert (enc k)) d); [exact G|exact Logic.I|reflexivity]).
  assert (Lc : look (b_certs d) (enc k) <> None) by (intros X; apply (dmap_none d F k V Fk) in X; contradiction).
  destruct (look (b_certs d) (enc k)) as [[[x s] y]|] eqn:Lk; [|congruence]. destruct (cert_row d k _ _ _ G Fk Lk) as (s' & x' & Lo). pose proof (g_k d G) as Wi. pose proof (owner_fits k Fk) as Fo.
  destruct V. constructor; cbn [SqlProofs2.o_dc w_certs b_ids b_keys b_certs a_id a_def a_bits a_dk a_crt a_dc]; auto.
  - intros n Fn. rewrite L. auto.
  - intros j Fj. unfold below, upd. destruct (look (b_keys d) (enc j)) as [[[xj sj] bj]|] eqn:Lj.
    + rewrite D. destruct (name_dec (owner k) j) as [<-|N].
      * rewrite Lo in Lj. injection Lj as -> _ _. rewrite Z.eqb_refl. reflexivity.
      * destruct (Z.eqb_spec s xj) as [-> |Nx]; [exfalso; apply N; eapply same_name; [exact Wi|assumption|assumption|exact Lo|exact Lj]|]. rewrite (v_dc0 j Fj). unfold below. rewrite Lj. reflexivity.
    + destruct (name_dec (owner k) j) as [<-|N]; [congruence|]. rewrite (v_dc0 j Fj). unfold below. rewrite Lj. reflexivity.
  - intros i k' Fi. unfold upd. destruct (name_dec (owner k) i) as [<-|N]; [intros [= <-]; exact Fk|apply v_dcf0, Fi].
Qed.
(** ** DELETE *)
Definition o_dropc (n : name) (F : abs) : abs := Abs (a_id F) (a_def F) (a_bits F) (a_dk F) (upd (a_crt F) n None) (fun k => match a_dc F k with Some m => if name_dec n m then None else Some m | None => None end).
Lemma emap_drop : forall n o, fits n -> (forall m, o = Some m -> fits m) -> emap (match o with Some m => if name_dec n m then None else Some m | None => None end) = match emap o with Some b => if zlist_eqb (enc n) b then None else Some b | None => None end.
Proof. intros n [m|] Fn H; [|reflexivity]. cbn [emap]. rewrite (enc_eqb n m Fn (H m eq_refl)). destruct (name_dec n m); reflexivity. Qed.
Lemma drop_cert : forall d F n, View d F -> fits n -> exists d', write (UDeleteCert (enc n)) d = Some d' /\ View d' (o_dropc n F).
Proof.
  intros d F n V Fn. pose proof (v_good d F V) as G. destruct (delete_named (b_certs d) (enc n) (g_c d G)) as (W & L & D). eexists. split; [reflexivity|]. assert (G' : Good (w_certs d (t_delete (named (enc n)) (b_certs d)))) by (apply (good_write (UDeleteCert (enc n)) d); [exact G|exact Logic.I|reflexivity]).
  destruct V. constructor; cbn [o_dropc w_certs b_ids b_keys b_certs a_id a_def a_bits a_dk a_crt a_dc]; auto.
  - intros m Fm. rewrite L, (enc_eqb n m Fn Fm). unfold upd. destruct (name_dec n m); [reflexivity|auto].
  - intros m c Fm. unfold upd. destruct (name_dec n m); [discriminate|apply v_crtf0, Fm].
  - intros k Fk. rewrite emap_drop by (try assumption; intros; eapply v_dcf0; eassumption). rewrite (v_dc0 k Fk). unfold below. destruct (look (b_keys d) (enc k)) as [[[x s] y]|]; [rewrite D|]; reflexivity.
  - intros k m Fk. destruct (a_dc F k) as [m'|] eqn:E; [|discriminate]. destruct (name_dec n m'); intros [= <-]. eapply v_dcf0; eassumption.
Qed.
Definition o_dropk (k : name) (F : abs) : abs := Abs (a_id F) (a_def F) (upd (a_bits F) k None) (fun i => match a_dk F i with Some m => if name_dec k m then None else Some m | None => None end)
  (fun n => if name_dec (owner n) k then None else a_crt F n) (upd (a_dc F) k None).
Lemma drop_key : forall d F k, View d F -> fits k -> exists d', write (UDeleteKey (enc k)) d = Some d' /\ View d' (o_dropk k F).
Proof.
  intros d F k V Fk. pose proof (v_good d F V) as G. destruct (delete_named (b_keys d) (enc k) (g_k d G)) as (W & L & D). eexists. split; [reflexivity|]. pose proof (good_drop_named d (enc k) G) as G'.
  set (g := map r_id (filter (named (enc k)) (b_keys d))) in *. assert (Hg : forall i, has_id g i = match look (b_keys d) (enc k) with Some (j, _, _) => j =? i | None => false end) by (intros i; apply gone_named, G). destruct (delete_scope (b_certs d) g (g_c d G)) as (_ & Lc & Dc).
  assert (Ec : forall n i s b, fits n -> look (b_certs d) (enc n) = Some (i, s, b) -> has_id g s = if name_dec (owner n) k then true else false).
  { intros n i s b Fn Ln. destruct (cert_row d n _ _ _ G Fn Ln) as (s' & x' & Lo). rewrite Hg. destruct (name_dec (owner n) k) as [<-|N]; [rewrite Lo; apply Z.eqb_refl|]. destruct (look (b_keys d) (enc k)) as [[[j sj] xj]|] eqn:Lk; [|reflexivity]. destruct (Z.eqb_spec j s) as [-> |]; [|reflexivity]. exfalso. apply N. eapply same_name; [apply (g_k d G)|apply owner_fits, Fn|exact Fk|exact Lo|exact Lk]. }
  destruct V. constructor; cbn [o_dropk drop_keys drop_certs b_ids b_keys b_certs a_id a_def a_bits a_dk a_crt a_dc]; fold g; auto.
  - intros m Fm. rewrite L, (enc_eqb k m Fk Fm). unfold upd. destruct (name_dec k m); [reflexivity|auto].
  - intros i Fi. rewrite emap_drop by (try assumption; intros; eapply v_dkf0; eassumption). rewrite (v_dk0 i Fi). unfold below. destruct (look (b_ids d) (enc i)) as [[[x s] y]|]; [rewrite D|]; reflexivity.
  - intros i m Fi. destruct (a_dk F i) as [m'|] eqn:E; [|discriminate]. destruct (name_dec k m'); intros [= <-]. eapply v_dkf0; eassumption.
  - intros n Fn. unfold drop_certs. rewrite Lc. specialize (v_crt0 n Fn). destruct (look (b_certs d) (enc n)) as [[[i s] b]|] eqn:Ln.
    + rewrite (Ec n _ _ _ Fn Ln). destruct (name_dec (owner n) k); [reflexivity|exact v_crt0].
    + destruct (name_dec (owner n) k); [reflexivity|exact v_crt0].
  - intros n c Fn. destruct (name_dec (owner n) k); [discriminate|apply v_crtf0, Fn].
  - intros m Fm. unfold below. rewrite L, (enc_eqb k m Fk Fm). unfold upd. destruct (name_dec k m) as [<-|N]; [reflexivity|]. rewrite (v_dc0 m Fm). unfold below. destruct (look (b_keys d) (enc m)) as [[[x s] y]|] eqn:Lm; [|reflexivity]. unfold drop_certs. rewrite Dc, Hg. destruct (look (b_keys d) (enc k)) as [[[j sj] xj]|] eqn:Lk; [|reflexivity]. destruct (Z.eqb_spec j x) as [-> |]; [|reflexivity]. exfalso. apply N. eapply same_name; [apply (g_k d G)|exact Fk|exact Fm|exact Lk|exact Lm].
  - intros m n Fm. unfold upd. destruct (name_dec k m); [discriminate|apply v_dcf0, Fm].
Qed.
Definition o_dropi (i : name) (F : abs) : abs := Abs (upd (a_id F) i false) (match a_def F with Some m => if name_dec i m then None else Some m | None => None end)
  (fun k => if name_dec (owner k) i then None else a_bits F k) (upd (a_dk F) i None)
  (fun n => if name_dec (owner (owner n)) i then None else a_crt F n) (fun k => if name_dec (owner k) i then None else a_dc F k).
Lemma drop_id : forall d F i, View d F -> fits i -> exists d', write (UDeleteIdentity (enc i)) d = Some d' /\ View d' (o_dropi i F).
Proof.
  intros d F i V Fi. pose proof (v_good d F V) as G. destruct (delete_named (b_ids d) (enc i) (g_i d G)) as (W & L & D). eexists. split; [reflexivity|]. pose proof (good_drop_id d (enc i) G) as G'.
  set (g := map r_id (filter (named (enc i)) (b_ids d))) in *. assert (Hg : forall x, has_id g x = match look (b_ids d) (enc i) with Some (j, _, _) => j =? x | None => false end) by (intros x; apply gone_named, G). destruct (delete_scope (b_keys d) g (g_k d G)) as (_ & Lk & Dk).
  set (gk := map r_id (filter (fun r => has_id g (r_scope r)) (b_keys d))) in *. destruct (delete_scope (b_certs d) gk (g_c d G)) as (_ & Lc & Dc).
  assert (Hi : forall j x s b, fits j -> look (b_ids d) (enc j) = Some (x, s, b) -> has_id g x = if name_dec j i then true else false).
  { intros j x s b Fj Lj. rewrite Hg. destruct (name_dec j i) as [<-|N]; [rewrite Lj; apply Z.eqb_refl|]. destruct (look (b_ids d) (enc i)) as [[[y sy] by_]|] eqn:Li; [|reflexivity]. destruct (Z.eqb_spec y x) as [-> |]; [|reflexivity]. exfalso. apply N. eapply same_name; [apply (g_i d G)|exact Fj|exact Fi|exact Lj|exact Li]. }
  assert (Hk : forall k x s b, fits k -> look (b_keys d) (enc k) = Some (x, s, b) -> has_id g s = if name_dec (owner k) i then true else false).
  { intros k x s b Fk Lkk. destruct (key_row d k _ _ _ G Fk Lkk) as (s' & x' & Lo). eapply Hi; [apply owner_fits, Fk|exact Lo]. }
  assert (Hgk : forall k x s b, fits k -> look (b_keys d) (enc k) = Some (x, s, b) -> has_id gk x = if name_dec (owner k) i then true else false).
  { intros k x s b Fk Lkk. rewrite <- (Hk k x s b Fk Lkk). unfold gk. destruct (has_id g s) eqn:E.
    - apply (gone_scope _ _ _ (g_k d G)). eauto.
    - destruct (has_id _ x) eqn:E'; [|reflexivity]. apply (gone_scope _ _ _ (g_k d G)) in E'. destruct E' as (b' & s' & x' & Lb & Es). assert (b' = enc k) by (eapply look_id_inj; [apply (g_k d G)|exact Lb|exact Lkk]). subst b'. rewrite Lkk in Lb. injection Lb as <- <-. congruence. }
  destruct V. constructor; cbn [write o_dropi drop_ids drop_keys drop_certs b_ids b_keys b_certs a_id a_def a_bits a_dk a_crt a_dc]; fold g; fold gk; auto.
  - intros m Fm. rewrite L, (enc_eqb i m Fi Fm). unfold upd. destruct (name_dec i m); [reflexivity|auto].
  - rewrite D, <- v_def0. apply emap_drop; assumption.
  - intros m. destruct (a_def F) as [m'|] eqn:E; [|discriminate]. destruct (name_dec i m'); intros [= <-]. apply v_deff0. reflexivity.
  - intros k Fk. rewrite Lk. rewrite (v_bits0 k Fk). destruct (look (b_keys d) (enc k)) as [[[x s] b]|] eqn:E.
    + rewrite (Hk k _ _ _ Fk E). destruct (name_dec (owner k) i); reflexivity.
    + destruct (name_dec (owner k) i); reflexivity.
  - intros j Fj. unfold below. rewrite L, (enc_eqb i j Fi Fj). unfold upd. destruct (name_dec i j) as [<-|N]; [reflexivity|]. rewrite (v_dk0 j Fj). unfold below. destruct (look (b_ids d) (enc j)) as [[[x s] b]|] eqn:E; [|reflexivity]. rewrite Dk, (Hi j _ _ _ Fj E). destruct (name_dec j i); [congruence|reflexivity].
  - intros j k Fj. unfold upd. destruct (name_dec i j); [discriminate|apply v_dkf0, Fj].
  - intros n Fn. unfold drop_certs. rewrite Lc. specialize (v_crt0 n Fn). destruct (look (b_certs d) (enc n)) as [[[x s] b]|] eqn:E.
    + destruct (cert_row d n _ _ _ G Fn E) as (s' & x' & Lo). rewrite (Hgk (owner n) _ _ _ (owner_fits n Fn) Lo). destruct (name_dec (owner (owner n)) i); [reflexivity|exact v_crt0].
    + destruct (name_dec (owner (owner n)) i); [reflexivity|exact v_crt0].
  - intros n c Fn. destruct (name_dec (owner (owner n)) i); [discriminate|apply v_crtf0, Fn].
  - intros k Fk. unfold below. rewrite Lk. specialize (v_dc0 k Fk). unfold below in v_dc0. destruct (look (b_keys d) (enc k)) as [[[x s] b]|] eqn:E.
    + rewrite (Hk k _ _ _ Fk E). destruct (name_dec (owner k) i) as [Eo|No]; [reflexivity|]. unfold drop_certs. rewrite Dc, (Hgk k _ _ _ Fk E). destruct (name_dec (owner k) i); [contradiction|exact v_dc0].
    + destruct (name_dec (owner k) i); [reflexivity|exact v_dc0].
  - intros k n Fk. destruct (name_dec (owner k) i); [discriminate|apply v_dcf0, Fk].
Qed.
Definition o_clear : abs := Abs (fun _ => false) None (fun _ => None) (fun _ => None) (fun _ => None) (fun _ => None).
Lemma view_empty : forall d, Good d -> b_ids d = [] -> View d o_clear.
Proof.
  intros d G E. assert (K : forall b, look (b_keys d) b = None). { intros b. destruct (look (b_keys d) b) as [[[i s] x]|] eqn:L; [|reflexivity]. destruct (g_key d G _ _ _ _ L) as (k & _ & _ & s' & x' & X). rewrite E in X. discriminate X. }
  assert (C : forall b, look (b_certs d) b = None). { intros b. destruct (look (b_certs d) b) as [[[i s] x]|] eqn:L; [|reflexivity]. destruct (g_cert d G _ _ _ _ L) as (k & _ & _ & _ & s' & x' & X). rewrite K in X. discriminate X. }
  constructor; cbn [o_clear a_id a_def a_bits a_dk a_crt a_dc]; auto; try discriminate.
  - intros n _. rewrite E. reflexivity.
  - rewrite E. reflexivity.
  - intros k _. rewrite K. reflexivity.
  - intros i _. unfold below. rewrite E. reflexivity.
  - intros n _. rewrite C. reflexivity.
  - intros k _. unfold below. rewrite K. reflexivity.
Qed.
Lemma clear_ok : forall d F, View d F -> exists d', write UDeleteIdentities d = Some d' /\ View d' o_clear.
Proof. intros d F V. eexists. split; [reflexivity|]. apply view_empty; [apply good_drop_all, V|]. cbn [write drop_ids drop_keys b_ids]. apply delete_all. Qed.
