(** * What the calls do to what the database shows *)
From Verif Require Import Base BaseLemmas NameModel NameSpec WireModel WireSpec WireProofs5 HierModel HierSpec PibModel PibSpec PibProps ChainModel SqlModel SqlSpec SqlTable SqlProofs SqlProofs2.

(** ** Programs *)
Lemma perform_bind : forall A B (p : prog A) (f : A -> prog B) d, perform (pbind p f) d = match perform p d with (d', Ok a) => perform (f a) d' | (d', Err e) => (d', Err e) end.
Proof. intros A B p f. induction p as [r|q k IH|u k IH]; intros d; cbn [pbind perform]; [destruct r; reflexivity|apply IH|]. destruct (write u d); [apply IH|reflexivity]. Qed.
Lemma crashes_bind : forall A B (p : prog A) (f : A -> prog B) d d1, In d1 (crashes (pbind p f) d) -> In d1 (crashes p d) \/ exists d' a, perform p d = (d', Ok a) /\ In d1 (crashes (f a) d').
Proof.
  intros A B p f. induction p as [r|q k IH|u k IH]; intros d d1; cbn [pbind perform crashes].
  - destruct r as [a|e]; intros H; [right; eauto|left; exact H].
  - intros [H|H]; [left; left; exact H|]. apply IH in H. destruct H as [H|H]; [left; right; exact H|right; exact H].
  - destruct (write u d); intros [H|H]; [left; left; exact H| |left; left; exact H|destruct H]. apply IH in H. destruct H as [H|H]; [left; right; exact H|right; exact H].
Qed.

(** ** Old or new, everywhere *)
(** the default certificate itself *)
Definition dcert (F : abs) (k : name) : option data := match a_dc F k with Some n => a_crt F n | None => None end.
Record btw (F G X : abs) : Prop := MkBtw {
  w_i : forall n, a_id X n = a_id F n \/ a_id X n = a_id G n; w_d : a_def X = a_def F \/ a_def X = a_def G;
  w_b : forall n, a_bits X n = a_bits F n \/ a_bits X n = a_bits G n; w_k : forall n, a_dk X n = a_dk F n \/ a_dk X n = a_dk G n;
  w_c : forall n, a_crt X n = a_crt F n \/ a_crt X n = a_crt G n; w_e : forall n, a_dc X n = a_dc F n \/ a_dc X n = a_dc G n; w_x : forall n, dcert X n = dcert F n \/ dcert X n = dcert G n }.
Record eqv (F G : abs) : Prop := MkEqv {
  e_i : forall n, a_id F n = a_id G n; e_d : a_def F = a_def G; e_b : forall n, a_bits F n = a_bits G n; e_k : forall n, a_dk F n = a_dk G n; e_c : forall n, a_crt F n = a_crt G n; e_e : forall n, a_dc F n = a_dc G n }.
Lemma btw_l : forall F G, btw F G F.
Proof. intros. constructor; auto. Qed.
Lemma btw_r : forall F G, btw F G G.
Proof. intros. constructor; auto. Qed.
Lemma btw_left : forall F G H X, btw F H G -> btw F G X -> btw F H X.
Proof.
  intros F G H X [a1 a2 a3 a4 a5 a6 a7] [b1 b2 b3 b4 b5 b6 b7]. constructor; intros.
  - destruct (b1 n) as [-> | ->]; auto. - destruct b2 as [-> | ->]; auto. - destruct (b3 n) as [-> | ->]; auto. - destruct (b4 n) as [-> | ->]; auto. - destruct (b5 n) as [-> | ->]; auto. - destruct (b6 n) as [-> | ->]; auto. - destruct (b7 n) as [-> | ->]; auto.
Qed.
Lemma btw_right : forall F G H X, btw F H G -> btw G H X -> btw F H X.
Proof.
  intros F G H X [a1 a2 a3 a4 a5 a6 a7] [b1 b2 b3 b4 b5 b6 b7]. constructor; intros.
  - destruct (b1 n) as [-> | ->]; auto. - destruct b2 as [-> | ->]; auto. - destruct (b3 n) as [-> | ->]; auto. - destruct (b4 n) as [-> | ->]; auto. - destruct (b5 n) as [-> | ->]; auto. - destruct (b6 n) as [-> | ->]; auto. - destruct (b7 n) as [-> | ->]; auto.
Qed.
Lemma btw_eqv : forall F G G' X, eqv G G' -> btw F G X -> btw F G' X.
Proof. intros F G G' X [a1 a2 a3 a4 a5 a6] [b1 b2 b3 b4 b5 b6 b7]. constructor; intros; rewrite <- ?a1, <- ?a2, <- ?a3, <- ?a4, <- ?a5, <- ?a6; auto. destruct (b7 n) as [E|E]; [auto|right]. rewrite E. unfold dcert. rewrite a6. destruct (a_dc G' n); [apply a5|reflexivity]. Qed.
Lemma view_eqv : forall d F G, eqv F G -> View d F -> View d G.
Proof.
  intros d F G E V. destruct E as [a1 a2 a3 a4 a5 a6]. destruct V as [v_good0 v_id0 v_def0 v_deff0 v_bits0 v_dk0 v_dkf0 v_crt0 v_crtf0 v_dc0 v_dcf0]. constructor.
  - assumption.
  - intros. rewrite <- a1. auto.
  - rewrite <- a2. assumption.
  - intros n H. apply v_deff0. congruence.
  - intros. rewrite <- a3. auto.
  - intros. rewrite <- a4. auto.
  - intros i k Fi H. apply (v_dkf0 i k Fi). rewrite a4. exact H.
  - intros. rewrite <- a5. auto.
  - intros n c Fn H. apply v_crtf0; [exact Fn|]. rewrite a5. exact H.
  - intros. rewrite <- a6. auto.
  - intros k n Fk H. apply (v_dcf0 k n Fk). rewrite a6. exact H.
Qed.

(** ** The effect of a program *)
Definition Eff {A} (p : prog A) (d : db) (F : abs) (r : res A) (G : abs) : Prop :=
  (exists d', perform p d = (d', r) /\ View d' G) /\ forall d1, In d1 (crashes p d) -> exists X, View d1 X /\ btw F G X.
Lemma eff_done : forall A (r : res A) d F, View d F -> Eff (Done r) d F r F.
Proof. intros A r d F V. split; [exists d; auto|]. intros d1 [<-|[]]. exists F. split; [exact V|apply btw_l]. Qed.
Lemma eff_bind : forall A B (p : prog A) (f : A -> prog B) d F a G r H, Eff p d F (Ok a) G -> btw F H G -> (forall d', View d' G -> Eff (f a) d' G r H) -> Eff (pbind p f) d F r H.
Proof.
  intros A B p f d F a G r H [(d' & Ep & V) C] W K. destruct (K d' V) as [(d2 & Ef & V2) C2]. split.
  - exists d2. split; [|exact V2]. rewrite perform_bind, Ep. exact Ef.
  - intros d1 I. apply crashes_bind in I. destruct I as [I|(d3 & a' & E & I)].
    + destruct (C d1 I) as (X & VX & BX). exists X. split; [exact VX|]. eapply btw_left; eassumption.
    + rewrite Ep in E. injection E as <- <-. destruct (C2 d1 I) as (X & VX & BX). exists X. split; [exact VX|]. eapply btw_right; eassumption.
Qed.
Lemma eff_eqv : forall A (p : prog A) d F r G G', eqv G G' -> Eff p d F r G -> Eff p d F r G'.
Proof. intros A p d F r G G' E [(d' & Ep & V) C]. split; [exists d'; split; [exact Ep|eapply view_eqv; eassumption]|]. intros d1 I. destruct (C d1 I) as (X & VX & BX). exists X. split; [exact VX|eapply btw_eqv; eassumption]. Qed.
Lemma eff_do : forall u d F G, View d F -> (exists d', write u d = Some d' /\ View d' G) -> Eff (do u) d F (Ok tt) G.
Proof.
  intros u d F G V (d' & E & V'). unfold do, give. split; cbn [perform crashes]; rewrite E; [eauto|]. intros d1 [<-|[<-|[]]]; [exists F; split; [exact V|apply btw_l]|exists G; split; [exact V'|apply btw_r]].
Qed.
(** a read *)
Lemma eff_ask : forall A q (k : list bytes -> prog A) d F r G, View d F -> Eff (k (read q d)) d F r G -> Eff (Ask q k) d F r G.
Proof. intros A q k d F r G V [(d' & E & V') C]. split; [exists d'; auto|]. cbn [crashes]. intros d1 [<-|I]; [exists F; split; [exact V|apply btw_l]|apply C, I]. Qed.

(** ** Reads *)
Lemma rows_named : forall t n A (f : row -> A), Wf t -> map f (filter (named n) t) = match find (named n) t with Some r => [f r] | None => [] end.
Proof. intros t n A f W. rewrite filter_named by exact W. destruct (find (named n) t); reflexivity. Qed.
Lemma read_id : forall d F i, View d F -> fits i -> read (QIdentity (enc i)) d = if a_id F i then [enc i] else [].
Proof.
  intros d F i V Fi. cbn [read]. rewrite rows_named by (apply (v_good d F V)). rewrite (v_id d F V i Fi). unfold look. destruct (find (named (enc i)) (b_ids d)) as [r|] eqn:E; [|reflexivity]. apply find_some in E. destruct E as [_ E]. apply zlist_eqb_eq in E. rewrite E. reflexivity.
Qed.
Lemma scope_zero : forall d, Good d -> filter (fun r => r_scope r =? 0) (b_ids d) = b_ids d.
Proof.
  intros d G. assert (H : forall r, In r (b_ids d) -> r_scope r =? 0 = true). { intros r I. apply Z.eqb_eq. exact (proj1 (g_id d G _ _ _ _ (look_row _ r (g_i d G) I))). }
  revert H. induction (b_ids d) as [|r l IH]; intros H; [reflexivity|]. cbn [filter]. rewrite (H r) by (left; reflexivity). f_equal. apply IH. intros x I. apply H. right. exact I.
Qed.
Lemma read_def : forall d F, View d F -> read QDefaultIdentity d = match a_def F with Some n => [enc n] | None => [] end.
Proof. intros d F V. cbn [read]. rewrite <- (scope_zero d (v_good d F V)). rewrite (proj1 (filter_default (b_ids d) 0 (g_i d (v_good d F V)))). rewrite <- (v_def d F V). destruct (a_def F); reflexivity. Qed.
Lemma read_key : forall d F k, View d F -> fits k -> read (QKey (enc k)) d = match a_bits F k with Some _ => [enc k] | None => [] end.
Proof.
  intros d F k V Fk. cbn [read]. rewrite rows_named by (apply (v_good d F V)). rewrite (v_bits d F V k Fk). unfold look. destruct (find (named (enc k)) (b_keys d)) as [r|] eqn:E; [|reflexivity]. apply find_some in E. destruct E as [_ E]. apply zlist_eqb_eq in E. rewrite E. reflexivity.
Qed.
Lemma read_bits : forall d F k, View d F -> fits k -> read (QKeyBits (enc k)) d = match a_bits F k with Some b => [b] | None => [] end.
Proof. intros d F k V Fk. cbn [read]. rewrite rows_named by (apply (v_good d F V)). rewrite (v_bits d F V k Fk). unfold look. destruct (find (named (enc k)) (b_keys d)) as [r|]; reflexivity. Qed.
Lemma read_dk : forall d F i, View d F -> fits i -> read (QDefaultKey (enc i)) d = match a_dk F i with Some k => [enc k] | None => [] end.
Proof.
  intros d F i V Fi. pose proof (v_good d F V) as G. cbn [read]. rewrite joined_ok by apply G. pose proof (v_dk d F V i Fi) as E. unfold below in E. destruct (look (b_ids d) (enc i)) as [[[x s] b]|].
  - rewrite (proj1 (filter_default (b_keys d) x (g_k d G))), <- E. destruct (a_dk F i); reflexivity.
  - destruct (a_dk F i); [discriminate E|reflexivity].
Qed.
Lemma read_cert : forall d F n, View d F -> fits n -> read (QCert (enc n)) d = match a_crt F n with Some _ => [enc n] | None => [] end.
Proof.
  intros d F n V Fn. cbn [read]. rewrite rows_named by (apply (v_good d F V)). pose proof (v_crt d F V n Fn) as E. unfold look in E. destruct (find (named (enc n)) (b_certs d)) as [r|] eqn:Ef.
  - apply find_some in Ef. destruct Ef as [_ Ef]. apply zlist_eqb_eq in Ef. rewrite Ef. destruct (a_crt F n); [reflexivity|discriminate E].
  - destruct (a_crt F n); [discriminate E|reflexivity].
Qed.
Lemma read_cdata : forall d F n, View d F -> fits n -> read (QCertData (enc n)) d = match a_crt F n with Some c => [data_bytes c] | None => [] end.
Proof.
  intros d F n V Fn. cbn [read]. rewrite rows_named by (apply (v_good d F V)). pose proof (v_crt d F V n Fn) as E. unfold look in E. destruct (find (named (enc n)) (b_certs d)) as [r|].
  - cbn in E. destruct (a_crt F n); [injection E as ->; reflexivity|discriminate E].
  - destruct (a_crt F n); [discriminate E|reflexivity].
Qed.
Lemma dc_cert : forall d F k n, View d F -> fits k -> a_dc F k = Some n -> a_crt F n <> None.
Proof.
  intros d F k n V Fk E. pose proof (v_good d F V) as G. pose proof (v_dcf d F V k n Fk E) as Fn. pose proof (v_dc d F V k Fk) as X. rewrite E in X. unfold below in X. destruct (look (b_keys d) (enc k)) as [[[x s] b]|]; [|discriminate X]. symmetry in X. apply (dflt_look _ _ _ (g_c d G)) in X. destruct X as (i & b' & X). intros C. apply (dmap_none d F n V Fn) in C. cbn in X. congruence.
Qed.
Lemma read_dc : forall d F k, View d F -> fits k -> read (QDefaultCert (enc k)) d = match a_dc F k with Some n => match a_crt F n with Some c => [data_bytes c] | None => [] end | None => [] end.
Proof.
  intros d F k V Fk. pose proof (v_good d F V) as G. cbn [read]. rewrite joined_ok by apply G. pose proof (v_dc d F V k Fk) as E. unfold below in E. destruct (look (b_keys d) (enc k)) as [[[x s] b]|].
  - rewrite (proj2 (filter_default (b_certs d) x (g_c d G))), <- E. destruct (a_dc F k) as [n|] eqn:En; [|reflexivity]. cbn [emap]. pose proof (v_crt d F V n (v_dcf d F V k n Fk En)) as C. destruct (look (b_certs d) (enc n)) as [[[x' s'] b']|]; cbn in C; destruct (a_crt F n); try discriminate C; [injection C as ->|]; reflexivity.
  - destruct (a_dc F k); [discriminate E|reflexivity].
Qed.

(** ** Tests *)
Lemma eff_row : forall q d F b, View d F -> match read q d with [] => false | _ => true end = b -> Eff (some_row q) d F (Ok b) F.
Proof. intros q d F b V <-. unfold some_row. apply eff_ask; [exact V|]. apply eff_done, V. Qed.
Lemma eff_hasId : forall d F i, View d F -> fits i -> Eff (p_hasIdentity i) d F (Ok (a_id F i)) F.
Proof. intros d F i V Fi. apply eff_row; [exact V|]. rewrite (read_id d F i V Fi). destruct (a_id F i); reflexivity. Qed.
Lemma eff_hasDef : forall d F, View d F -> Eff p_hasDefaultIdentity d F (Ok (is_some (a_def F))) F.
Proof. intros d F V. apply eff_row; [exact V|]. rewrite (read_def d F V). destruct (a_def F); reflexivity. Qed.
Lemma eff_hasKey : forall d F k, View d F -> fits k -> Eff (p_hasKey k) d F (Ok (is_some (a_bits F k))) F.
Proof. intros d F i V Fi. apply eff_row; [exact V|]. rewrite (read_key d F i V Fi). destruct (a_bits F i); reflexivity. Qed.
Lemma eff_hasDk : forall d F i, View d F -> fits i -> Eff (p_hasDefaultKey i) d F (Ok (is_some (a_dk F i))) F.
Proof. intros d F i V Fi. apply eff_row; [exact V|]. rewrite (read_dk d F i V Fi). destruct (a_dk F i); reflexivity. Qed.
Lemma eff_hasCert : forall d F n, View d F -> fits n -> Eff (p_hasCertificate n) d F (Ok (is_some (a_crt F n))) F.
Proof. intros d F i V Fi. apply eff_row; [exact V|]. rewrite (read_cert d F i V Fi). destruct (a_crt F i); reflexivity. Qed.
Lemma eff_hasDc : forall d F k, View d F -> fits k -> Eff (p_hasDefaultCert k) d F (Ok (is_some (a_dc F k))) F.
Proof. intros d F i V Fi. apply eff_row; [exact V|]. rewrite (read_dc d F i V Fi). destruct (a_dc F i) as [n|] eqn:E; [|reflexivity]. pose proof (dc_cert d F i n V Fi E). destruct (a_crt F n); [reflexivity|congruence]. Qed.

(** ** The calls *)
Definition A_id (i : name) (F : abs) : abs := Abs (upd (a_id F) i true) (or_first (a_def F) i) (a_bits F) (a_dk F) (a_crt F) (a_dc F).
Definition A_def (i : name) (F : abs) : abs := Abs (upd (a_id F) i true) (Some i) (a_bits F) (a_dk F) (a_crt F) (a_dc F).
Definition A_key (k : name) (b : bytes) (F : abs) : abs :=
  Abs (upd (a_id F) (owner k) true) (or_first (a_def F) (owner k)) (upd (a_bits F) k (Some b)) (upd (a_dk F) (owner k) (or_first (a_dk F (owner k)) k)) (a_crt F) (a_dc F).
Definition A_cert (c : data) (F : abs) : abs :=
  let n := d_name c in let k := owner n in
  Abs (upd (a_id F) (owner k) true) (or_first (a_def F) (owner k)) (upd (a_bits F) k (Some (x_content c))) (upd (a_dk F) (owner k) (or_first (a_dk F (owner k)) k))
    (upd (a_crt F) n (Some c)) (upd (a_dc F) k (or_first (a_dc F k) n)).
Definition A_setkey (k : name) (F : abs) : abs := match a_bits F k with Some _ => o_dk k F | None => F end.
Definition A_setcert (n : name) (F : abs) : abs := match a_crt F n with Some _ => o_dc n F | None => F end.
Definition act (o : call data) (F : abs) : abs :=
  match o with
  | AddIdentity i => A_id i F | RemoveIdentity i => o_dropi i F | Clear => o_clear | SetDefaultIdentity i => A_def i F
  | AddKey _ k b => A_key k b F | RemoveKey k => o_dropk k F | SetDefaultKey _ k => A_setkey k F
  | AddCert c => A_cert c F | RemoveCert n => o_dropc n F | SetDefaultCert _ n => A_setcert n F
  end.
Definition act_out (o : call data) (F : abs) : res unit :=
  match o with
  | SetDefaultKey _ k => match a_bits F k with Some _ => Ok tt | None => Err OtherError end
  | SetDefaultCert _ n => match a_crt F n with Some _ => Ok tt | None => Err OtherError end
  | _ => Ok tt
  end.
Ltac pw := constructor; unfold dcert; cbn [A_id A_def A_key A_cert o_ins o_def o_key o_bits o_dk o_cert o_data o_dc a_id a_def a_bits a_dk a_crt a_dc]; unfold upd, or_first; intros;
  repeat match goal with |- context [if name_dec ?a ?b then _ else _] => destruct (name_dec a b); try subst end.
Lemma eff_insid : forall d F i, View d F -> fits i -> a_id F i = false -> Eff (do (UInsertIdentity (enc i))) d F (Ok tt) (o_ins i F).
Proof. intros. apply eff_do; [assumption|]. apply ins_id; assumption. Qed.
Lemma eff_setDefId : forall d F i, View d F -> fits i -> Eff (p_setDefaultIdentity i) d F (Ok tt) (A_def i F).
Proof.
  intros d F i V Fi. unfold p_setDefaultIdentity. eapply eff_bind; [apply eff_hasId; assumption|apply btw_l|]. intros d1 V1. destruct (a_id F i) eqn:Ei.
  - eapply eff_bind; [apply eff_done, V1|apply btw_l|]. intros d2 V2. apply eff_eqv with (G := o_def i F); [pw; auto|]. apply eff_do; [exact V2|]. apply def_id_ok; assumption.
  - eapply eff_bind; [apply eff_insid; assumption| |].
    + pw; auto; destruct (a_def F); auto.
    + intros d2 V2. apply eff_eqv with (G := o_def i (o_ins i F)); [pw; auto|]. apply eff_do; [exact V2|]. apply def_id_ok; [exact V2|exact Fi|]. cbn. unfold upd. destruct (name_dec i i); congruence.
Qed.
Lemma eff_addId : forall d F i, View d F -> fits i -> Eff (p_addIdentity i) d F (Ok tt) (A_id i F).
Proof.
  intros d F i V Fi. unfold p_addIdentity. eapply eff_bind; [apply eff_hasId; assumption|apply btw_l|]. intros d1 V1. destruct (a_id F i) eqn:Ei.
  - eapply eff_bind; [apply eff_done, V1|apply btw_l|]. intros d2 V2. eapply eff_bind; [apply eff_hasDef; exact V2|apply btw_l|]. intros d3 V3. destruct (a_def F) as [m|] eqn:Ed; cbn [is_some].
    + apply eff_eqv with (G := F); [|apply eff_done, V3]. pw; auto; rewrite Ed; reflexivity.
    + apply eff_eqv with (G := A_def i F); [|apply eff_setDefId; assumption]. pw; auto; rewrite Ed; reflexivity.
  - eapply eff_bind; [apply eff_insid; assumption| |].
    + pw; auto; destruct (a_def F); auto.
    + intros d2 V2. eapply eff_bind; [apply eff_hasDef; exact V2| |]; [pw; auto; destruct (a_def F); auto|]. intros d3 V3. replace (is_some (a_def (o_ins i F))) with true by (cbn; destruct (a_def F); reflexivity). apply eff_eqv with (G := o_ins i F); [|apply eff_done, V3]. pw; auto; destruct (a_def F); reflexivity.
Qed.
Lemma eff_setKey : forall d F i k, View d F -> fits k -> Eff (p_setDefaultKey i k) d F (match a_bits F k with Some _ => Ok tt | None => Err OtherError end) (A_setkey k F).
Proof.
  intros d F i k V Fk. unfold p_setDefaultKey, A_setkey. eapply eff_bind; [apply eff_hasKey; assumption|apply btw_l|]. intros d1 V1. destruct (a_bits F k) eqn:E; cbn [is_some].
  - apply eff_do; [exact V1|]. apply def_key_ok; [assumption|assumption|congruence].
  - apply eff_done, V1.
Qed.
Lemma eff_addKey : forall d F k b, View d F -> fits k -> Eff (p_addKey (owner k) k b) d F (Ok tt) (A_key k b F).
Proof.
  intros d F k b V Fk. pose proof (owner_fits k Fk) as Fo. unfold p_addKey. eapply eff_bind; [apply eff_addId; assumption| |]; [pw; auto|]. intros d1 V1. eapply eff_bind; [apply eff_hasKey; assumption|pw; auto|]. intros d2 V2. change (a_bits (A_id (owner k) F) k) with (a_bits F k). destruct (a_bits F k) as [b0|] eqn:Eb; cbn [is_some].
  - eapply eff_bind with (G := o_bits k b (A_id (owner k) F)); [apply eff_do; [exact V2|]; apply set_bits; [exact V2|exact Fk|cbn; congruence]|pw; auto|]. intros d3 V3. eapply eff_bind; [apply eff_hasDk; assumption|pw; auto|]. intros d4 V4. change (a_dk (o_bits k b (A_id (owner k) F)) (owner k)) with (a_dk F (owner k)). destruct (a_dk F (owner k)) as [k0|] eqn:Ek; cbn [is_some].
    + eapply eff_eqv; [|apply eff_done, V4]. pw; auto. rewrite Ek. reflexivity.
    + pose proof (eff_setKey d4 _ (owner k) k V4 Fk) as X. unfold A_setkey in X. assert (Y : a_bits (o_bits k b (A_id (owner k) F)) k = Some b) by (cbn; unfold upd; destruct (name_dec k k); congruence). rewrite Y in X. eapply eff_eqv; [|exact X]. pw; auto. rewrite Ek. reflexivity.
  - eapply eff_bind with (G := o_key k b (A_id (owner k) F)); [apply eff_do; [exact V2|]; apply ins_key; [exact V2|exact Fk| |exact Eb]|pw; auto|]; [cbn; unfold upd; destruct (name_dec (owner k) (owner k)); congruence|]. intros d3 V3. eapply eff_bind; [apply eff_hasDk; assumption|pw; auto|]. intros d4 V4. 
    replace (is_some (a_dk (o_key k b (A_id (owner k) F)) (owner k))) with true by (cbn; unfold upd, or_first; destruct (name_dec (owner k) (owner k)); [destruct (a_dk F (owner k)); reflexivity|congruence]).
    eapply eff_eqv; [|apply eff_done, V4]. pw; auto.
Qed.
Lemma eff_setCert : forall d F k n, View d F -> fits n -> Eff (p_setDefaultCert k n) d F (match a_crt F n with Some _ => Ok tt | None => Err OtherError end) (A_setcert n F).
Proof.
  intros d F i k V Fk. unfold p_setDefaultCert, A_setcert. eapply eff_bind; [apply eff_hasCert; assumption|apply btw_l|]. intros d1 V1. destruct (a_crt F k) eqn:E; cbn [is_some].
  - apply eff_do; [exact V1|]. apply def_cert_ok; [assumption|assumption|congruence].
  - apply eff_done, V1.
Qed.
Ltac fix_dc F := match goal with |- context [match a_dc F ?k with _ => _ end] => destruct (a_dc F k) as [?m|]; auto end.
Lemma eff_addCert : forall d F c, View d F -> storable c -> a_cert (d_name c) -> x_check c = Ok tt -> Eff (p_addCertificate c) d F (Ok tt) (A_cert c F).
Proof.
  intros d F c V Sc Ac Kc. destruct (a_cert_owner _ Ac) as (_ & _ & E1 & E2). unfold p_addCertificate. rewrite E1, E2. unfold plift at 1 2. cbn [pbind]. pose proof (proj1 Sc) as Fn. pose proof (owner_fits _ Fn) as Fk. set (n := d_name c) in *. set (k := owner n) in *.
  eapply eff_bind; [apply eff_addKey; assumption| |]; [subst k n; pw; auto|]. intros d1 V1. eapply eff_bind; [apply eff_hasCert; assumption|subst k n; pw; auto|]. intros d2 V2. rewrite (encodeData_ok c) by apply Sc. unfold plift. cbn [pbind fst]. change (a_crt (A_key k (x_content c) F) n) with (a_crt F n). set (F1 := A_key k (x_content c) F) in *.
  destruct (a_crt F n) as [c0|] eqn:Ec; cbn [is_some].
  - eapply eff_bind with (G := o_data c F1); [apply eff_do; [exact V2|]; apply set_cert; [exact V2|exact Sc|exact Kc|]|subst F1 k n; pw; auto; fix_dc F|]; [change (a_crt F1 (d_name c)) with (a_crt F n); congruence|]. intros d3 V3. eapply eff_bind; [apply eff_hasDc; assumption|subst F1 k n; pw; auto; fix_dc F|]. intros d4 V4. change (a_dc (o_data c F1) k) with (a_dc F k). destruct (a_dc F k) as [m|] eqn:Ek; cbn [is_some].
    + eapply eff_eqv; [|apply eff_done, V4]. subst F1 k n. pw; auto. rewrite Ek. reflexivity.
    + pose proof (eff_setCert d4 _ k n V4 Fn) as X. unfold A_setcert in X. assert (Y : a_crt (o_data c F1) n = Some c) by (cbn; unfold upd; destruct (name_dec (d_name c) n); [reflexivity|contradiction n0; reflexivity]). rewrite Y in X. eapply eff_eqv; [|exact X]. subst F1 k n. pw; auto. rewrite Ek. reflexivity.
  - eapply eff_bind with (G := o_cert c F1); [apply eff_do; [exact V2|]; apply ins_cert; [exact V2|exact Sc|exact Kc| |exact Ec]|subst F1 k n; pw; auto|]; [cbn; unfold upd; destruct (name_dec k (owner (d_name c))); [congruence|contradiction n0; reflexivity]|]. intros d3 V3. eapply eff_bind; [apply eff_hasDc; assumption|subst F1 k n; pw; auto|]. intros d4 V4.
    replace (is_some (a_dc (o_cert c F1) k)) with true by (cbn; unfold upd, or_first; fold n; fold k; destruct (name_dec k k); [destruct (a_dc F k); reflexivity|congruence]).
    eapply eff_eqv; [|apply eff_done, V4]. subst F1 k n. pw; auto.
Qed.
Lemma eff_call : forall o d F, View d F -> sql_sane o -> Eff (p_call o) d F (act_out o F) (act o F).
Proof.
  intros o d F V [S H]. destruct o; cbn [sane] in S; cbn [p_call act act_out].
  - apply eff_addId; assumption.
  - apply eff_do; [exact V|apply drop_id; assumption].
  - apply eff_do; [exact V|eapply clear_ok; eassumption].
  - apply eff_setDefId; assumption.
  - destruct S as (_ & _ & kid & ->). pose proof (eff_addKey d F _ b V H) as X. rewrite owner_key in X. exact X.
  - apply eff_do; [exact V|apply drop_key; assumption].
  - apply eff_setKey; assumption.
  - destruct S as (_ & Ac & Kc). apply eff_addCert; assumption.
  - apply eff_do; [exact V|apply drop_cert; assumption].
  - apply eff_setCert; assumption.
Qed.
(** ** Again after a crash *)
Ltac bt := match goal with
  | H : ?x = _ \/ ?x = _ |- context [?x] => let E := fresh in destruct H as [E|E]; rewrite E; clear E
  end.
Lemma act_again : forall o F X, btw F (act o F) X -> eqv (act o X) (act o F) /\ act_out o X = act_out o F.
Proof.
  intros o F X [b1 b2 b3 b4 b5 b6 _]. destruct o as [i|i| |i|i k b|k|i k|c|q|k q]; cbn [act act_out] in *; cbn [A_id A_def A_key A_cert A_setkey A_setcert o_dropi o_dropk o_dropc o_clear o_ins o_def o_key o_bits o_dk o_cert o_data o_dc a_id a_def a_bits a_dk a_crt a_dc] in *.
  - split; [|reflexivity]. constructor; cbn; auto; intros; unfold upd, or_first in *.
    + specialize (b1 n). destruct (name_dec i n); [reflexivity|]. destruct b1; assumption.
    + destruct b2 as [-> | ->]; destruct (a_def F); reflexivity.
    + destruct (b3 n); assumption. + destruct (b4 n); assumption. + destruct (b5 n); assumption. + destruct (b6 n); assumption.
  - split; [|reflexivity]. constructor; cbn; auto; intros; unfold upd, or_first in *.
    + specialize (b1 n). destruct (name_dec i n); [reflexivity|]. destruct b1; assumption.
    + destruct b2 as [-> | ->]; destruct (a_def F) as [m|]; try reflexivity. destruct (name_dec i m) eqn:E; [reflexivity|]. rewrite E. reflexivity.
    + specialize (b3 n). destruct (name_dec (owner n) i); [reflexivity|]. destruct b3; assumption.
    + specialize (b4 n). destruct (name_dec i n); [reflexivity|]. destruct b4; assumption.
    + specialize (b5 n). destruct (name_dec (owner (owner n)) i); [reflexivity|]. destruct b5; assumption.
    + specialize (b6 n). destruct (name_dec (owner n) i); [reflexivity|]. destruct b6; assumption.
  - split; [|reflexivity]. constructor; reflexivity.
  - split; [|reflexivity]. constructor; cbn; auto; intros; unfold upd, or_first in *.
    + specialize (b1 n). destruct (name_dec i n); [reflexivity|]. destruct b1; assumption.
    + destruct (b3 n); assumption. + destruct (b4 n); assumption. + destruct (b5 n); assumption. + destruct (b6 n); assumption.
  - split; [|reflexivity]. constructor; cbn; auto; intros; unfold upd, or_first in *.
    + specialize (b1 n). destruct (name_dec (owner k) n); [reflexivity|]. destruct b1; assumption.
    + destruct b2 as [-> | ->]; destruct (a_def F); reflexivity.
    + specialize (b3 n). destruct (name_dec k n); [reflexivity|]. destruct b3; assumption.
    + specialize (b4 n). destruct (name_dec (owner k) n) as [<-|N]; [|destruct b4; assumption]. destruct b4 as [-> | ->]; destruct (a_dk F (owner k)); reflexivity.
    + destruct (b5 n); assumption. + destruct (b6 n); assumption.
  - split; [|reflexivity]. constructor; cbn; auto; intros; unfold upd, or_first in *.
    + destruct (b1 n); assumption. + destruct b2; assumption.
    + specialize (b3 n). destruct (name_dec k n); [reflexivity|]. destruct b3; assumption.
    + destruct (b4 n) as [-> | ->]; destruct (a_dk F n) as [m|]; try reflexivity. destruct (name_dec k m) eqn:E; [reflexivity|]. rewrite E. reflexivity.
    + specialize (b5 n). destruct (name_dec (owner n) k); [reflexivity|]. destruct b5; assumption.
    + specialize (b6 n). destruct (name_dec k n); [reflexivity|]. destruct b6; assumption.
  - unfold A_setkey in *. assert (Ek : a_bits X k = a_bits F k) by (specialize (b3 k); destruct (a_bits F k) eqn:E; cbn in b3; destruct b3; congruence). rewrite Ek. split; [|reflexivity]. destruct (a_bits F k) eqn:E.
    + constructor; cbn in *; intros; unfold upd in *; [destruct (b1 n); assumption|destruct b2; assumption|destruct (b3 n); assumption| |destruct (b5 n); assumption|destruct (b6 n); assumption].
      specialize (b4 n). destruct (name_dec (owner k) n); [reflexivity|destruct b4; assumption].
    + constructor; intros; [destruct (b1 n); assumption|destruct b2; assumption|destruct (b3 n); assumption|destruct (b4 n); assumption|destruct (b5 n); assumption|destruct (b6 n); assumption].
  - split; [|reflexivity]. constructor; cbn; auto; intros; unfold upd, or_first in *.
    + specialize (b1 n). destruct (name_dec _ n); [reflexivity|]. destruct b1; assumption.
    + destruct b2 as [-> | ->]; destruct (a_def F); reflexivity.
    + specialize (b3 n). destruct (name_dec _ n); [reflexivity|]. destruct b3; assumption.
    + specialize (b4 n). destruct (name_dec _ n) as [<-|N]; [|destruct b4; assumption]. destruct b4 as [-> | ->]; destruct (a_dk F _); reflexivity.
    + specialize (b5 n). destruct (name_dec _ n); [reflexivity|]. destruct b5; assumption.
    + specialize (b6 n). destruct (name_dec _ n) as [<-|N]; [|destruct b6; assumption]. destruct b6 as [-> | ->]; destruct (a_dc F _); reflexivity.
  - split; [|reflexivity]. constructor; cbn; auto; intros; unfold upd, or_first in *.
    + destruct (b1 n); assumption. + destruct b2; assumption. + destruct (b3 n); assumption. + destruct (b4 n); assumption.
    + specialize (b5 n). destruct (name_dec q n); [reflexivity|]. destruct b5; assumption.
    + destruct (b6 n) as [-> | ->]; destruct (a_dc F n) as [m|]; try reflexivity. destruct (name_dec q m) eqn:E; [reflexivity|]. rewrite E. reflexivity.
  - unfold A_setcert in *. assert (Ek : a_crt X q = a_crt F q) by (specialize (b5 q); destruct (a_crt F q) eqn:E; cbn in b5; destruct b5; congruence). rewrite Ek. split; [|reflexivity]. destruct (a_crt F q) eqn:E.
    + constructor; cbn in *; intros; unfold upd in *; [destruct (b1 n); assumption|destruct b2; assumption|destruct (b3 n); assumption|destruct (b4 n); assumption|destruct (b5 n); assumption|].
      specialize (b6 n). destruct (name_dec (owner q) n); [reflexivity|destruct b6; assumption].
    + constructor; intros; [destruct (b1 n); assumption|destruct b2; assumption|destruct (b3 n); assumption|destruct (b4 n); assumption|destruct (b5 n); assumption|destruct (b6 n); assumption].
Qed.
