(** * The database keeps its integrity, and shows what it should *)
From Verif Require Import Base BaseLemmas TlvSpec TlvProofs TlvDecProofs NameModel NameSpec WireModel WireSpec WireProofs WireProofs5 WireProps HierModel HierSpec PibModel PibSpec PibProps ChainModel SqlModel SqlSpec SqlTable.

(** ** Encoded names *)
Lemma enc_ok : forall n, fits n -> decodeName (enc n) = Ok n.
Proof. intros n [H L]. apply C08_name_round_trip; assumption. Qed.
Lemma enc_inj : forall a b, fits a -> fits b -> enc a = enc b -> a = b.
Proof. intros a b [Ha La] [Hb _] E. eapply C08_encoding_injective; eassumption. Qed.
Lemma enc_eqb : forall a b, fits a -> fits b -> zlist_eqb (enc a) (enc b) = if name_dec a b then true else false.
Proof. intros a b Ha Hb. destruct (eqb_spec_l (enc a) (enc b)) as [E|E]; destruct (name_dec a b) as [N|N]; try reflexivity; [exfalso; apply N, enc_inj; assumption|subst; congruence]. Qed.
Lemma fits_prefix : forall a b, fits (a ++ b) -> fits a.
Proof.
  intros a b [H L]. pose proof H as H0. unfold name_ok in H. apply Forall_app in H. destruct H as [Ha Hb]. split; [exact Ha|]. unfold encodeName in *. rewrite enc_name_ok in * by assumption. cbn [fst] in *. rewrite app_nil_r in *. rewrite !elems_one' in *.
  unfold name_el in *. rewrite map_app, elems_app in L. cbn [fst snd] in *. rewrite tlv_len in *. unfold hdr in *. rewrite zlen_app in L. set (x := zlen (elems (map comp_el a))) in *. set (y := zlen (elems (map comp_el b))) in *.
  assert (0 <= x) by apply zlen_nonneg. assert (0 <= y) by apply zlen_nonneg. rewrite !varnum_len in * by lia. destruct (Z.ltb_spec x 253), (Z.ltb_spec (x + y) 253); try lia; destruct (Z.ltb_spec x (2 ^ 16)), (Z.ltb_spec (x + y) (2 ^ 16)); try lia; destruct (Z.ltb_spec x (2 ^ 32)), (Z.ltb_spec (x + y) (2 ^ 32)); lia.
Qed.
Lemma owner_fits : forall n, fits n -> fits (owner n).
Proof. intros n H. apply (fits_prefix _ (skipn (length n - 2) n)). unfold owner. rewrite firstn_skipn. exact H. Qed.
Lemma fits_val : forall n, fits n -> Forall c_valid n.
Proof. intros n [H _]. eapply Forall_impl; [|exact H]. intros a Ha. apply Ha. Qed.

(** ** Integrity *)
Definition kept_cert (n : name) (b : bytes) : Prop := exists c, storable c /\ x_check c = Ok tt /\ d_name c = n /\ b = data_bytes c.
Record Good (d : db) : Prop := MkGood {
  g_i : Wf (b_ids d); g_k : Wf (b_keys d); g_c : Wf (b_certs d);
  g_id : forall b i s x, look (b_ids d) b = Some (i, s, x) -> s = 0 /\ exists n, fits n /\ b = enc n;
  g_key : forall b i s x, look (b_keys d) b = Some (i, s, x) -> exists k, fits k /\ b = enc k /\ exists s' x', look (b_ids d) (enc (owner k)) = Some (s, s', x');
  g_cert : forall b i s x, look (b_certs d) b = Some (i, s, x) -> exists n, fits n /\ b = enc n /\ kept_cert n x /\ exists s' x', look (b_keys d) (enc (owner n)) = Some (s, s', x') }.
Lemma look_id_inj : forall t a b i s x s' x', Wf t -> look t a = Some (i, s, x) -> look t b = Some (i, s', x') -> a = b.
Proof. intros t a b i s x s' x' W Ha Hb. apply (look_in _ _ _ _ _ W) in Ha, Hb. destruct Ha as [d Ha], Hb as [d' Hb]. pose proof (nodup_map _ _ r_id t _ _ (w_id t W) Ha Hb eq_refl) as E. injection E as _ E _ _. exact E. Qed.
Lemma look_fresh : forall t b i s x, Wf t -> look t b = Some (i, s, x) -> i < new_id t.
Proof. intros t b i s x W H. apply (look_in _ _ _ _ _ W) in H. destruct H as [df H]. apply (new_id_fresh t _ H). Qed.
Lemma dflt_look : forall t s n, Wf t -> dflt t s = Some n -> exists i b, look t n = Some (i, s, b).
Proof. intros t s n W H. apply (dflt_in _ _ _ W) in H. destruct H as (i & b & I). exists i, b. apply (look_in _ _ _ _ _ W). eauto. Qed.
Lemma gone_named : forall t n i, Wf t -> has_id (map r_id (filter (named n) t)) i = match look t n with Some (j, _, _) => j =? i | None => false end.
Proof. intros t n i W. rewrite (filter_named t n W). unfold look. destruct (find (named n) t) as [r|]; [|reflexivity]. cbn. rewrite Z.eqb_sym. apply orb_false_r. Qed.
Lemma gone_scope : forall t g i, Wf t -> has_id (map r_id (filter (fun r => has_id g (r_scope r)) t)) i = true <-> exists b s x, look t b = Some (i, s, x) /\ has_id g s = true.
Proof.
  intros t g i W. rewrite has_id_in, in_map_iff. split.
  - intros (r & <- & I). apply filter_In in I. destruct I as [I G]. exists (r_name r), (r_scope r), (r_data r). split; [apply look_row; assumption|exact G].
  - intros (b & s & x & L & G). apply (look_in _ _ _ _ _ W) in L. destruct L as [df L]. exists (Row i s b x df). split; [reflexivity|]. apply filter_In. auto.
Qed.
Lemma good_new : Good db_new.
Proof. constructor; try apply wf_nil; intros b i s x H; discriminate H. Qed.

(** The statements that the calls run *)
Definition u_ok (u : update) : Prop :=
  match u with
  | UInsertIdentity b => exists i, fits i /\ b = enc i
  | UInsertKey ib kb _ => exists k, fits k /\ kb = enc k /\ ib = enc (owner k)
  | UInsertCert kb nb w => exists n, fits n /\ nb = enc n /\ kb = enc (owner n) /\ kept_cert n w
  | USetCert nb w => exists n, fits n /\ nb = enc n /\ kept_cert n w
  | _ => True
  end.
Lemma good_drop_keys : forall p d, Good d ->
  Wf (t_delete p (b_keys d)) -> (forall m, look (t_delete p (b_keys d)) m = None \/ look (t_delete p (b_keys d)) m = look (b_keys d) m) ->
  (forall m i s x, look (b_keys d) m = Some (i, s, x) -> look (t_delete p (b_keys d)) m = None -> has_id (map r_id (filter p (b_keys d))) i = true) -> Good (drop_keys p d).
Proof.
  intros p d [G1 G2 G3 G4 G5 G6] W Lk Gn. unfold drop_keys. constructor; cbn [b_ids b_keys b_certs]; auto.
  - unfold drop_certs. apply (delete_scope _ _ G3).
  - intros b i s x H. destruct (Lk b) as [E|E]; rewrite E in H; [discriminate H|]. eauto.
  - intros b i s x H. unfold drop_certs in H. rewrite (proj1 (proj2 (delete_scope _ _ G3))) in H. destruct (look (b_certs d) b) as [[[i0 s0] x0]|] eqn:E; [|discriminate H]. destruct (has_id (map r_id (filter p (b_keys d))) s0) eqn:Es; [discriminate H|]. injection H as -> -> ->.
    destruct (G6 _ _ _ _ E) as (n & Fn & En & Kc & s' & x' & Lo). exists n. split; [exact Fn|]. split; [exact En|]. split; [exact Kc|]. exists s', x'. destruct (Lk (enc (owner n))) as [E'|E']; [|rewrite E'; exact Lo]. rewrite (Gn _ _ _ _ Lo E') in Es. discriminate Es.
Qed.
Lemma good_drop_named : forall d k, Good d -> Good (drop_keys (named k) d).
Proof.
  intros d k G. destruct (delete_named (b_keys d) k (g_k d G)) as (W & L & _). apply good_drop_keys; auto.
  - intros m. rewrite L. destruct (zlist_eqb k m); auto.
  - intros m i s x H E. rewrite L in E. rewrite (gone_named _ _ _ (g_k d G)). destruct (eqb_spec_l k m) as [-> |N]; [rewrite H; apply Z.eqb_refl|congruence].
Qed.
(** removing identities *)
Lemma good_drop_ids : forall p d, Good d -> Wf (t_delete p (b_ids d)) -> (forall m, look (t_delete p (b_ids d)) m = None \/ look (t_delete p (b_ids d)) m = look (b_ids d) m) ->
  (forall m i s x, look (b_ids d) m = Some (i, s, x) -> look (t_delete p (b_ids d)) m = None -> has_id (map r_id (filter p (b_ids d))) i = true) -> Good (drop_ids p d).
Proof.
  intros p d [G1 G2 G3 G4 G5 G6] W Lk Gn. unfold drop_ids. set (g := map r_id (filter p (b_ids d))) in *. destruct (delete_scope (b_keys d) g G2) as (Wk & Lkk & _). unfold drop_keys. cbn [b_tpm b_ids b_keys b_certs]. constructor; cbn [b_ids b_keys b_certs]; auto.
  - unfold drop_certs. apply (delete_scope _ _ G3).
  - intros b i s x H. destruct (Lk b) as [E|E]; rewrite E in H; [discriminate H|]. eauto.
  - intros b i s x H. rewrite Lkk in H. destruct (look (b_keys d) b) as [[[i0 s0] x0]|] eqn:E; [|discriminate H]. destruct (has_id g s0) eqn:Es; [discriminate H|]. injection H as -> -> ->. destruct (G5 _ _ _ _ E) as (k & Fk & Ek & s' & x' & Lo). exists k. split; [exact Fk|]. split; [exact Ek|]. exists s', x'. destruct (Lk (enc (owner k))) as [E'|E']; [|rewrite E'; exact Lo]. rewrite (Gn _ _ _ _ Lo E') in Es. discriminate Es.
  - intros b i s x H. unfold drop_certs in H. rewrite (proj1 (proj2 (delete_scope _ _ G3))) in H. destruct (look (b_certs d) b) as [[[i0 s0] x0]|] eqn:E; [|discriminate H]. destruct (has_id _ s0) eqn:Es in H; [discriminate H|]. injection H as -> -> ->.
    destruct (G6 _ _ _ _ E) as (n & Fn & En & Kc & s' & x' & Lo). exists n. split; [exact Fn|]. split; [exact En|]. split; [exact Kc|]. exists s', x'. rewrite Lkk, Lo. destruct (has_id g s') eqn:Eg; [|reflexivity]. exfalso. assert (X : has_id (map r_id (filter (fun r => has_id g (r_scope r)) (b_keys d))) s = true) by (apply (gone_scope _ _ _ G2); eauto). rewrite X in Es. discriminate Es.
Qed.
Lemma good_drop_id : forall d i, Good d -> Good (drop_ids (named i) d).
Proof.
  intros d k G. destruct (delete_named (b_ids d) k (g_i d G)) as (W & L & _). apply good_drop_ids; auto.
  - intros m. rewrite L. destruct (zlist_eqb k m); auto.
  - intros m i s x H E. rewrite L in E. rewrite (gone_named _ _ _ (g_i d G)). destruct (eqb_spec_l k m) as [-> |N]; [rewrite H; apply Z.eqb_refl|congruence].
Qed.
Lemma good_drop_all : forall d, Good d -> Good (drop_ids (fun _ => true) d).
Proof.
  intros d G. apply good_drop_ids; auto.
  - rewrite delete_all. apply wf_nil.
  - intros m. rewrite delete_all. left. reflexivity.
  - intros m i s x H _. apply has_id_in. apply in_map_iff. apply (look_in _ _ _ _ _ (g_i d G)) in H. destruct H as [df H]. exists (Row i s m x df). split; [reflexivity|]. apply filter_In. auto.
Qed.
Lemma t_id_some : forall t n s, t_id t n = Some s <-> exists s' x, look t n = Some (s, s', x).
Proof. intros t n s. rewrite t_id_look. destruct (look t n) as [[[i s'] x]|]; split; [intros [= <-]; eauto|intros (? & ? & [= -> _ _]); reflexivity|discriminate|intros (? & ? & X); discriminate X]. Qed.
Lemma insert_some : forall t s n b t', t_insert t s n b = Some t' -> look t n = None.
Proof. intros t s n b t' H. destruct (look t n) eqn:E; [|reflexivity]. rewrite t_insert_none in H by congruence. discriminate H. Qed.
(** Every statement keeps the integrity. *)
Lemma good_write : forall u d d', Good d -> u_ok u -> write u d = Some d' -> Good d'.
Proof.
  intros u d d' G U E. pose proof G as [G1 G2 G3 G4 G5 G6]. destruct u; cbn [write u_ok] in *.
  - injection E as <-. constructor; cbn [b_ids b_keys b_certs]; assumption.
  - injection E as <-. constructor; cbn [b_ids b_keys b_certs]; assumption.
  - destruct (t_insert (b_ids d) 0 i []) as [t|] eqn:Ei; [|discriminate E]. injection E as <-. pose proof (insert_some _ _ _ _ _ Ei) as Li. destruct (t_insert_ok (b_ids d) 0 i [] G1 Li) as (t' & Et & W & L & _). rewrite Et in Ei. injection Ei as <-.
    constructor; cbn [w_ids b_ids b_keys b_certs]; auto.
    + intros b i0 s x H. rewrite L in H. destruct (eqb_spec_l i b) as [<-|N]; [injection H as _ <- _; split; [reflexivity|exact U]|eauto].
    + intros b i0 s x H. destruct (G5 _ _ _ _ H) as (k & Fk & Ek & s' & x' & Lo). exists k. split; [exact Fk|]. split; [exact Ek|]. exists s', x'. rewrite L. destruct (eqb_spec_l i (enc (owner k))); [congruence|exact Lo].
  - injection E as <-. apply good_drop_id, G.
  - injection E as <-. apply good_drop_all, G.
  - injection E as <-. destruct (t_mark_ok (b_ids d) i G1) as (W & L & _). constructor; cbn [w_ids b_ids b_keys b_certs]; auto; intros b i0 s x H.
    + rewrite L in H. eauto.
    + destruct (G5 _ _ _ _ H) as (k & Fk & Ek & s' & x' & Lo). exists k. split; [exact Fk|]. split; [exact Ek|]. exists s', x'. rewrite L. exact Lo.
  - destruct (t_id (b_ids d) i) as [s|] eqn:Es; [|discriminate E]. apply t_id_some in Es. destruct Es as (s' & x' & Lo). destruct (t_insert (b_keys d) s k b) as [t|] eqn:Ei; [|discriminate E]. injection E as <-. pose proof (insert_some _ _ _ _ _ Ei) as Li. destruct (t_insert_ok (b_keys d) s k b G2 Li) as (t' & Et & W & L & _). rewrite Et in Ei. injection Ei as <-.
    constructor; cbn [w_keys b_ids b_keys b_certs]; auto.
    + intros b0 i0 s0 x H. rewrite L in H. destruct (eqb_spec_l k b0) as [<-|N]; [|eauto]. injection H as _ <- _. destruct U as (kn & Fk & -> & ->). exists kn. split; [exact Fk|]. split; [reflexivity|]. eauto.
    + intros b0 i0 s0 x H. destruct (G6 _ _ _ _ H) as (n & Fn & En & Kc & s1 & x1 & Lo1). exists n. split; [exact Fn|]. split; [exact En|]. split; [exact Kc|]. exists s1, x1. rewrite L. destruct (eqb_spec_l k (enc (owner n))); [congruence|exact Lo1].
  - injection E as <-. destruct (t_update_ok (b_keys d) k b G2) as (W & _ & _ & L & _). constructor; cbn [w_keys b_ids b_keys b_certs]; auto.
    + intros b0 i0 s0 x H. rewrite L in H. destruct (look (b_keys d) b0) as [[[i1 s1] x1]|] eqn:E; [|discriminate H]. injection H as -> -> _. eauto.
    + intros b0 i0 s0 x H. destruct (G6 _ _ _ _ H) as (n & Fn & En & Kc & s1 & x1 & Lo1). exists n. split; [exact Fn|]. split; [exact En|]. split; [exact Kc|]. eexists. eexists. rewrite L, Lo1. reflexivity.
  - injection E as <-. apply good_drop_named, G.
  - injection E as <-. destruct (t_mark_ok (b_keys d) k G2) as (W & L & _). constructor; cbn [w_keys b_ids b_keys b_certs]; auto.
    + intros b0 i0 s0 x H. rewrite L in H. eauto.
    + intros b0 i0 s0 x H. destruct (G6 _ _ _ _ H) as (n & Fn & En & Kc & s1 & x1 & Lo1). exists n. split; [exact Fn|]. split; [exact En|]. split; [exact Kc|]. exists s1, x1. rewrite L. exact Lo1.
  - destruct (t_id (b_keys d) k) as [s|] eqn:Es; [|discriminate E]. apply t_id_some in Es. destruct Es as (s' & x' & Lo). destruct (t_insert (b_certs d) s n c) as [t|] eqn:Ei; [|discriminate E]. injection E as <-. pose proof (insert_some _ _ _ _ _ Ei) as Li. destruct (t_insert_ok (b_certs d) s n c G3 Li) as (t' & Et & W & L & _). rewrite Et in Ei. injection Ei as <-.
    constructor; cbn [w_certs b_ids b_keys b_certs]; auto. intros b0 i0 s0 x H. rewrite L in H. destruct (eqb_spec_l n b0) as [<-|N]; [|eauto]. injection H as _ <- <-. destruct U as (nn & Fn & -> & -> & Kc). exists nn. split; [exact Fn|]. split; [reflexivity|]. split; [exact Kc|]. eauto.
  - injection E as <-. destruct (t_update_ok (b_certs d) n c G3) as (W & _ & _ & L & _). constructor; cbn [w_certs b_ids b_keys b_certs]; auto. intros b0 i0 s0 x H. rewrite L in H. destruct (look (b_certs d) b0) as [[[i1 s1] x1]|] eqn:E; [|discriminate H]. injection H as -> -> <-. destruct (G6 _ _ _ _ E) as (n0 & Fn & En & Kc & Lo).
    exists n0. split; [exact Fn|]. split; [exact En|]. split; [|exact Lo]. destruct (eqb_spec_l n b0) as [Eq|N]; [|exact Kc]. destruct U as (nn & Fnn & -> & Kc'). assert (nn = n0) by (apply enc_inj; [exact Fnn|exact Fn|congruence]). subst nn. exact Kc'.
  - injection E as <-. destruct (delete_named (b_certs d) n G3) as (W & L & _). constructor; cbn [w_certs b_ids b_keys b_certs]; auto. intros b0 i0 s0 x H. rewrite L in H. destruct (zlist_eqb n b0); [discriminate H|]. eauto.
  - injection E as <-. destruct (t_mark_ok (b_certs d) n G3) as (W & L & _). constructor; cbn [w_certs b_ids b_keys b_certs]; auto. intros b0 i0 s0 x H. rewrite L in H. eauto.
Qed.

(** All statements of a program *)
Inductive issues {A} : prog A -> Prop :=
  | IDone : forall r, issues (Done r)
  | IAsk : forall q k, (forall rows, issues (k rows)) -> issues (Ask q k)
  | IRun : forall u k, u_ok u -> issues k -> issues (Run u k).
Lemma issues_bind : forall A B (p : prog A) (f : A -> prog B), issues p -> (forall a, issues (f a)) -> issues (pbind p f).
Proof. intros A B p f H F. induction H; cbn [pbind]; [destruct r; [apply F|constructor]|constructor; auto|constructor; auto]. Qed.
Lemma issues_do : forall u, u_ok u -> issues (do u).
Proof. intros u H. constructor; [exact H|constructor]. Qed.
Lemma issues_row : forall q, issues (some_row q).
Proof. intros q. constructor. intros rows. constructor. Qed.
Lemma kept_of : forall c, storable c -> x_check c = Ok tt -> kept_cert (d_name c) (data_bytes c).
Proof. intros c S K. exists c. auto. Qed.
Ltac prog_step := match goal with
  | |- issues (pbind _ _) => apply issues_bind; [|intros ?]
  | |- issues (some_row _) => apply issues_row
  | |- issues (do _) => apply issues_do; cbn [u_ok]
  | |- issues (if ?b then _ else _) => destruct b
  | |- issues (give _) => constructor
  | |- issues (stop _) => constructor
  | |- issues (plift _) => constructor
  end.
Lemma issues_addIdentity : forall i, fits i -> issues (p_addIdentity i).
Proof. intros i F. unfold p_addIdentity, p_setDefaultIdentity, p_hasIdentity, p_hasDefaultIdentity. repeat prog_step; eauto. Qed.
Lemma issues_addKey : forall k b, fits k -> issues (p_addKey (owner k) k b).
Proof. intros k b F. unfold p_addKey. prog_step; [apply issues_addIdentity, owner_fits, F|]. unfold p_hasKey, p_hasDefaultKey, p_setDefaultKey, p_hasKey. repeat prog_step; eauto. Qed.
Lemma issues_call : forall o, sql_sane o -> issues (p_call o).
Proof.
  intros o [S F]. destruct o; cbn [sane] in S; cbn [p_call].
  - apply issues_addIdentity, F.
  - apply issues_do. exact Logic.I.
  - apply issues_do. exact Logic.I.
  - unfold p_setDefaultIdentity, p_hasIdentity. repeat prog_step; eauto.
  - destruct S as (_ & _ & kid & ->). pose proof (issues_addKey _ b F) as X. rewrite owner_key in X. exact X.
  - apply issues_do. exact Logic.I.
  - unfold p_setDefaultKey, p_hasKey. repeat prog_step; exact Logic.I.
  - destruct S as (_ & Ac & Kc). destruct (a_cert_owner _ Ac) as (_ & _ & E1 & E2). unfold x_name in *. unfold p_addCertificate. rewrite E1, E2. unfold plift at 1 2. cbn [pbind]. pose proof (proj1 F) as Fn. prog_step; [apply issues_addKey, owner_fits, Fn|].
    rewrite (encodeData_ok c) by apply F. unfold plift. cbn [pbind fst]. unfold p_hasCertificate, p_hasDefaultCert, p_setDefaultCert, p_hasCertificate. pose proof (kept_of c F Kc) as Kk. repeat prog_step; cbn [pbind]; repeat prog_step; eauto 8.
  - apply issues_do. exact Logic.I.
  - unfold p_setDefaultCert, p_hasCertificate. repeat prog_step; exact Logic.I.
Qed.
