(** * The consumer: what one step does *)
From Verif Require Import Base BaseLemmas NameModel NameProofs NameProps DictModel WireModel CtlModel EncrModel ConsModel ConsSpec.
From Verif Require TlvModel.
From Coq Require Import Lia.

(** ** Names *)
Lemma zl_refl : forall a, zlist_eqb a a = true.
Proof. intros a. apply zlist_eqb_eq. reflexivity. Qed.
Lemma c_equals_iff : forall a b, c_equals a b = true <-> c_value a = c_value b /\ c_type a = c_type b /\ (c_type a = CT_OTHER -> c_other a = c_other b).
Proof.
  intros a b. unfold c_equals, blob_equals. destruct (Z.eqb_spec (c_type a) CT_OTHER) as [E|E]; rewrite !Bool.andb_true_iff, zlist_eqb_eq, !Z.eqb_eq.
  - split; [intros [[H1 H2] H3]; repeat split; auto; congruence|intros (H1 & H2 & H3); repeat split; auto; congruence].
  - split; [intros [H1 H2]; split; [exact H1|split; [exact H2|intros H; destruct (E H)]]|intros (H1 & H2 & _); auto].
Qed.
Lemma c_eq_refl : forall a, c_equals a a = true.
Proof. intros a. apply c_equals_iff. auto. Qed.
Lemma c_eq_sym : forall a b, c_equals a b = true -> c_equals b a = true.
Proof. intros a b H. apply c_equals_iff in H. apply c_equals_iff. destruct H as (H1 & H2 & H3). repeat split; auto. intros H. symmetry. apply H3. congruence. Qed.
Lemma c_eq_trans : forall a b c, c_equals a b = true -> c_equals b c = true -> c_equals a c = true.
Proof.
  intros a b c H H'. apply c_equals_iff in H. apply c_equals_iff in H'. apply c_equals_iff. destruct H as (H1 & H2 & H3), H' as (H4 & H5 & H6).
  repeat split; try congruence. intros H. rewrite H3 by exact H. apply H6. congruence.
Qed.
Lemma alike_refl : forall a, alike a a.
Proof. unfold alike. induction a as [|x a IH]; cbn [n_equals]; [reflexivity|]. rewrite IH, c_eq_refl. reflexivity. Qed.
Lemma alike_sym : forall a b, alike a b -> alike b a.
Proof.
  unfold alike. induction a as [|x a IH]; intros [|y b]; cbn [n_equals]; auto. intros H. apply Bool.andb_true_iff in H as [H1 H2].
  rewrite (IH _ H1), (c_eq_sym _ _ H2). reflexivity.
Qed.
Lemma alike_trans : forall a b c, alike a b -> alike b c -> alike a c.
Proof.
  unfold alike. induction a as [|x a IH]; intros [|y b] [|z c]; cbn [n_equals]; auto; try (intros H H'; (discriminate H || discriminate H')).
  intros H H'. apply Bool.andb_true_iff in H as [H1 H2]. apply Bool.andb_true_iff in H' as [H3 H4]. rewrite (IH _ _ H1 H3), (c_eq_trans _ _ _ H2 H4). reflexivity.
Qed.

(** ** Dictionaries of names *)
Lemma dget_alike : forall V (d : dict name V) n v, dget n_equals d n = Some v -> exists n', In (n', v) d /\ alike n' n.
Proof.
  intros V d n v. induction d as [|[k x] d IH]; cbn [dget]; [discriminate|]. destruct (n_equals k n) eqn:E; intros H.
  - injection H as ->. exists k. split; [left; reflexivity|exact E].
  - destruct (IH H) as (n' & I & A). exists n'. split; [right; exact I|exact A].
Qed.
Lemma dset_in : forall V (d : dict name V) n v k x, In (k, x) (dset n_equals d n v) -> In (k, x) d \/ alike n k /\ x = v.
Proof.
  intros V d n v k x. induction d as [|[k0 x0] d IH]; cbn [dset]; intros H.
  - destruct H as [H|[]]. injection H as <- <-. right. split; [apply alike_refl|reflexivity].
  - destruct (n_equals k0 n) eqn:E.
    + destruct H as [H|H]; [injection H as <- <-; right; split; [apply alike_sym; exact E|reflexivity]|left; right; exact H].
    + destruct H as [H|H]; [left; left; exact H|]. destruct (IH H) as [I|I]; [left; right; exact I|right; exact I].
Qed.
Lemma dset_keeps : forall V (d : dict name V) n v k, din n_equals d k = true -> din n_equals (dset n_equals d n v) k = true.
Proof.
  intros V d n v k. unfold din. induction d as [|[k0 x0] d IH]; cbn [dset dget]; [discriminate|]. destruct (n_equals k0 n) eqn:E; cbn [dget]; destruct (n_equals k0 k); auto.
Qed.
Lemma dset_has : forall V (d : dict name V) n v k, alike n k -> din n_equals (dset n_equals d n v) k = true.
Proof.
  intros V d n v k A. unfold din. induction d as [|[k0 x0] d IH]; cbn [dset dget]; [unfold alike in A; rewrite A; reflexivity|].
  destruct (n_equals k0 n) eqn:E; cbn [dget].
  - rewrite (alike_trans _ _ _ E A : n_equals k0 k = true). reflexivity.
  - destruct (n_equals k0 k); [reflexivity|exact IH].
Qed.
Lemma din_alike : forall V (d : dict name V) n k, alike n k -> din n_equals d n = true -> din n_equals d k = true.
Proof.
  intros V d n k A. unfold din. induction d as [|[k0 x0] d IH]; cbn [dget]; [auto|]. destruct (n_equals k0 n) eqn:E.
  - rewrite (alike_trans _ _ _ E A : n_equals k0 k = true). auto.
  - destruct (n_equals k0 k); auto.
Qed.

(** ** The D-KEY name *)
Lemma list_tail3 : forall A (n : list A), (2 < length n)%nat -> exists m x a b, n = m ++ [x; a; b].
Proof.
  intros A n H. destruct n as [|x0 n0] using rev_ind; [cbn in H; lia|]. destruct n0 as [|x1 n1] using rev_ind; [cbn in H; lia|].
  destruct n1 as [|x2 n2] using rev_ind; [cbn in H; lia|]. exists n2, x2, x1, x0. rewrite <- !app_assoc. reflexivity.
Qed.
Lemma dkey_of_long : forall m x a b, dkey_of (m ++ [x; a; b]) = Ok (m ++ [N_D_KEY; a; b]).
Proof.
  intros m x a b. unfold dkey_of. set (n := m ++ [x; a; b]). assert (L : zlen n = zlen m + 3) by (unfold n; zlia). pose proof (zlen_nonneg _ m) as Q.
  rewrite n_getPrefix_ok. rewrite C10_getSubName_rest by lia. change (-3 <? 0) with true. change (-2 <? 0) with true. cbv iota zeta. cbn [rbind]. f_equal. rewrite L.
  replace (Z.to_nat (zlen m + 3 + -3)) with (length m) by (unfold zlen; lia). replace (Z.to_nat (zlen m + 3 + -2)) with (length m + 1)%nat by (unfold zlen; lia).
  unfold n. rewrite firstn_app, firstn_all, Nat.sub_diag. cbn [firstn]. rewrite app_nil_r.
  rewrite skipn_app, skipn_all2 by lia. replace (length m + 1 - length m)%nat with 1%nat by lia. cbn [skipn app]. rewrite <- app_assoc. reflexivity.
Qed.
Lemma dkey_of_ok : forall n, match dkey_of n with Ok dn => dkey_name n dn | Err _ => n = [] end.
Proof.
  intros n. destruct (le_lt_dec (length n) 2) as [H|H].
  - destruct n as [|a [|b [|c n]]]; [| | |cbn in H; lia].
    + reflexivity.
    + apply (D_one a).
    + apply (D_two a b).
  - destruct (list_tail3 _ n H) as (m & x & a & b & ->). rewrite dkey_of_long. apply D_long.
Qed.

(** ** Histories that grow *)
Lemma some_mono : forall l m P, sometime l P -> sometime (l ++ m) P.
Proof. intros l m P (l1 & l2 & -> & H). exists l1, (l2 ++ m). rewrite app_assoc. auto. Qed.
Lemma ver_mono : forall l m i d, verified l i d -> verified (l ++ m) i d.
Proof. intros l m i d [H|H]; [left|right]; apply in_or_app; auto. Qed.
Lemma rej_mono : forall l m i d, rejected l i d -> rejected (l ++ m) i d.
Proof. intros l m i d [H|H]; [left|right]; apply in_or_app; auto. Qed.
Lemma holds_fun : forall d e e', holds d e -> holds d e' -> e = e'.
Proof. intros d e e' (w & H1 & H2) (w' & H3 & H4). congruence. Qed.

Section Consumer.
Variable rsa_dec : bytes -> bytes -> res bytes.
Variable aes_dec : bytes -> bytes -> bytes -> res bytes.
Variable refuses : name -> option bytes -> bool.
Variable consumerName : name.
Variables cKeyLink dKeyLink : option bytes.
Variable group : name.
Variable db : dict bytes bytes.
Notation content_of := (content_of).
Notation group_of := (group_of group).
Notation keys_of := (keys_of consumerName db).
Notation decrypts := (decrypts rsa_dec aes_dec).
Notation ckey_packet := (ckey_packet group).
Notation dkey_packet := (dkey_packet consumerName).
Notation dkey_from := (dkey_from rsa_dec aes_dec consumerName db).
Notation ckey_from := (ckey_from rsa_dec aes_dec consumerName group db).
Notation interest_ok := (interest_ok consumerName cKeyLink dKeyLink group).
Notation tried := (tried rsa_dec aes_dec consumerName group db).
Notation cause := (cause rsa_dec aes_dec refuses consumerName cKeyLink dKeyLink group db).
Notation bad := (bad rsa_dec aes_dec).

Lemma content_mono : forall l m c d e, content_of l c d e -> content_of (l ++ m) c d e.
Proof. intros l m c d e (i & V & C & S & I & H). exists i. split; [apply ver_mono; exact V|]. repeat split; auto. apply in_or_app. auto. Qed.
Lemma cpk_mono : forall l m n e, ckey_packet l n e -> ckey_packet (l ++ m) n e.
Proof. intros l m n e (i & d & d0 & e0 & V & S1 & S2 & S & H). exists i, d, d0, e0. split; [apply ver_mono; exact V|]. split; [exact S1|]. split; [exact S2|]. split; [apply some_mono; exact S|exact H]. Qed.
Lemma dpk_mono : forall l m n w e, dkey_packet l n w e -> dkey_packet (l ++ m) n w e.
Proof. intros l m n w e (i & d & d0 & e0 & e2 & V & S). exists i, d, d0, e0, e2. split; [apply ver_mono; exact V|exact S]. Qed.
Lemma dk_mono : forall l m n k, dkey_from l n k -> dkey_from (l ++ m) n k.
Proof.
  intros l m n k (w & e3 & key & nonce & rest & e4 & H1 & H2 & H3). exists w, e3, key, nonce, rest, e4. split; [apply dpk_mono; exact H1|].
  split; [apply some_mono; exact H2|exact H3].
Qed.
Lemma ck_mono : forall l m n k, ckey_from l n k -> ckey_from (l ++ m) n k.
Proof.
  intros l m n k (e2 & dn & dn' & dk & H1 & H2 & H3 & H4 & H5). exists e2, dn, dn', dk. split; [apply cpk_mono; exact H1|]. split; [exact H2|]. split; [exact H3|]. split; [apply dk_mono; exact H4|exact H5].
Qed.
Lemma int_mono : forall l m i, interest_ok l i -> interest_ok (l ++ m) i.
Proof.
  intros l m i. unfold ConsSpec.interest_ok. destruct (i_stage i); intros H.
  - apply in_or_app. auto.
  - destruct H as (H1 & H2 & H3). split; [apply content_mono; exact H1|]. split; [apply some_mono; exact H2|exact H3].
  - destruct H as (H1 & H2 & H3). split; [apply content_mono; exact H1|]. split; [apply cpk_mono; exact H2|exact H3].
Qed.
Lemma tried_mono : forall l m c e k, tried l c e k -> tried (l ++ m) c e k.
Proof.
  intros l m c e k H. destruct H.
  - eapply T_content; [apply content_mono; eassumption|apply ck_mono; eassumption|assumption].
  - eapply T_ckey; [apply cpk_mono; eassumption|eassumption|eassumption|apply dk_mono; eassumption].
  - eapply T_nonce; [apply dpk_mono; eassumption|apply some_mono; assumption].
  - eapply T_dkey; [apply dpk_mono; eassumption|apply some_mono; match goal with H : sometime _ _ |- _ => exact H end|eassumption..].
Qed.
Lemma cause_mono : forall l m c n, cause l c n -> cause (l ++ m) c n.
Proof.
  intros l m c n H. assert (I : forall x : cevent, In x l -> In x (l ++ m)) by (intros x Hx; apply in_or_app; auto). destruct H.
  - eapply W_invalid; [apply rej_mono; eassumption|assumption].
  - eapply W_nack; [apply I; eassumption|assumption].
  - eapply (W_timeout _ _ _ _ _ _ _ _ _ _ i); [apply I; assumption|apply I; assumption|assumption|assumption].
  - eapply W_refused; [eassumption|eassumption|apply int_mono; assumption].
  - eapply W_raised; [apply I; eassumption|assumption].
  - eapply W_malformed; [apply ver_mono; eassumption|assumption|assumption].
  - eapply W_one_part; [apply ver_mono; eassumption|eassumption..].
  - eapply W_no_key; [apply ver_mono; eassumption|assumption|assumption|eassumption|apply some_mono; assumption].
  - eapply W_decrypt; [apply tried_mono; eassumption|assumption].
Qed.
Lemma silent_mono : forall l m c, silent l c -> silent (l ++ m) c.
Proof. intros l m c H. destruct H; [eapply S_no_name|eapply S_rest|eapply S_again]; try (apply ver_mono; eassumption); eassumption. Qed.

(** ** What is claimed of each action *)
Definition just (l : list cevent) (a : cact) : Prop :=
  match a with
  | CExpress i => interest_ok l i
  | CWait i d => True
  | CComplete c d m => exists e n k, content_of l c d e /\ ckey_from l n k /\ alike n (key_of e) /\ decrypts e k m
  | CError c code => cause l c code
  | CLogged c => silent l c
  end.
Lemma just_mono : forall l m a, just l a -> just (l ++ m) a.
Proof.
  intros l m [i|i d|c d x|c n|c]; cbn [just]; intros H; [apply int_mono; exact H|exact I| |apply cause_mono; exact H|apply silent_mono; exact H].
  destruct H as (e & n & k & H1 & H2 & H3). exists e, n, k. split; [apply content_mono; exact H1|]. split; [apply ck_mono; exact H2|exact H3].
Qed.

(** ** The steps *)
Lemma decrypt_cases : forall e key k call p (Q : cons * res unit -> Prop), ec_payload e <> None ->
  (forall m, decrypts e key m -> Q (k m p)) ->
  (forall code, bad e key code -> Q (fail call code p)) ->
  Q (decrypt rsa_dec aes_dec e key k call p).
Proof.
  intros e key k call p Q Hp H1 H2. unfold decrypt. destruct (ec_payload e) as [c|] eqn:Ep; [|destruct (Hp eq_refl)].
  destruct (ec_algorithm e) as [a|] eqn:Ea.
  2: { apply H2. left. rewrite Ea. repeat split; discriminate. }
  unfold ALG_AES_CBC, ALG_RSA_OAEP. destruct (Z.eqb_spec a 1) as [->|N1].
  - destruct (ec_iv e) as [iv|] eqn:Ei.
    + destruct (aes_dec key iv c) as [m|x] eqn:E.
      * apply H1. exists c. split; [exact Ep|]. left. exists iv. auto.
      * apply H2. right. split; [left; exact Ea|]. split; [|reflexivity]. intros m (c' & E1 & [(iv' & E2 & E3 & E4)|(E2 & E3)]); congruence.
    + apply H2. right. split; [left; exact Ea|]. split; [|reflexivity]. intros m (c' & E1 & [(iv' & E2 & E3 & E4)|(E2 & E3)]); congruence.
  - destruct (Z.eqb_spec a 3) as [->|N3].
    + destruct (rsa_dec key c) as [m|x] eqn:E.
      * apply H1. exists c. split; [exact Ep|]. right. auto.
      * apply H2. right. split; [right; exact Ea|]. split; [|reflexivity]. intros m (c' & E1 & [(iv' & E2 & E3 & E4)|(E2 & E3)]); congruence.
    + apply H2. left. rewrite Ea. repeat split; congruence.
Qed.
Lemma decoded_payload : forall w e, decodeEncryptedContent w = Ok e -> ec_payload e <> None.
Proof.
  intros w e H. unfold decodeEncryptedContent in H. destruct (dec_ec w 0) as [[e' o]|x] eqn:E; cbn [rbind fst] in H; [|discriminate H]. injection H as <-.
  unfold dec_ec, TlvModel.dbind in E. repeat match type of E with context [match ?x with _ => _ end] => destruct x; try discriminate E end.
  unfold TlvModel.dret in E. injection E as <- <-. discriminate.
Qed.

(** The state [p] in a history: before the event it was [l0], and with it it is [l]. *)
Variables l0 lr : list cevent.
Let l := l0 ++ lr.
Definition known (p : cons) : Prop :=
  cs_group p = group_of l0 /\ (forall w, dget zlist_eqb (cs_db p) w = keys_of l0 w) /\
  (forall n k, In (n, k) (cs_ckeys p) -> exists n', alike n' n /\ ckey_from l n' k) /\
  (forall n k, In (n, k) (cs_dkeys p) -> exists n', alike n' n /\ dkey_from l n' k).
Definition call_of (a : cact) : Z := match a with CExpress i => i_call i | CWait i _ => i_call i | CComplete c _ _ => c | CError c _ => c | CLogged c => c end.
Definition same_db (p p' : cons) : Prop := cs_group p' = cs_group p /\ cs_db p' = cs_db p /\ forall n, din n_equals (cs_ckeys p) n = true -> din n_equals (cs_ckeys p') n = true.
(** [lv]: the level of the packet *)
Definition post (c lv : Z) (p : cons) (x : cons * res unit) : Prop :=
  known (fst x) /\ same_db p (fst x) /\
  ((snd x = Ok tt /\ exists a, cs_outs (fst x) = cs_outs p ++ [a] /\ just l a /\ call_of a = c /\
      match a with
      | CExpress i => lv < level (i_stage i) /\ i_trials i = 1 /\ (forall d e, i_stage i = ForCKey d e -> i_name i = with_for (key_of e) (cs_group p))
      | CWait _ _ => False
      | CComplete _ d _ => forall e, holds d e -> din n_equals (cs_ckeys (fst x)) (key_of e) = true
      | _ => True
      end) \/
   (exists y, snd x = Err y /\ cs_outs (fst x) = cs_outs p /\ silent l c)).
Lemma here : forall P : list cevent -> Prop, P l0 -> sometime l P.
Proof. intros P H. exists l0, lr. split; [reflexivity|exact H]. Qed.
Lemma same_refl : forall p, same_db p p.
Proof. intros p. repeat split; auto. Qed.
Lemma same_tr : forall p q r, same_db p q -> same_db q r -> same_db p r.
Proof. intros p q r (A1 & A2 & A3) (B1 & B2 & B3). repeat split; try congruence. auto. Qed.

Lemma fail_post : forall c lv code p, known p -> cause l c code -> post c lv p (fail c code p).
Proof.
  intros c lv code p K W. unfold post, fail, cemit. cbn [fst snd cs_outs]. split; [exact K|]. split; [repeat split; auto|]. left. split; [reflexivity|].
  exists (CError c code). repeat split; auto.
Qed.
Lemma send_post : forall lv i p, known p -> lv < level (i_stage i) -> i_trials i = 1 -> interest_ok l i -> (forall d e, i_stage i = ForCKey d e -> i_name i = with_for (key_of e) (cs_group p)) ->
  post (i_call i) lv p (sendInterest refuses i p).
Proof.
  intros lv i p K L T W N. unfold sendInterest. destruct (refuses (i_name i) (i_link i)) eqn:E; [apply fail_post; [exact K|]; eapply W_refused; eauto|].
  unfold post, cemit. cbn [fst snd cs_outs]. split; [exact K|]. split; [repeat split; auto|]. left. split; [reflexivity|]. exists (CExpress i). repeat split; auto.
Qed.
(** Decrypting the content *)
Lemma content_post : forall lv c d e k p n, known p -> content_of l c d e -> ckey_from l n k -> alike n (key_of e) -> din n_equals (cs_ckeys p) (key_of e) = true ->
  post c lv p (decrypt rsa_dec aes_dec e k (onPlain c d) c p).
Proof.
  intros lv c d e k p n K C F A D. pose proof C as (i & _ & _ & _ & _ & H). pose proof H as (w & _ & Hw).
  apply decrypt_cases; [apply (decoded_payload _ _ Hw)| |].
  - intros m Dm. unfold post, onPlain, cemit. cbn [fst snd cs_outs cs_ckeys]. split; [exact K|]. split; [repeat split; auto|]. left. split; [reflexivity|].
    exists (CComplete c d m). split; [reflexivity|]. split; [exists e, n, k; auto|]. split; [reflexivity|]. intros e' H'. rewrite (holds_fun _ _ _ H' H). exact D.
  - intros code B. apply fail_post; [exact K|]. eapply W_decrypt; [|exact B]. eapply T_content; eauto.
Qed.
Lemma onCKey_post : forall lv c d e k p, known p -> content_of l c d e -> ckey_from l (key_of e) k -> post c lv p (onCKey rsa_dec aes_dec c d e k p).
Proof.
  intros lv c d e k p K C F. unfold onCKey, cbind, cget, put_ckeys. cbn [fst snd]. fold (key_of e).
  set (q := Cons _ _ _ _ _). assert (S : same_db p q) by (repeat split; cbn; auto; intros n; apply dset_keeps).
  assert (Kq : known q).
  { destruct K as (K1 & K2 & K3 & K4). repeat split; auto. intros n x Hn. apply dset_in in Hn as [Hn|[A ->]]; [auto|]. exists (key_of e). auto. }
  destruct (content_post lv c d e k q (key_of e) Kq C F (alike_refl _)) as (H1 & H2 & H3); [apply dset_has, alike_refl|].
  split; [exact H1|]. split; [apply (same_tr _ _ _ S H2)|exact H3].
Qed.
Lemma ckey_post : forall lv c d e e2 dn dn' k p, known p -> content_of l c d e -> ckey_packet l (key_of e) e2 -> dkey_name (key_of e2) dn -> alike dn dn' -> dkey_from l dn' k ->
  post c lv p (decrypt rsa_dec aes_dec e2 k (onCKey rsa_dec aes_dec c d e) c p).
Proof.
  intros lv c d e e2 dn dn' k p K C P N A F. pose proof P as (i & d2 & d0 & e0 & _ & _ & _ & _ & (w & _ & Hw)). apply decrypt_cases; [apply (decoded_payload _ _ Hw)| |].
  - intros m Dm. apply onCKey_post; [exact K|exact C|]. exists e2, dn, dn', k. auto.
  - intros code B. apply fail_post; [exact K|]. eapply W_decrypt; [|exact B]. eapply T_ckey; eauto.
Qed.
Lemma onDKey_post : forall lv c d e e2 dn k p, known p -> content_of l c d e -> ckey_packet l (key_of e) e2 -> dkey_name (key_of e2) dn -> dkey_from l dn k ->
  post c lv p (onDKey rsa_dec aes_dec c d e e2 dn k p).
Proof.
  intros lv c d e e2 dn k p K C P N F. unfold onDKey, cbind, cget, put_dkeys. cbn [fst snd].
  set (q := Cons _ _ _ _ _). assert (S : same_db p q) by (repeat split; cbn; auto).
  assert (Kq : known q).
  { destruct K as (K1 & K2 & K3 & K4). repeat split; auto. intros n x Hn. apply dset_in in Hn as [Hn|[A ->]]; [auto|]. exists dn. auto. }
  destruct (ckey_post lv c d e e2 dn dn k q Kq C P N (alike_refl _) F) as (H1 & H2 & H3).
  split; [exact H1|]. split; [apply (same_tr _ _ _ S H2)|exact H3].
Qed.

(** A verified packet *)
Lemma wireDecode_cases : forall d (Q : cons * res unit -> Prop) f g, (forall e, holds d e -> Q (f e)) -> (malformed d -> Q g) ->
  Q (match ec_wireDecode (cd_content d) with Err _ => g | Ok e => f e end).
Proof.
  intros d Q f g H1 H2. unfold ec_wireDecode, malformed, holds in *. destruct (cd_content d) as [w|].
  - destruct (decodeEncryptedContent w) as [e|x] eqn:E; [apply H1; eauto|]. apply H2. intros e (w' & E1 & E2). injection E1 as <-. congruence.
  - apply H2. intros e (w' & E1 & E2). discriminate E1.
Qed.
Lemma with_for_eq : forall a b, (a ++ [N_FOR]) ++ b = with_for a b.
Proof. intros a b. unfold with_for. rewrite <- app_assoc. reflexivity. Qed.
Lemma zslice_skipn : forall (w : bytes) n, 0 <= n -> zslice w n (zlen w) = skipn (Z.to_nat n) w.
Proof.
  intros w n H. unfold zslice. destruct (Z.le_gt_cases n (zlen w)) as [L|L].
  - rewrite (Z.min_l n) by lia. rewrite firstn_all2; [reflexivity|]. rewrite skipn_length. unfold zlen in *. lia.
  - rewrite (Z.min_r n) by lia. rewrite !skipn_all2 by (unfold zlen in *; lia). apply firstn_nil.
Qed.
Lemma verified_post : forall i d p, known p -> interest_ok l i -> verified l i d -> post (i_call i) (level (i_stage i)) p (onVerified rsa_dec aes_dec refuses consumerName cKeyLink dKeyLink i d p).
Proof.
  intros i d p K W V. unfold onVerified. unfold ConsSpec.interest_ok in W. destruct (i_stage i) as [|d0 e|d0 e e2 dn] eqn:Ei.
  - (* the content *)
    unfold decryptContent.
    assert (Q : post (i_call i) (level ForContent) p (match ec_wireDecode (cd_content d) with Err _ => fail (i_call i) E_InvalidFormat p
      | Ok e => match dget n_equals (cs_ckeys p) (key_of e) with Some k => decrypt rsa_dec aes_dec e k (onPlain (i_call i) d) (i_call i) p
                | None => sendInterest refuses (CInt (i_call i) ((key_of e ++ [N_FOR]) ++ cs_group p) cKeyLink 1 (ForCKey d e)) p end end)).
    { apply wireDecode_cases.
      - intros e H. assert (C : content_of l (i_call i) d e) by (exists i; auto).
        destruct (dget n_equals (cs_ckeys p) (key_of e)) as [k|] eqn:Ek.
        + destruct (dget_alike _ _ _ _ Ek) as (n & In1 & A). pose proof K as (_ & _ & K3 & _). destruct (K3 _ _ In1) as (n' & A' & F).
          eapply content_post; [exact K|exact C|exact F|exact (alike_trans _ _ _ A' A)|]. unfold din. rewrite Ek. reflexivity.
        + rewrite with_for_eq. apply (send_post (level ForContent) (CInt (i_call i) (with_for (key_of e) (cs_group p)) cKeyLink 1 (ForCKey d e))); [exact K|cbn; lia|reflexivity| |].
          * cbn [ConsSpec.interest_ok i_stage i_call i_name i_link]. split; [exact C|]. split; [|reflexivity]. apply here. destruct K as (-> & _). reflexivity.
          * cbn. intros d1 e1 E. injection E as <- <-. reflexivity.
      - intros M. apply fail_post; [exact K|]. eapply W_malformed; eauto. }
    destruct (ec_wireDecode (cd_content d)) as [e|x]; [|exact Q]. unfold cbind, cget. fold (key_of e). destruct (dget n_equals (cs_ckeys p) (key_of e)); exact Q.
  - (* the C-KEY *)
    destruct W as (C & G & Lk). unfold decryptCKey.
    assert (Q : post (i_call i) (level (ForCKey d0 e)) p (match ec_wireDecode (cd_content d) with Err _ => fail (i_call i) E_InvalidFormat p
      | Ok e2 => match dkey_of (key_of e2) with Err x => (p, Err x) | Ok dn =>
          match dget n_equals (cs_dkeys p) dn with Some k => decrypt rsa_dec aes_dec e2 k (onCKey rsa_dec aes_dec (i_call i) d0 e) (i_call i) p
          | None => sendInterest refuses (CInt (i_call i) ((dn ++ [N_FOR]) ++ consumerName) dKeyLink 1 (ForDKey d0 e e2 dn)) p end end end)).
    { apply wireDecode_cases.
      - intros e2 H. assert (P : ckey_packet l (key_of e) e2) by (exists i, d, d0, e; auto). pose proof (dkey_of_ok (key_of e2)) as D. destruct (dkey_of (key_of e2)) as [dn|x].
        + destruct (dget n_equals (cs_dkeys p) dn) as [k|] eqn:Ek.
          * destruct (dget_alike _ _ _ _ Ek) as (n & In1 & A). pose proof K as (_ & _ & _ & K4). destruct (K4 _ _ In1) as (n' & A' & F).
            eapply ckey_post; [exact K|exact C|exact P|exact D| |exact F]. apply alike_sym. exact (alike_trans _ _ _ A' A).
          * rewrite with_for_eq. apply (send_post (level (ForCKey d0 e)) (CInt (i_call i) (with_for dn consumerName) dKeyLink 1 (ForDKey d0 e e2 dn))); [exact K|cbn; lia|reflexivity| |].
            -- cbn [ConsSpec.interest_ok i_stage i_call i_name i_link]. auto.
            -- cbn. intros d1 e1 E. discriminate E.
        + split; [exact K|]. split; [apply same_refl|]. right. exists x. split; [reflexivity|]. split; [reflexivity|]. eapply S_no_name; [exact V|reflexivity|rewrite Ei; reflexivity|exact H|exact D].
      - intros M. apply fail_post; [exact K|]. eapply W_malformed; eauto. }
    destruct (ec_wireDecode (cd_content d)) as [e2|x]; [|exact Q]. unfold cbind, cget, clift. fold (key_of e2). destruct (dkey_of (key_of e2)) as [dn|x]; [|exact Q].
    destruct (dget n_equals (cs_dkeys p) dn); exact Q.
  - (* the D-KEY *)
    destruct W as (C & P & D & Nm & Lk). unfold decryptDKey.
    destruct (cd_content d) as [w|] eqn:Ed.
    2: { cbn [ec_wireDecode]. apply fail_post; [exact K|]. eapply W_malformed; [exact V|reflexivity|]. intros x (w & E1 & E2). congruence. }
    cbn [ec_wireDecode]. destruct (decodeEncryptedContent w) as [e3|x] eqn:Ew.
    2: { apply fail_post; [exact K|]. eapply W_malformed; [exact V|reflexivity|]. intros e' (w' & E1 & E2). congruence. }
    unfold getKey, cbind, cget, cret, clift. fold (key_of e3).
    assert (Hd : holds d e3) by (exists w; auto). assert (Pk : dkey_packet l dn w e3) by (exists i, d, d0, e, e2; auto).
    assert (Lv : level (i_stage i) = 2) by (rewrite Ei; reflexivity).
    pose proof K as (_ & Kdb & _). specialize (Kdb (encodeName (key_of e3))). rewrite Kdb.
    match goal with |- context [match keys_of l0 (encodeName (key_of e3)) with Some k => k | None => ?y end] => set (ck := match keys_of l0 (encodeName (key_of e3)) with Some k => k | None => y end) end.
    destruct (Z.eqb_spec (zlen ck) 0) as [Z0|Z0]; subst ck.
    { apply fail_post; [exact K|]. eapply W_no_key; [exact V|reflexivity|exact Lv|exact Hd|]. apply here. destruct (keys_of l0 (encodeName (key_of e3))) as [k|]; [|left; reflexivity].
      right. destruct k; [reflexivity|]. rewrite zlen_cons in Z0. pose proof (zlen_nonneg _ k). lia. }
    destruct (keys_of l0 (encodeName (key_of e3))) as [key|] eqn:Ek; [|cbn in Z0; lia].
    assert (Kn : key <> []) by (intros ->; apply Z0; reflexivity).
    assert (Kh : sometime l (fun l1 => keys_of l1 (encodeName (key_of e3)) = Some key)) by (apply here; exact Ek).
    destruct (encodeEncryptedContent e3) as [w3|x] eqn:E3.
    2: { split; [exact K|]. split; [apply same_refl|]. right. exists x. split; [reflexivity|]. split; [reflexivity|]. eapply S_again; [exact V|reflexivity|exact Lv|exact Hd|exact E3]. }
    rewrite zslice_skipn by apply zlen_nonneg. replace (Z.to_nat (zlen w3)) with (length w3) by (unfold zlen; lia). set (rest := skipn (length w3) w).
    assert (Sp : second_part w e3 rest) by (exists w3; auto).
    destruct (Z.eqb_spec (zlen rest) 0) as [R0|R0].
    { apply fail_post; [exact K|]. eapply W_one_part; [exact V|reflexivity|exact Lv|exact Ed|exact Ew|]. destruct rest; [exact Sp|]. rewrite zlen_cons in R0. pose proof (zlen_nonneg _ rest). lia. }
    assert (Rn : rest <> []) by (intros R; apply R0; rewrite R; reflexivity).
    apply decrypt_cases; [apply (decoded_payload _ _ Ew)| |].
    + intros nonce Dn. unfold decryptBlob, cbind, clift. destruct (decodeEncryptedContent rest) as [e4|x] eqn:E4.
      * apply decrypt_cases; [apply (decoded_payload _ _ E4)| |].
        -- intros k Dk. apply onDKey_post; auto. exists w, e3, key, nonce, rest, e4. auto 10.
        -- intros code B. apply fail_post; [exact K|]. eapply W_decrypt; [|exact B]. eapply T_dkey; eauto.
      * split; [exact K|]. split; [apply same_refl|]. right. exists x. split; [reflexivity|]. split; [reflexivity|]. eapply S_rest; [exact V|reflexivity|exact Lv|exact Ed|exact Ew|exact Sp|exact Rn|exact E4].
    + intros code B. apply fail_post; [exact K|]. eapply W_decrypt; [|exact B]. eapply T_nonce; eauto.
Qed.
End Consumer.
