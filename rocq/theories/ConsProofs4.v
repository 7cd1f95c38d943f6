(** * The consumer with an honest network *)
From Verif Require Import Base BaseLemmas TlvModel TlvSpec TlvDecProofs NameModel NameSpec NameProofs DictModel WireModel WireSpec WireProofs WireProofs2 WireProofs3 WireProofs4 WireProofs5 CtlModel CtlSpec CtlProofs CtlProps EncrModel GmSpec GmProofs3 ConsModel ConsSpec ConsSpec2 ConsProofs ConsProofs2 ConsProofs3.
From Verif Require ProdProofs WireProps.
From Coq Require Import Lia.

(** ** An EncryptedContent with more bytes after it *)
Lemma decode_prefix : forall e a rest, kl_ok (ec_keyLocator e) -> ec_algorithm e = Some a -> u64 a -> zlen (ec_bytes e) < 2 ^ 64 ->
  decodeEncryptedContent (ec_bytes e ++ rest) = Ok (EC (Some a) (kl_seen (ec_keyLocator e)) (blob_opt (ec_iv e)) (Some (blob_bytes (ec_payload e))) None).
Proof.
  intros e a rest K Ea U L. unfold ec_bytes in *. rewrite Ea in *. cbn [opt_nn app] in *.
  unfold decodeEncryptedContent, dec_ec.
  match type of L with zlen (tlv 130 ?v) < _ => assert (A : At (tlv 130 v ++ rest) 0 (zlen (tlv 130 v)) [(130, v)]) end.
  { split; [apply Forall_cons; [|apply Forall_nil]; cbn [fst snd]; split; [u64c|]; match goal with |- zlen ?v < _ => pose proof (tlv_len_ge 130 v) end; lia|].
    eexists [], rest. rewrite elems_one. split; [reflexivity|]. split; reflexivity. }
  assert (Ty : types_ok (kl_el 28 (ec_keyLocator e) :: (131, nonneg a) :: opt_el 133 (blob_opt (ec_iv e)) ++ [(132, blob_bytes (ec_payload e))])).
  { apply Forall_cons; [u64c|]. apply Forall_cons; [u64c|]. apply types_app; [apply opt_el_types; u64c|apply types_one; u64c]. }
  destruct (At_enter _ _ _ _ _ _ A Ty) as [E A1]. rewrite (dbind_ok _ _ _ _ _ _ _ _ E). clear E.
  destruct (dec_kl_ok _ _ _ _ _ _ K A1) as [E A2]. rewrite (dbind_ok _ _ _ _ _ _ _ _ E). clear E.
  rewrite (dbind_ok _ _ _ _ _ _ _ _ (At_nnTlv _ _ _ _ _ _ U A2)). apply At_next in A2.
  destruct (At_optBlob _ _ _ 133 (blob_opt (ec_iv e)) _ A2) as [E A3]; [apply hdne_cons; lia|]. rewrite (dbind_ok _ _ _ _ _ _ _ _ E). clear E.
  rewrite (dbind_ok _ _ _ _ _ _ _ _ (At_blob _ _ _ _ _ _ A3)). apply At_next in A3.
  rewrite (dbind_ok _ _ _ _ _ _ _ _ (At_finish _ _ _ false A3)). reflexivity.
Qed.
Definition sealed_ec (alg : Z) (n : name) (iv : option bytes) (c : bytes) : encryptedContent := EC (Some alg) (KL (Some 1) n None) iv (Some c) None.
Lemma decode_sealed : forall alg n iv c rest, name_ok n -> u64 alg -> (forall b, iv = Some b -> zlen b = 16) -> zlen (ec_bytes (sealed_ec alg n iv c)) < 2 ^ 64 ->
  decodeEncryptedContent (ec_bytes (sealed_ec alg n iv c) ++ rest) = Ok (sealed_ec alg n iv c) /\ encodeEncryptedContent (sealed_ec alg n iv c) = Ok (ec_bytes (sealed_ec alg n iv c)).
Proof.
  intros alg n iv c rest Hn U Hi L. split.
  - rewrite (decode_prefix _ alg); [|left; split; [reflexivity|exact Hn]|reflexivity|exact U|exact L]. f_equal. unfold sealed_ec. cbn [ec_keyLocator ec_iv ec_payload blob_bytes].
    f_equal. destruct iv as [b|]; [|reflexivity]. specialize (Hi b eq_refl). destruct b; [discriminate Hi|reflexivity].
  - apply (encode_ec _ alg); [left; split; [reflexivity|exact Hn]|reflexivity|exact U].
Qed.

Lemma tail3_inj : forall A (m m' : list A) x a b x' a' b', m ++ [x; a; b] = m' ++ [x'; a'; b'] -> m = m' /\ x = x' /\ a = a' /\ b = b'.
Proof.
  intros A m m' x a b x' a' b' H. change [x; a; b] with ([x] ++ [a] ++ [b]) in H. change [x'; a'; b'] with ([x'] ++ [a'] ++ [b']) in H. rewrite !app_assoc in H.
  apply app_inj_tail in H as [H ->]. apply app_inj_tail in H as [H ->]. apply app_inj_tail in H as [H ->]. auto.
Qed.
Lemma dkey_name_long : forall m x a b dn, dkey_name (m ++ [x; a; b]) dn -> dn = m ++ [N_D_KEY; a; b].
Proof.
  intros m x a b dn H. remember (m ++ [x; a; b]) as n eqn:E. destruct H as [m' x' a' b'|a' b'|a'].
  - apply tail3_inj in E as (-> & _ & -> & ->). reflexivity.
  - destruct m as [|? [|? [|? ?]]]; discriminate E.
  - destruct m as [|? [|? [|? ?]]]; discriminate E.
Qed.

Section World.
Variable rsa_enc : bytes -> bytes -> Z -> Z -> rsa_out.
Variable aes_enc : bytes -> bytes -> Z -> bytes -> res bytes.
Variable rsa_dec : bytes -> bytes -> res bytes.
Variable aes_dec : bytes -> bytes -> bytes -> res bytes.
Variable content_key : name -> option bytes.
Variable ekey member : name -> option (bytes * bytes).
Variable refuses : name -> option bytes -> bool.
Variable consumerName : name.
Variables cKeyLink dKeyLink : option bytes.
Variable group : name.
Variable db : dict bytes bytes.
Notation history := (history rsa_dec aes_dec refuses consumerName cKeyLink dKeyLink group db).
Notation keys_of := (keys_of consumerName db).
Notation decrypts := (decrypts rsa_dec aes_dec).
Notation ckey_packet := (ckey_packet group).
Notation dkey_packet := (dkey_packet consumerName).
Notation dkey_from := (dkey_from rsa_dec aes_dec consumerName db).
Notation ckey_from := (ckey_from rsa_dec aes_dec consumerName group db).
Notation interest_ok := (ConsSpec.interest_ok consumerName cKeyLink dKeyLink group).
Notation tried := (tried rsa_dec aes_dec consumerName group db).
Notation cause := (cause rsa_dec aes_dec refuses consumerName cKeyLink dKeyLink group db).
Notation bad := (bad rsa_dec aes_dec).
Notation fine := (fine consumerName cKeyLink dKeyLink group).
Hypothesis Hdb : NoDup (map fst db).
Hypothesis W : world_ok rsa_enc aes_enc rsa_dec aes_dec content_key ekey member.
Notation made := (made aes_enc content_key).
Notation carries_ckey := (carries_ckey rsa_enc ekey).
Notation carries_dkey := (carries_dkey rsa_enc aes_enc member).

Lemma decrypts_fun : forall e k m m', decrypts e k m -> decrypts e k m' -> m = m'.
Proof. intros e k m m' (c & E & [(iv & A & I & D)|[A D]]) (c' & E' & [(iv' & A' & I' & D')|[A' D']]); congruence. Qed.
Lemma not_bad : forall e k m code, decrypts e k m -> ~ bad e k code.
Proof.
  intros e k m code D B. pose proof D as (c & _ & Q). destruct B as [(B1 & B2 & _)|(_ & B & _)]; [destruct Q as [(iv & A & _)|[A _]]; [exact (B1 A)|exact (B2 A)]|exact (B m D)].
Qed.
(** What the packets hold *)
Lemma made_ok : forall d m, made d m -> exists e k, holds d e /\ content_key (key_of e) = Some k /\ name_ok (key_of e) /\ decrypts e k m.
Proof.
  intros d m (n & k & iv & w & Ck & Cd & L & (Li & c & Ae & ->)). destruct W as (W1 & W2 & _). pose proof (W2 _ _ Ck) as Nn.
  destruct (decode_sealed 1 n (Some iv) c [] Nn ltac:(unfold u64; lia) ltac:(intros b E; injection E as <-; exact Li) L) as [D _]. rewrite app_nil_r in D.
  exists (sealed_ec 1 n (Some iv) c), k. split; [eexists; split; [exact Cd|exact D]|]. split; [exact Ck|]. split; [exact Nn|].
  exists c. split; [reflexivity|]. left. exists iv. repeat split. apply (W1 _ _ _ _ Ae).
Qed.
Lemma ckey_ok : forall d k, carries_ckey d k -> exists e m a b pub priv, holds d e /\ key_of e = m ++ [c_generic [69; 45; 75; 69; 89]; a; b] /\ name_ok (key_of e) /\ ekey (key_of e) = Some (pub, priv) /\ decrypts e priv k.
Proof.
  intros d k (n & pub & priv & pad & w & Ek & Cd & L & (c & Re & ->)). destruct W as (_ & _ & W3 & _). destruct (W3 _ _ _ Ek) as (Nn & (m & a & b & En) & Rp).
  destruct (decode_sealed 3 n None c [] Nn ltac:(unfold u64; lia) ltac:(intros b' E; discriminate E) L) as [D _]. rewrite app_nil_r in D.
  exists (sealed_ec 3 n None c), m, a, b, pub, priv. split; [eexists; split; [exact Cd|exact D]|]. split; [exact En|]. split; [exact Nn|]. split; [exact Ek|].
  exists c. split; [reflexivity|]. right. split; [reflexivity|]. apply (Rp _ _ _ Re).
Qed.
Lemma dkey_ok : forall d priv, carries_dkey d priv -> exists w e3 pub mpriv nonce rest e4, cd_content d = Some w /\ decodeEncryptedContent w = Ok e3 /\ member (key_of e3) = Some (pub, mpriv) /\ mpriv <> [] /\
  decrypts e3 mpriv nonce /\ (exists w3, encodeEncryptedContent e3 = Ok w3 /\ w = w3 ++ rest) /\ rest <> [] /\ decodeEncryptedContent rest = Ok e4 /\ decrypts e4 nonce priv.
Proof.
  intros d priv (n & pub & mpriv & nonce & iv & pad & w1 & w2 & Em & Cd & L1 & L2 & (c1 & Re & ->) & (Li & c2 & Ae & ->)). destruct W as (W1 & _ & _ & W4). destruct (W4 _ _ _ Em) as (Nn & Pn & Rp).
  set (e4 := EC (Some 1) _ _ _ _) in *.
  destruct (decode_sealed 3 n None c1 (ec_bytes e4) Nn ltac:(unfold u64; lia) ltac:(intros b' E; discriminate E) L1) as [D E]. fold (sealed_ec 3 n None c1) in *.
  destruct (decode_sealed 1 (n ++ [N_nonce]) (Some iv) c2 [] (nonce_name_ok _ Nn) ltac:(unfold u64; lia) ltac:(intros b E1; injection E1 as <-; exact Li) L2) as [D4 _]. rewrite app_nil_r in D4.
  exists (ec_bytes (sealed_ec 3 n None c1) ++ ec_bytes e4), (sealed_ec 3 n None c1), pub, mpriv, nonce, (ec_bytes e4), e4. split; [exact Cd|]. split; [exact D|]. split; [exact Em|]. split; [exact Pn|].
  split; [exists c1; split; [reflexivity|right; split; [reflexivity|apply (Rp _ _ _ Re)]]|]. split; [exists (ec_bytes (sealed_ec 3 n None c1)); auto|].
  split; [intros Q; change (decodeEncryptedContent (ec_bytes e4) = Ok e4) in D4; rewrite Q in D4; discriminate D4|]. split; [exact D4|].
  exists c2. split; [reflexivity|]. left. exists iv. repeat split. apply (W1 _ _ _ _ Ae).
Qed.

(** In a history the events are for Interests that were sent. *)
Lemma event_fine : forall l o t, history l o t -> forall e i, In e l -> ev_int e = Some i -> fine l i.
Proof.
  intros l o t H. induction H as [|l o t e H IH E a|l o1 i o2 t e H IH E a|l o1 i d o2 t b H IH e a]; intros e' i' I Ei.
  - destruct I.
  - apply in_app_or in I as [I|[<-|[]]]; [apply fine_mono; eauto|]. destruct E as [(c & n & k & ->)|[(g & ->)|[(n & k & ->)|(n & ->)]]]; discriminate Ei.
  - apply in_app_or in I as [I|[<-|[]]]; [apply fine_mono; eauto|]. pose proof (history_good _ _ _ _ _ _ _ _ Hdb _ _ _ H) as (_ & Fo & _).
    assert (Q : ev_int e = Some i) by (destruct E as [(d & v & ->)|[->| ->]]; reflexivity). rewrite Ei in Q. injection Q as ->. apply fine_mono. apply (Fo (PInterest i)). apply in_or_app. right. left. reflexivity.
  - apply in_app_or in I as [I|[<-|[]]]; [apply fine_mono; eauto|]. pose proof (history_good _ _ _ _ _ _ _ _ Hdb _ _ _ H) as (_ & Fo & _). injection Ei as <-. apply fine_mono. apply (Fo (PCheck i d)). apply in_or_app. right. left. reflexivity.
Qed.
Variables (l : list cevent) (o : list pend) (t : list cact).
Hypothesis H : history l o t.
Hypothesis Hh : honest rsa_enc aes_enc content_key ekey member consumerName db l.
Lemma verified_int : forall i d, verified l i d -> interest_ok l i.
Proof. intros i d [V|V]; apply (event_fine _ _ _ H _ i V eq_refl). Qed.
Lemma content_made : forall c d e, content_of l c d e -> exists m k, made d m /\ content_key (key_of e) = Some k /\ name_ok (key_of e) /\ decrypts e k m.
Proof.
  intros c d e (i & V & _ & S & _ & Hd). destruct Hh as (H1 & _). destruct (H1 i d V S) as (m & M). destruct (made_ok _ _ M) as (e' & k & Hd' & R). rewrite (holds_fun _ _ _ Hd Hd'). exists m, k. auto.
Qed.
(** The C-KEY packets that were asked for *)
Definition ekn (e : encryptedContent) (m : name) (a b : comp) : Prop := key_of e = m ++ [c_generic [69; 45; 75; 69; 89]; a; b].
Lemma cpacket_of : forall i d d0 e, verified l i d -> i_stage i = ForCKey d0 e -> exists k e2 m a b pub priv,
  content_key (key_of e) = Some k /\ name_ok (key_of e) /\ holds d e2 /\ ekn e2 m a b /\ name_ok (key_of e2) /\ ekey (key_of e2) = Some (pub, priv) /\ decrypts e2 priv k.
Proof.
  intros i d d0 e V S. pose proof (verified_int _ _ V) as Q. unfold ConsSpec.interest_ok in Q. rewrite S in Q. destruct Q as (C & (l1 & l2 & _ & Nm) & _).
  destruct (content_made _ _ _ C) as (m0 & k & _ & Ck & Nk & _). destruct Hh as (_ & H2 & _). destruct (ckey_ok _ _ (H2 _ _ _ _ _ V Nm Ck)) as (e2 & m & a & b & pub & priv & R1 & R2 & R3 & R4 & R5).
  exists k, e2, m, a, b, pub, priv. auto 10.
Qed.
Lemma cpacket : forall n e2, ckey_packet l n e2 -> exists k m a b pub priv, content_key n = Some k /\ name_ok n /\ ekn e2 m a b /\ name_ok (key_of e2) /\ ekey (key_of e2) = Some (pub, priv) /\ decrypts e2 priv k.
Proof.
  intros n e2 (i & d & d0 & e & V & S & -> & _ & Hd). destruct (cpacket_of _ _ _ _ V S) as (k & e2' & m & a & b & pub & priv & R1 & R2 & R3 & R4). rewrite (holds_fun _ _ _ Hd R3). exists k, m, a, b, pub, priv. auto.
Qed.
Lemma d_name_ok : forall m x a b, name_ok (m ++ [x; a; b]) -> name_ok (m ++ [N_D_KEY; a; b]).
Proof.
  intros m x a b Q. unfold name_ok in *. apply Forall_app in Q as [Q1 Q2]. apply Forall_app. split; [exact Q1|]. apply Forall_cons_iff in Q2 as [_ Q2]. apply Forall_cons; [apply WireProps.gen_ok; reflexivity|exact Q2].
Qed.
Lemma dpacket_of : forall i d d0 e e2 dn, verified l i d -> i_stage i = ForDKey d0 e e2 dn -> exists m a b pub priv, ekn e2 m a b /\ ekey (key_of e2) = Some (pub, priv) /\ dn = m ++ [N_D_KEY; a; b] /\ name_ok dn /\ carries_dkey d priv.
Proof.
  intros i d d0 e e2 dn V S. pose proof (verified_int _ _ V) as Q. unfold ConsSpec.interest_ok in Q. rewrite S in Q. destruct Q as (_ & P & D & Nm & _).
  destruct (cpacket _ _ P) as (k & m & a & b & pub & priv & _ & _ & En & Ne & Ek & _). unfold ekn in En. rewrite En in D. apply dkey_name_long in D. subst dn.
  exists m, a, b, pub, priv. split; [exact En|]. split; [exact Ek|]. split; [reflexivity|]. split; [rewrite En in Ne; exact (d_name_ok _ _ _ _ Ne)|].
  destruct Hh as (_ & _ & H3 & _). rewrite En in Ek. apply (H3 _ _ _ _ _ _ _ V Nm Ek).
Qed.
Lemma dkey_got : forall dn k, dkey_from l dn k -> exists m a b pub, ekey (m ++ [c_generic [69; 45; 75; 69; 89]; a; b]) = Some (pub, k) /\ dn = m ++ [N_D_KEY; a; b] /\ name_ok dn.
Proof.
  intros dn k (w & e3 & key & nonce & rest & e4 & (i & d & d0 & e & e2 & V & S & _ & Cd & De) & (l1 & l2 & El & Kk) & _ & D3 & (w3 & En3 & Er) & De4 & D4).
  destruct (dpacket_of _ _ _ _ _ _ V S) as (m & a & b & pub & priv & En & Ek & Ed & Nd & Cp). exists m, a, b, pub. unfold ekn in En. rewrite En in Ek. split; [|auto]. rewrite Ek. f_equal. f_equal.
  destruct (dkey_ok _ _ Cp) as (w' & e3' & mpub & mpriv & nonce' & rest' & e4' & Cd' & De' & Em & _ & D3' & (w3' & En3' & Ew) & _ & De4' & D4').
  rewrite Cd in Cd'. injection Cd' as <-. assert (e3' = e3) by congruence. subst e3'. assert (w3' = w3) by congruence. subst w3'.
  destruct Hh as (_ & _ & _ & H4). pose proof (H4 _ _ _ _ _ El Em) as Q. rewrite Kk in Q. injection Q as ->.
  assert (rest = rest'). { rewrite Er, Ew. rewrite skipn_app, skipn_all, Nat.sub_diag. reflexivity. } subst rest'.
  assert (e4' = e4) by congruence. subst e4'. rewrite (decrypts_fun _ _ _ _ D3 D3') in D4. exact (decrypts_fun _ _ _ _ D4' D4).
Qed.
Lemma dkey_right : forall n e2 dn dn' k, ckey_packet l n e2 -> dkey_name (key_of e2) dn -> alike dn dn' -> dkey_from l dn' k -> exists ck, content_key n = Some ck /\ name_ok n /\ decrypts e2 k ck.
Proof.
  intros n e2 dn dn' k P D A F. destruct (cpacket _ _ P) as (ck & m & a & b & pub & priv & Ck & Nn & En & Ne & Ek & Dc). unfold ekn in En. rewrite En in D. apply dkey_name_long in D. subst dn.
  destruct (dkey_got _ _ F) as (m' & a' & b' & pub' & Ek' & -> & Nd). rewrite En in Ne. apply (ProdProofs.nameq _ _ (d_name_ok _ _ _ _ Ne) Nd) in A. apply tail3_inj in A as (-> & _ & -> & ->).
  rewrite En, Ek' in Ek. injection Ek as -> ->. exists ck. auto.
Qed.
Lemma ckey_right : forall n k n', ckey_from l n k -> alike n n' -> name_ok n' -> content_key n' = Some k.
Proof.
  intros n k n' (e2 & dn & dn' & dk & P & D & A & F & Dk) Al Nn'. destruct (dkey_right _ _ _ _ _ P D A F) as (ck & Ck & Nn & Dc). apply (ProdProofs.nameq _ _ Nn Nn') in Al. subst n'. rewrite Ck. f_equal. exact (decrypts_fun _ _ _ _ Dc Dk).
Qed.
(** Whatever is decrypted can be decrypted. *)
Lemma tried_good : forall c e k, tried l c e k -> exists m, decrypts e k m.
Proof.
  intros c e k T. destruct T as [d e n k C F A|n e2 dn dn' k P D A F|n w e3 k P K|n w e3 key nonce rest e4 P K D3 Sp De4].
  - destruct (content_made _ _ _ C) as (m & ck & _ & Ck & Nk & Dm). rewrite (ckey_right _ _ _ F A Nk) in Ck. injection Ck as ->. exists m. exact Dm.
  - destruct (dkey_right _ _ _ _ _ P D A F) as (ck & _ & _ & Dc). exists ck. exact Dc.
  - destruct P as (i & d & d0 & e & e2 & V & S & _ & Cd & De). destruct (dpacket_of _ _ _ _ _ _ V S) as (m & a & b & pub & priv & _ & _ & _ & _ & Cp).
    destruct (dkey_ok _ _ Cp) as (w' & e3' & mpub & mpriv & nonce' & rest' & e4' & Cd' & De' & Em & _ & D3' & _). rewrite Cd in Cd'. injection Cd' as <-. assert (e3' = e3) by congruence. subst e3'.
    destruct K as (l1 & l2 & El & Kk). destruct Hh as (_ & _ & _ & H4). pose proof (H4 _ _ _ _ _ El Em) as Q. rewrite Kk in Q. injection Q as ->. exists nonce'. exact D3'.
  - destruct P as (i & d & d0 & e & e2 & V & S & _ & Cd & De). destruct (dpacket_of _ _ _ _ _ _ V S) as (m & a & b & pub & priv & _ & _ & _ & _ & Cp).
    destruct (dkey_ok _ _ Cp) as (w' & e3' & mpub & mpriv & nonce' & rest' & e4' & Cd' & De' & Em & _ & D3' & (w3' & En3' & Ew) & _ & De4' & D4').
    rewrite Cd in Cd'. injection Cd' as <-. assert (e3' = e3) by congruence. subst e3'. destruct K as (l1 & l2 & El & Kk). destruct Hh as (_ & _ & _ & H4). pose proof (H4 _ _ _ _ _ El Em) as Q. rewrite Kk in Q. injection Q as ->.
    destruct Sp as (w3 & En3 & Er). assert (w3' = w3) by congruence. subst w3'. assert (rest = rest'). { rewrite Er, Ew. rewrite skipn_app, skipn_all, Nat.sub_diag. reflexivity. } subst rest'.
    assert (e4' = e4) by congruence. subst e4'. rewrite (decrypts_fun _ _ _ _ D3 D3'). exists priv. exact D4'.
Qed.
Lemma verified_good : forall i d, verified l i d -> exists e, holds d e /\ (level (i_stage i) = 1 -> key_of e <> []) /\
  (level (i_stage i) = 2 -> exists w pub mpriv rest e4, cd_content d = Some w /\ member (key_of e) = Some (pub, mpriv) /\ mpriv <> [] /\ (exists w3, encodeEncryptedContent e = Ok w3 /\ w = w3 ++ rest) /\ rest <> [] /\ decodeEncryptedContent rest = Ok e4).
Proof.
  intros i d V. destruct (i_stage i) as [|d0 e|d0 e e2 dn] eqn:S.
  - destruct Hh as (H1 & _). destruct (H1 _ _ V S) as (m & M). destruct (made_ok _ _ M) as (e & k & Hd & _). exists e. split; [exact Hd|]. split; intros Q; discriminate Q.
  - destruct (cpacket_of _ _ _ _ V S) as (k & e2 & m & a & b & pub & priv & _ & _ & Hd & En & _). exists e2. split; [exact Hd|]. split; [|intros Q; discriminate Q]. intros _ Q. unfold ekn in En. rewrite Q in En. destruct m; discriminate En.
  - destruct (dpacket_of _ _ _ _ _ _ V S) as (m & a & b & pub & priv & _ & _ & _ & _ & Cp). destruct (dkey_ok _ _ Cp) as (w & e3 & mpub & mpriv & nonce & rest & e4 & Cd & De & Em & Nm & _ & Sp & Rn & De4 & _).
    exists e3. split; [exists w; auto|]. split; [intros Q; discriminate Q|]. intros _. exists w, mpub, mpriv, rest, e4. auto 10.
Qed.
Theorem honest_result : (forall c d m, In (CComplete c d m) t -> made d m) /\ (forall c code, In (CError c code) t -> code = 1002 \/ code = 1036 \/ code = 200) /\ (forall c, ~ In (CLogged c) t).
Proof.
  pose proof (history_good _ _ _ _ _ _ _ _ Hdb _ _ _ H) as (_ & _ & J & _). split; [|split].
  - intros c d m I. destruct (J _ I) as (e & n & k & C & F & A & D). destruct (content_made _ _ _ C) as (m' & ck & M & Ck & Nk & Dm). rewrite (ckey_right _ _ _ F A Nk) in Ck. injection Ck as ->.
    rewrite (decrypts_fun _ _ _ _ D Dm). exact M.
  - intros c code I. pose proof (J _ I) as Q. cbn [just] in Q. destruct Q as [i d R Ec|i R Ec|i R1 R2 T Ec|i Ec R Q|i d R Ec|i d V Ec M|i d w e3 V Ec Lv Cd De Sp|i d e3 V Ec Lv Hd K|e k code T B]; auto.
    + destruct (verified_good _ _ V) as (e & Hd & _). destruct (M e Hd).
    + destruct (verified_good _ _ V) as (e & Hd & _ & G). destruct (G Lv) as (w' & pub & mpriv & rest & e4 & Cd' & _ & _ & (w3 & En & Ew) & Rn & _). destruct Sp as (w3' & En' & Er).
      assert (e = e3) by (destruct Hd as (x & X1 & X2); congruence). subst e. rewrite Cd in Cd'. injection Cd' as <-. assert (w3' = w3) by congruence. subst w3'. rewrite Ew, skipn_app, skipn_all, Nat.sub_diag in Er. destruct Rn. symmetry. exact Er.
    + destruct (verified_good _ _ V) as (e & Hd' & _ & G). destruct (G Lv) as (w' & pub & mpriv & rest & e4 & _ & Em & Nm & _). rewrite <- (holds_fun _ _ _ Hd Hd') in Em. destruct K as (l1 & l2 & El & Kk).
      destruct Hh as (_ & _ & _ & H4). rewrite (H4 _ _ _ _ _ El Em) in Kk. destruct Kk as [Kk|Kk]; [discriminate Kk|]. injection Kk as ->. destruct (Nm eq_refl).
    + destruct (tried_good _ _ _ T) as (m & Dm). destruct (not_bad _ _ _ _ Dm B).
  - intros c I. pose proof (J _ I) as Q. cbn [just] in Q. destruct Q as [i d e2 V Ec Lv Hd K|i d w e3 rest x V Ec Lv Cd De Sp Rn De4|i d e3 x V Ec Lv Hd En].
    + destruct (verified_good _ _ V) as (e & Hd' & G & _). rewrite (holds_fun _ _ _ Hd Hd') in K. exact (G Lv K).
    + destruct (verified_good _ _ V) as (e & Hd & _ & G). destruct (G Lv) as (w' & pub & mpriv & rest' & e4 & Cd' & _ & _ & (w3 & En & Ew) & _ & De4'). destruct Sp as (w3' & En' & Er).
      assert (e = e3) by (destruct Hd as (y & X1 & X2); congruence). subst e. rewrite Cd in Cd'. injection Cd' as <-. assert (w3' = w3) by congruence. subst w3'. rewrite Ew, skipn_app, skipn_all, Nat.sub_diag in Er. cbn in Er. congruence.
    + destruct (verified_good _ _ V) as (e & Hd' & _ & G). destruct (G Lv) as (w' & pub & mpriv & rest' & e4 & _ & _ & _ & (w3 & En' & _) & _). rewrite <- (holds_fun _ _ _ Hd Hd') in En'. congruence.
Qed.
End World.
