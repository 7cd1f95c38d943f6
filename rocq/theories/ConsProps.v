(** * C83, C84 The consumer of name-based access control *)
From Verif Require Import Base BaseLemmas NameModel NameSpec DictModel WireModel WireSpec WireProps CtlModel CtlSpec EncrModel GmSpec ConsModel ConsSpec ConsSpec2 ConsProofs ConsProofs2 ConsProofs3 ConsProofs4.
From Coq Require Import Lia.

Section Consumer.
Variable rsa_dec : bytes -> bytes -> res bytes.
Variable aes_dec : bytes -> bytes -> bytes -> res bytes.
Variable refuses : name -> option bytes -> bool.
Variable consumerName : name.
Variables cKeyLink dKeyLink : option bytes.
Variable group : name.
Variable db : dict bytes bytes.
Notation after := (cafter rsa_dec aes_dec refuses consumerName cKeyLink dKeyLink group db).
Notation step := (cstep rsa_dec aes_dec refuses consumerName cKeyLink dKeyLink).
Notation history := (history rsa_dec aes_dec refuses consumerName cKeyLink dKeyLink group db).
Notation decrypts := (decrypts rsa_dec aes_dec).
Notation ckey_from := (ckey_from rsa_dec aes_dec consumerName group db).
Notation interest_ok := (ConsSpec.interest_ok consumerName cKeyLink dKeyLink group).
Notation cause := (cause rsa_dec aes_dec refuses consumerName cKeyLink dKeyLink group db).
(** The key names in the database are distinct (it has a unique index). *)
Hypothesis Hdb : NoDup (map fst db).
Notation good := (history_good rsa_dec aes_dec refuses consumerName cKeyLink dKeyLink group db Hdb).

(** For each call of consume there is at any time exactly one of: an outstanding Interest or verification,
    a reply (the plaintext or an error), or a logged exception. *)
Theorem C83_one_reply : forall l o t c, history l o t -> NoDup (calls l) ->
  waiting c o + zlen (replies c t) + losses c t = if in_dec Z.eq_dec c (calls l) then 1 else 0.
Proof.
  intros l o t c H Nd. destruct (good _ _ _ H) as (_ & _ & _ & Ct & _). rewrite Ct. destruct (in_dec Z.eq_dec c (calls l)) as [I|N]; [|apply times_out; exact N].
  pose proof (times_in c l I). pose proof (times_once c l Nd). lia.
Qed.
(** The plaintext of a reply is the verified packet with the name that was asked for, decrypted with a
    content key; this comes from a verified C-KEY packet for the key name in that packet, decrypted with a
    D-KEY; this comes from a verified D-KEY packet for this consumer, decrypted with a key of the database. *)
Theorem C83_plaintext : forall l o t c d m, history l o t -> In (Plain d m) (replies c t) ->
  exists e n k, content_of l c d e /\ alike n (key_of e) /\ ckey_from l n k /\ decrypts e k m.
Proof.
  intros l o t c d m H I. unfold replies in I. apply in_flat_map in I as (a & I & Q). destruct a as [i|i d'|c' d' m'|c' n|c']; try (destruct Q; fail).
  - destruct (Z.eqb_spec c' c) as [->|N]; [|destruct Q]. destruct Q as [Q|[]]. injection Q as -> ->. destruct (good _ _ _ H) as (_ & _ & J & _). destruct (J _ I) as (e & n & k & C & F & A & D). exists e, n, k. auto.
  - destruct (c' =? c); [|destruct Q]. destruct Q as [Q|[]]. discriminate Q.
Qed.
(** Each Interest is for the content that was asked for, or for the content key that a verified content
    packet names (and the group), or for the decryption key that belongs to a verified C-KEY packet (and
    this consumer). *)
Theorem C83_interests : forall l o t i, history l o t -> In (CExpress i) t -> interest_ok l i.
Proof. intros l o t i H I. destruct (good _ _ _ H) as (_ & _ & J & _). exact (J _ I). Qed.
(** The group is the one set when the Interest for the content key is sent at first. *)
Theorem C83_group : forall l o t i d e d0 e0 x, history l (PInterest i :: o) t -> x = GotData i d Accept -> In (CExpress e0) (cs_outs (fst (step (after l) x))) -> i_stage e0 = ForCKey d0 e ->
  i_name e0 = with_for (key_of e) (group_of group l).
Proof.
  intros l o t i d e d0 e0 x H -> I S. destruct (good _ _ _ H) as (R & Fo & _).
  destruct (step_ok _ _ _ _ _ _ _ _ l (GotData i d Accept) R) as (_ & _ & Q). { intros i' E. injection E as <-. apply (Fo (PInterest i)). left. reflexivity. }
  cbn [ev_call ev_int option_map] in Q. destruct Q as (a & E & _ & _ & F & _). rewrite E in I. destruct I as [->|[]]. cbn [follows] in F. destruct F as (_ & _ & F). exact (F _ _ S).
Qed.
(** onError is called for a reason. *)
Theorem C83_errors : forall l o t c code, history l o t -> In (Failed code) (replies c t) -> cause l c code.
Proof.
  intros l o t c code H I. unfold replies in I. apply in_flat_map in I as (a & I & Q). destruct a as [i|i d'|c' d' m'|c' n|c']; try (destruct Q; fail).
  - destruct (c' =? c); [|destruct Q]. destruct Q as [Q|[]]. discriminate Q.
  - destruct (Z.eqb_spec c' c) as [->|N]; [|destruct Q]. destruct Q as [Q|[]]. injection Q as ->. destruct (good _ _ _ H) as (_ & _ & J & _). exact (J _ I).
Qed.
(** An exception is lost only if a verified C-KEY packet names no E-KEY, or a verified D-KEY packet is
    malformed after its first part. *)
Theorem C83_silent : forall l o t c, history l o t -> losses c t <> 0 -> silent l c.
Proof.
  intros l o t c H N. destruct (good _ _ _ H) as (_ & _ & J & _). unfold losses in N.
  destruct (filter (fun a => match a with CLogged c' => c' =? c | _ => false end) t) as [|a r] eqn:E; [destruct N; reflexivity|].
  assert (I : In a (filter (fun a => match a with CLogged c' => c' =? c | _ => false end) t)) by (rewrite E; left; reflexivity). apply filter_In in I as [I Q].
  destruct a as [i|i d'|c' d' m'|c' n|c']; try discriminate Q. apply Z.eqb_eq in Q. subst c'. exact (J _ I).
Qed.
(** For a call an Interest for the content, for the content key and for the decryption key is sent, each at
    most twice: the second time after a timeout, with the same name. *)
Theorem C83_sent : forall l o t c n, history l o t -> NoDup (calls l) ->
  sent c n t = [] \/ exists i, i_trials i = 1 /\ (sent c n t = [i] \/ sent c n t = [i; again i] /\ In (TimedOut i) l).
Proof. intros l o t c n H Nd. apply (history_orderly _ _ _ _ _ _ _ _ Hdb _ _ _ H Nd). Qed.
(** What a timeout and a Nack do *)
Theorem C83_timeout : forall l o t i, history l o t -> In (PInterest i) o ->
  (i_trials i = 1 /\ cs_outs (fst (step (after l) (TimedOut i))) = [if refuses (i_name i) (i_link i) then CError (i_call i) 200 else CExpress (again i)] \/
   i_trials i = 0 /\ cs_outs (fst (step (after l) (TimedOut i))) = [CError (i_call i) 1036]) /\
  cs_outs (fst (step (after l) (Nacked i))) = [CError (i_call i) 1036].
Proof.
  intros l o t i H I. destruct (good _ _ _ H) as (_ & Fo & _). destruct (Fo _ I) as [_ T]. cbn [pend_int] in T. split; [|reflexivity].
  destruct T as [T|(i1 & E & _ & _)].
  - left. split; [exact T|]. unfold cstep. cbn [cact_of]. unfold onTimeout. rewrite T. change (0 <? 1) with true. cbv iota. unfold sendInterest. cbn [i_name i_link i_call].
    destruct (refuses (i_name i) (i_link i)); reflexivity.
  - right. subst i. split; reflexivity.
Qed.
(** After a success no Interest is sent for a content key of this name. *)
Theorem C83_cached : forall l o t c d m e i d' e', history l o t -> In (Plain d m) (replies c t) -> holds d e -> In (PInterest i) o -> i_stage i = ForContent ->
  holds d' e' -> alike (key_of e) (key_of e') -> forall j, ~ In (CExpress j) (cs_outs (fst (step (after l) (GotData i d' Accept)))).
Proof.
  intros l o t c d m e i d' e' H I Hd Ii S Hd' A j. destruct (good _ _ _ H) as (R & _ & _ & _ & Cp).
  assert (C : In (CComplete c d m) t).
  { unfold replies in I. apply in_flat_map in I as (a & I & Q). destruct a as [i'|i' dx|c' dx m'|c' n|c']; try (destruct Q; fail).
    - destruct (Z.eqb_spec c' c) as [->|N]; [|destruct Q]. destruct Q as [Q|[]]. injection Q as -> ->. exact I.
    - destruct (c' =? c); [|destruct Q]. destruct Q as [Q|[]]. discriminate Q. }
  pose proof (din_alike _ _ _ _ A (Cp _ _ _ _ C Hd)) as D. set (p := after l) in *. unfold cstep. cbn [cact_of]. unfold verifyData, ctry, onVerified. rewrite S. unfold decryptContent.
  destruct Hd' as (w & Ew & De). rewrite Ew. cbn [ec_wireDecode]. rewrite De. unfold cbind, cget. fold (key_of e'). cbn [cbegin cs_ckeys]. unfold din in D. destruct (dget n_equals (cs_ckeys p) (key_of e')) as [k|]; [|discriminate D].
  apply (decrypt_cases rsa_dec aes_dec e' k _ _ _ (fun x => ~ In (CExpress j) (cs_outs (fst (match x with (p', Ok u) => (p', Ok u) | (p', Err _) => cemit (CLogged (i_call i)) p' end))))); [apply (decoded_payload _ _ De)| |].
  - intros x _ [Q|[]]. discriminate Q.
  - intros x _ [Q|[]]. discriminate Q.
Qed.
(** addDecryptionKey refuses a key whose name does not begin with the consumer name and one whose name the
    database has; otherwise it stores the key under its name and touches no other. *)
Theorem C83_add_key : forall l o t n k, history l o t ->
  match snd (step (after l) (AddKey n (Some k))) with
  | Ok _ => n_match consumerName n = true /\ keys_of consumerName db l (encodeName n) = None /\ keys_of consumerName db (l ++ [AddKey n (Some k)]) (encodeName n) = Some k /\
      forall w, w <> encodeName n -> keys_of consumerName db (l ++ [AddKey n (Some k)]) w = keys_of consumerName db l w
  | Err e => (e = RuntimeError /\ n_match consumerName n = false \/ n_match consumerName n = true /\ keys_of consumerName db l (encodeName n) <> None) /\
      forall w, keys_of consumerName db (l ++ [AddKey n (Some k)]) w = keys_of consumerName db l w
  end.
Proof.
  intros l o t n k H. destruct (good _ _ _ H) as ((K & _) & _). destruct K as (_ & K2 & _).
  assert (Ks : forall w, keys_of consumerName db (l ++ [AddKey n (Some k)]) w = match keys_of consumerName db l w with Some x => Some x | None => if n_match consumerName n && zlist_eqb (encodeName n) w then Some k else None end).
  { intros w. unfold keys_of. rewrite fold_left_app. reflexivity. }
  unfold cstep. cbn [cact_of]. unfold addDecryptionKey. destruct (n_match consumerName n) eqn:M; cbn [negb].
  - unfold addKey, cbind, cget, clift, put_db. cbn [cbegin cs_db]. unfold din. rewrite K2. destruct (keys_of consumerName db l (encodeName n)) as [x|] eqn:E; cbn [snd].
    + split; [right; split; [reflexivity|discriminate]|]. intros w. rewrite Ks. destruct (keys_of consumerName db l w) eqn:E2; [reflexivity|]. cbn [andb]. destruct (zlist_eqb (encodeName n) w) eqn:E3; [|reflexivity]. apply zlist_eqb_eq in E3. subst w. congruence.
    + split; [reflexivity|]. split; [reflexivity|]. split; [rewrite Ks, E; cbn [andb]; rewrite zl_refl; reflexivity|]. intros w N. rewrite Ks. destruct (keys_of consumerName db l w) eqn:E2; [reflexivity|]. cbn [andb].
      destruct (zlist_eqb (encodeName n) w) eqn:E3; [|reflexivity]. apply zlist_eqb_eq in E3. congruence.
  - unfold clift. cbn [snd]. split; [left; auto|]. intros w. rewrite Ks. cbn [andb]. destruct (keys_of consumerName db l w); reflexivity.
Qed.
End Consumer.

(** ** C84 The consumer gets what the producer published *)
(** If the verified packets are those that the producer and the group manager make for the group, and the
    keys of the member are in the database, a call whose Interests have all been answered has one reply:
    the content that was encrypted, or an error about the network (1036), about the verification (1002), or
    of expressInterest and verifyData (200). *)
Theorem C84_end_to_end : forall rsa_enc aes_enc rsa_dec aes_dec content_key ekey member refuses consumerName cKeyLink dKeyLink group db l o t c,
  NoDup (map fst db) -> world_ok rsa_enc aes_enc rsa_dec aes_dec content_key ekey member ->
  history rsa_dec aes_dec refuses consumerName cKeyLink dKeyLink group db l o t -> honest rsa_enc aes_enc content_key ekey member consumerName db l ->
  NoDup (calls l) -> In c (calls l) -> waiting c o = 0 ->
  (exists d m, replies c t = [Plain d m] /\ made aes_enc content_key d m /\ (exists n link i, In (Consume c n link) l /\ i_name i = n /\ verified l i d) /\ forall m', made aes_enc content_key d m' -> m' = m) \/
  exists code, replies c t = [Failed code] /\ (code = 1002 \/ code = 1036 \/ code = 200).
Proof.
  intros rsa_enc aes_enc rsa_dec aes_dec content_key ekey member refuses consumerName cKeyLink dKeyLink group db l o t c Hdb W H Hh Nd Ic Wc.
  destruct (honest_result rsa_enc aes_enc rsa_dec aes_dec content_key ekey member refuses consumerName cKeyLink dKeyLink group db Hdb W l o t H Hh) as (R1 & R2 & R3).
  pose proof (C83_one_reply _ _ _ _ _ _ _ _ Hdb l o t c H Nd) as Q. destruct (in_dec Z.eq_dec c (calls l)) as [_|N]; [|destruct (N Ic)].
  assert (L0 : losses c t = 0).
  { unfold losses. destruct (filter (fun a => match a with CLogged c' => c' =? c | _ => false end) t) as [|a r] eqn:E; [reflexivity|].
    assert (I : In a (filter (fun a => match a with CLogged c' => c' =? c | _ => false end) t)) by (rewrite E; left; reflexivity). apply filter_In in I as [I Q'].
    destruct a as [i|i d'|c' d' m'|c' n|c']; try discriminate Q'. destruct (R3 _ I). }
  rewrite Wc, L0 in Q. destruct (replies c t) as [|r [|r2 rs]] eqn:E; [discriminate Q| |rewrite !zlen_cons in Q; pose proof (zlen_nonneg _ rs); lia].
  assert (I : In r (replies c t)) by (rewrite E; left; reflexivity). destruct r as [d m|code].
  - left. exists d, m. split; [reflexivity|].
    destruct (C83_plaintext _ _ _ _ _ _ _ _ Hdb l o t c d m H I) as (e & n & k & (i & V & Ec & S & In1 & Hd) & _).
    assert (Ct : In (CComplete c d m) t).
    { unfold replies in I. apply in_flat_map in I as (a & I & Q'). destruct a as [i'|i' dx|c' dx m'|c' n'|c']; try (destruct Q'; fail).
      - destruct (Z.eqb_spec c' c) as [->|N]; [|destruct Q']. destruct Q' as [Q'|[]]. injection Q' as -> ->. exact I.
      - destruct (c' =? c); [|destruct Q']. destruct Q' as [Q'|[]]. discriminate Q'. }
    pose proof (R1 _ _ _ Ct) as M. split; [exact M|]. split; [exists (i_name i), (i_link i), i; auto|].
    intros m' M'. destruct (made_ok _ _ _ _ _ _ _ W _ _ M) as (e1 & k1 & H1 & C1 & _ & D1). destruct (made_ok _ _ _ _ _ _ _ W _ _ M') as (e2 & k2 & H2 & C2 & _ & D2).
    rewrite (holds_fun _ _ _ H2 H1) in C2, D2. assert (k2 = k1) by congruence. subst k2. exact (decrypts_fun _ _ _ _ _ _ D2 D1).
  - right. exists code. split; [reflexivity|]. apply (R2 c). unfold replies in I. apply in_flat_map in I as (a & I & Q'). destruct a as [i'|i' dx|c' dx m'|c' n'|c']; try (destruct Q'; fail).
    + destruct (c' =? c); [|destruct Q']. destruct Q' as [Q'|[]]. discriminate Q'.
    + destruct (Z.eqb_spec c' c) as [->|N]; [|destruct Q']. destruct Q' as [Q'|[]]. injection Q' as ->. exact I.
Qed.

(** ** Concrete histories *)
Section Drive.
Variable rsa_dec : bytes -> bytes -> res bytes.
Variable aes_dec : bytes -> bytes -> bytes -> res bytes.
Variable consumerName group : name.
Variable db : dict bytes bytes.
Definition x_refuses (n : name) (link : option bytes) : bool := false.
Notation history := (history rsa_dec aes_dec x_refuses consumerName None None group db).
Definition cstate : Type := (list cevent * list pend * list cact)%type.
(** a call, or a callback for the outstanding Interest or verification number [k] *)
Inductive move : Type := MConsume (c : Z) (n : name) | MAdd (n : name) (key : bytes) | MGot (k : nat) (d : cdata) (v : verdict) | MLate (k : nat) (good : bool) | MTimeout (k : nat).
Definition one (s : cstate) (m : move) : option cstate :=
  let '(l, o, t) := s in
  let act e o1 o2 := let a := cs_outs (fst (cstep rsa_dec aes_dec x_refuses consumerName None None (cafter rsa_dec aes_dec x_refuses consumerName None None group db l) e)) in Some (l ++ [e], o1 ++ o2 ++ flat_map new_pends a, t ++ a) in
  match m with
  | MConsume c n => act (Consume c n None) o []
  | MAdd n key => act (AddKey n (Some key)) o []
  | MGot k d v => match skipn k o with PInterest i :: o2 => act (GotData i d v) (firstn k o) o2 | _ => None end
  | MLate k good => match skipn k o with PCheck i d :: o2 => act (Verified i d good) (firstn k o) o2 | _ => None end
  | MTimeout k => match skipn k o with PInterest i :: o2 => act (TimedOut i) (firstn k o) o2 | _ => None end
  end.
Fixpoint drive (s : cstate) (ms : list move) : option cstate :=
  match ms with [] => Some s | m :: r => match one s m with Some s' => drive s' r | None => None end end.
Lemma one_history l o t m l' o' t' : history l o t -> one (l, o, t) m = Some (l', o', t') -> history l' o' t'.
Proof.
  intros H. unfold one. destruct m as [c n|n key|k d v|k good|k].
  - intros [= <- <- <-]. cbn [app]. apply (H_call _ _ _ _ _ _ _ _ _ _ _ (Consume c n None) H). left. eauto.
  - intros [= <- <- <-]. cbn [app]. apply (H_call _ _ _ _ _ _ _ _ _ _ _ (AddKey n (Some key)) H). right. right. left. eauto.
  - destruct (skipn k o) as [|[i|i d'] o2] eqn:E; try discriminate. intros [= <- <- <-]. rewrite <- (firstn_skipn k o), E in H. apply (H_face _ _ _ _ _ _ _ _ _ _ _ _ _ (GotData i d v) H). left. eauto.
  - destruct (skipn k o) as [|[i|i d'] o2] eqn:E; try discriminate. intros [= <- <- <-]. rewrite <- (firstn_skipn k o), E in H. apply (H_late _ _ _ _ _ _ _ _ _ _ _ _ _ _ good H).
  - destruct (skipn k o) as [|[i|i d'] o2] eqn:E; try discriminate. intros [= <- <- <-]. rewrite <- (firstn_skipn k o), E in H. apply (H_face _ _ _ _ _ _ _ _ _ _ _ _ _ (TimedOut i) H). auto.
Qed.
Lemma drive_history : forall ms l o t l' o' t', history l o t -> drive (l, o, t) ms = Some (l', o', t') -> history l' o' t'.
Proof.
  induction ms as [|m ms IH]; intros l o t l' o' t' H; cbn [drive]; [intros [= <- <- <-]; exact H|]. destruct (one (l, o, t) m) as [[[l1 o1] t1]|] eqn:E; [|discriminate]. intro D. eapply IH; [eapply one_history; eassumption|exact D].
Qed.
End Drive.

(** Toy ciphers: the key is appended, and decrypting checks that it is there. RSA takes at most 8 bytes. *)
Definition strip (key c : bytes) : res bytes :=
  let k := (length c - length key)%nat in
  if zlist_eqb (skipn k c) key then Ok (firstn k c) else Err ValueError.
Definition x_rsa (key m : bytes) (alg pad : Z) : rsa_out := if zlen m <=? 8 then Sealed (m ++ key) else TooLong.
Definition x_aes (key m : bytes) (alg : Z) (iv : bytes) : res bytes := Ok (m ++ key).
Definition x_aes_dec (key iv c : bytes) : res bytes := strip key c.
Lemma strip_app key m : strip key (m ++ key) = Ok m.
Proof.
  unfold strip. rewrite app_length, Nat.add_sub. rewrite skipn_app, firstn_app, skipn_all, Nat.sub_diag, firstn_all. cbn [skipn firstn app]. rewrite app_nil_r, zl_refl. reflexivity.
Qed.
Definition name_dec : forall a b : name, {a = b} + {a <> b}.
Proof. repeat decide equality. Defined.

Definition x_iv : bytes := repeat 7 16.
Definition x_group : name := [c_generic [71]].
Definition x_me : name := [c_generic [85]].
Definition x_mkey : name := x_me ++ [c_generic [107]].
Definition x_mbits : bytes := [31; 32].
Definition x_cname : name := [c_generic [80]; c_generic [67; 45; 75; 69; 89]; c_generic [49]].
Definition x_cbits : bytes := [1; 2; 3; 4].
Definition x_ename : name := [c_generic [71]; c_generic [82; 69; 65; 68]; c_generic [69; 45; 75; 69; 89]; c_generic [50]; c_generic [51]].
Definition x_dname : name := [c_generic [71]; c_generic [82; 69; 65; 68]; c_generic [68; 45; 75; 69; 89]; c_generic [50]; c_generic [51]].
Definition x_ebits : bytes := [11; 12; 13; 14; 15; 16; 17; 18; 19; 20].
Definition x_nonce : bytes := [21; 22].
Definition x_message : bytes := [104; 105].
Definition x_content_name : name := [c_generic [80]; c_generic [100]].

Definition aes_wire (key m : bytes) (n : name) : bytes := ec_bytes (EC (Some 1) (KL (Some 1) n None) (Some x_iv) (Some (m ++ key)) None).
Definition rsa_wire (key m : bytes) (n : name) : bytes := ec_bytes (EC (Some 3) (KL (Some 1) n None) None (Some (m ++ key)) None).
Definition x_content : cdata := CData x_content_name (Some (aes_wire x_cbits x_message x_cname)).
Definition x_ckey : cdata := CData x_cname (Some (rsa_wire x_ebits x_cbits x_ename)).
Definition x_dkey : cdata := CData x_dname (Some (rsa_wire x_mbits x_nonce x_mkey ++ aes_wire x_nonce x_ebits (x_mkey ++ [c_generic [110; 111; 110; 99; 101]]))).
Definition x_db : dict bytes bytes := [(encodeName x_mkey, x_mbits)].
Definition x_content_key (n : name) : option bytes := if name_dec n x_cname then Some x_cbits else None.
Definition x_ekey (n : name) : option (bytes * bytes) := if name_dec n x_ename then Some (x_ebits, x_ebits) else None.
Definition x_member (n : name) : option (bytes * bytes) := if name_dec n x_mkey then Some (x_mbits, x_mbits) else None.
Notation x_run := (drive strip x_aes_dec x_me x_group x_db ([], [], [])).
Notation x_history := (history strip x_aes_dec x_refuses x_me None None x_group x_db).
Lemma x_start : x_history [] [] [].
Proof. constructor. Qed.
Lemma x_nodup : NoDup (map fst x_db).
Proof. constructor; [intros []|constructor]. Qed.
Ltac name_tac := unfold name_ok; repeat (apply Forall_cons; [apply gen_ok; reflexivity|]); apply Forall_nil.
Lemma x_world : world_ok x_rsa x_aes strip x_aes_dec x_content_key x_ekey x_member.
Proof.
  assert (P : forall k, rsa_pair x_rsa strip k k). { intros k m pad c. unfold x_rsa. destruct (zlen m <=? 8); [|discriminate]. intros [= <-]. apply strip_app. }
  split; [intros key m iv c [= <-]; apply strip_app|]. split; [|split].
  - intros n k. unfold x_content_key. destruct (name_dec n x_cname) as [->|]; [|discriminate]. intros _. unfold x_cname. name_tac.
  - intros n pub priv. unfold x_ekey. destruct (name_dec n x_ename) as [->|]; [|discriminate]. intros [= <- <-]. split; [unfold x_ename; name_tac|]. split; [|apply P].
    exists [c_generic [71]; c_generic [82; 69; 65; 68]], (c_generic [50]), (c_generic [51]). reflexivity.
  - intros n pub priv. unfold x_member. destruct (name_dec n x_mkey) as [->|]; [|discriminate]. intros [= <- <-]. split; [unfold x_mkey, x_me; cbn [app]; name_tac|]. split; [discriminate|apply P].
Qed.
(** The content packet (whose verification is late), the C-KEY packet (after a timeout) and the D-KEY packet *)
Definition x_moves : list move := [MConsume 5 x_content_name; MGot 0 x_content Later; MLate 0 true; MTimeout 0; MGot 0 x_ckey Accept; MGot 0 x_dkey Accept].
Definition x_i0 : cint := CInt 5 x_content_name None 1 ForContent.
Definition x_e : encryptedContent := EC (Some 1) (KL (Some 1) x_cname None) (Some x_iv) (Some (x_message ++ x_cbits)) None.
Definition x_e2 : encryptedContent := EC (Some 3) (KL (Some 1) x_ename None) None (Some (x_cbits ++ x_ebits)) None.
Definition x_i1 : cint := CInt 5 (with_for x_cname x_group) None 1 (ForCKey x_content x_e).
Definition x_i2 : cint := CInt 5 (with_for x_dname x_me) None 1 (ForDKey x_content x_e x_e2 x_dname).
Definition x_l : list cevent := [Consume 5 x_content_name None; GotData x_i0 x_content Later; Verified x_i0 x_content true; TimedOut x_i1; GotData (again x_i1) x_ckey Accept; GotData x_i2 x_dkey Accept].
Definition x_t : list cact := [CExpress x_i0; CWait x_i0 x_content; CExpress x_i1; CExpress (again x_i1); CExpress x_i2; CComplete 5 x_content x_message].
Lemma x_result : x_history x_l [] x_t.
Proof. apply (drive_history strip x_aes_dec x_me x_group x_db x_moves _ _ _ _ _ _ x_start). vm_compute. reflexivity. Qed.
Lemma x_verified i d : verified x_l i d -> (i = x_i0 /\ d = x_content) \/ (i = again x_i1 /\ d = x_ckey) \/ (i = x_i2 /\ d = x_dkey).
Proof.
  intros [Q|Q]; cbn [x_l In] in Q; repeat (destruct Q as [Q|Q]; [first [discriminate Q|injection Q as <- <-; auto]|]); destruct Q.
Qed.
Lemma x_small (w : bytes) : (zlen w <? 100000) = true -> zlen w < 2 ^ 64.
Proof. intros Q. apply Z.ltb_lt in Q. lia. Qed.
Lemma x_made : made x_aes x_content_key x_content x_message.
Proof.
  exists x_cname, x_cbits, x_iv, (aes_wire x_cbits x_message x_cname). split; [vm_compute; reflexivity|]. split; [reflexivity|]. split; [apply x_small; vm_compute; reflexivity|]. split; [reflexivity|]. eexists. split; reflexivity.
Qed.
Lemma x_honest : honest x_rsa x_aes x_content_key x_ekey x_member x_me x_db x_l.
Proof.
  split; [|split; [|split]].
  - intros i d V S. destruct (x_verified i d V) as [[-> ->]|[[-> ->]|[-> ->]]]; [|discriminate S|discriminate S]. exists x_message. exact x_made.
  - intros i d n g k V N C. unfold x_content_key in C. destruct (name_dec n x_cname) as [->|]; [|discriminate C]. injection C as <-.
    destruct (x_verified i d V) as [[-> ->]|[[-> ->]|[-> ->]]]; [discriminate N| |discriminate N].
    exists x_ename, x_ebits, x_ebits, 0, (rsa_wire x_ebits x_cbits x_ename). split; [vm_compute; reflexivity|]. split; [reflexivity|]. split; [apply x_small; vm_compute; reflexivity|]. eexists. split; reflexivity.
  - intros i d m a b pub priv V N C. unfold x_ekey in C. destruct (name_dec _ x_ename) as [Q|]; [|discriminate C]. injection C as <- <-.
    change x_ename with ([c_generic [71]; c_generic [82; 69; 65; 68]] ++ [c_generic [69; 45; 75; 69; 89]; c_generic [50]; c_generic [51]]) in Q. apply tail3_inj in Q as (-> & _ & -> & ->).
    destruct (x_verified i d V) as [[-> ->]|[[-> ->]|[-> ->]]]; [discriminate N|discriminate N|].
    exists x_mkey, x_mbits, x_mbits, x_nonce, x_iv, 0, (rsa_wire x_mbits x_nonce x_mkey), (aes_wire x_nonce x_ebits (x_mkey ++ [c_generic [110; 111; 110; 99; 101]])).
    split; [vm_compute; reflexivity|]. split; [reflexivity|]. split; [apply x_small; vm_compute; reflexivity|]. split; [apply x_small; vm_compute; reflexivity|]. split; [eexists; split; reflexivity|]. split; [reflexivity|]. eexists. split; reflexivity.
  - intros l1 l2 n pub priv E M. unfold x_member in M. destruct (name_dec n x_mkey) as [->|]; [|discriminate M]. injection M as <- <-. unfold x_l in E.
    repeat (destruct l1 as [|e1 l1]; [vm_compute; reflexivity|cbn [app] in E; first [discriminate E|injection E as <- E]]).
Qed.
Example C84_example : NoDup (map fst x_db) /\ world_ok x_rsa x_aes strip x_aes_dec x_content_key x_ekey x_member /\
  x_history x_l [] x_t /\ honest x_rsa x_aes x_content_key x_ekey x_member x_me x_db x_l /\ calls x_l = [5] /\ replies 5 x_t = [Plain x_content x_message] /\
  length (sent 5 1 x_t) = 2%nat /\ made x_aes x_content_key x_content x_message.
Proof. split; [exact x_nodup|]. split; [exact x_world|]. split; [exact x_result|]. split; [exact x_honest|]. split; [reflexivity|]. split; [reflexivity|]. split; [reflexivity|exact x_made]. Qed.
(** A second consume of the same content asks for nothing more. *)
Example C83_example_cached : exists t, x_history (x_l ++ [Consume 6 x_content_name None; GotData (CInt 6 x_content_name None 1 ForContent) x_content Accept]) [] t /\ replies 6 t = [Plain x_content x_message] /\
  sent 6 1 t = [] /\ sent 6 2 t = [].
Proof.
  exists (x_t ++ [CExpress (CInt 6 x_content_name None 1 ForContent); CComplete 6 x_content x_message]). split; [|repeat split].
  apply (drive_history strip x_aes_dec x_me x_group x_db (x_moves ++ [MConsume 6 x_content_name; MGot 0 x_content Accept]) _ _ _ _ _ _ x_start). vm_compute. reflexivity.
Qed.

(** ** Expectations that do not hold *)
Ltac drv ms :=
  destruct (x_run ms) as [[[l o] t]|] eqn:E; [|vm_compute in E; discriminate E];
  pose proof (drive_history strip x_aes_dec x_me x_group x_db ms _ _ _ _ _ _ x_start E) as H; exists l, o, t; vm_compute in E; injection E as <- <- <-; split; [exact H|].
(** Neither callback is called, although nothing is outstanding: the second part of the verified D-KEY
    packet is malformed. *)
Theorem C83_always_answered_refuted : exists l o t, x_history l o t /\ calls l = [5] /\ o = [] /\ replies 5 t = [] /\ losses 5 t = 1.
Proof.
  drv [MConsume 5 x_content_name; MGot 0 x_content Accept; MGot 0 x_ckey Accept; MGot 0 (CData x_dname (Some (rsa_wire x_mbits x_nonce x_mkey ++ [130]))) Accept]. repeat split.
Qed.
(** The same: the verified C-KEY packet names no E-KEY. *)
Theorem C83_no_key_name_refuted : exists l o t, x_history l o t /\ calls l = [5] /\ o = [] /\ replies 5 t = [] /\ losses 5 t = 1.
Proof. drv [MConsume 5 x_content_name; MGot 0 x_content Accept; MGot 0 (CData x_cname (Some (rsa_wire x_ebits x_cbits []))) Accept]. repeat split. Qed.
(** The D-KEY is short enough to be encrypted for the member directly, and the group manager publishes it
    like that (C80): the consumer reports a wrong format. *)
Theorem C84_short_dkey_refuted : exists l o t w, x_history l o t /\ sealed_for x_rsa x_aes x_mbits x_mkey 3 (Rnd 0 0 [] []) [9; 9] w /\
  (exists i d0 e e2, In (GotData i (CData x_dname (Some w)) Accept) l /\ i_stage i = ForDKey d0 e e2 x_dname) /\ replies 5 t = [Failed 1033].
Proof.
  destruct (x_run [MConsume 5 x_content_name; MGot 0 x_content Accept; MGot 0 (CData x_cname (Some (rsa_wire [9; 9] x_cbits x_ename))) Accept; MGot 0 (CData x_dname (Some (rsa_wire x_mbits [9; 9] x_mkey))) Accept]) as [[[l o] t]|] eqn:E; [|vm_compute in E; discriminate E].
  pose proof (drive_history strip x_aes_dec x_me x_group x_db _ _ _ _ _ _ _ x_start E) as H. exists l, o, t, (rsa_wire x_mbits [9; 9] x_mkey). split; [exact H|]. split; [left; eexists; split; reflexivity|].
  vm_compute in E. injection E as <- <- <-. split; [|reflexivity]. eexists _, _, _, _. split; [right; right; right; left; reflexivity|]. reflexivity.
Qed.
(** The content key is too long to be encrypted for the E-KEY directly, and the producer publishes it in two
    parts (C82): the consumer takes the nonce for the content key. *)
Definition x_long : bytes := [1; 2; 3; 4; 5; 6; 7; 8; 9; 21; 22].
Theorem C84_long_ckey_refuted : exists l o t w1 w2 m, x_history l o t /\ sealed_for x_rsa x_aes x_ebits x_ename 3 (Rnd 0 0 x_nonce x_iv) x_long (w1 ++ w2) /\
  In (GotData x_i0 (CData x_content_name (Some (aes_wire x_long x_message x_cname))) Accept) l /\
  (exists i d0 e, In (GotData i (CData x_cname (Some (w1 ++ w2))) Accept) l /\ i_stage i = ForCKey d0 e) /\
  replies 5 t = [Plain (CData x_content_name (Some (aes_wire x_long x_message x_cname))) m] /\ m <> x_message.
Proof.
  destruct (x_run [MConsume 5 x_content_name; MGot 0 (CData x_content_name (Some (aes_wire x_long x_message x_cname))) Accept;
    MGot 0 (CData x_cname (Some (rsa_wire x_ebits x_nonce x_ename ++ aes_wire x_nonce x_long (x_ename ++ [c_generic [110; 111; 110; 99; 101]])))) Accept; MGot 0 x_dkey Accept]) as [[[l o] t]|] eqn:E; [|vm_compute in E; discriminate E].
  pose proof (drive_history strip x_aes_dec x_me x_group x_db _ _ _ _ _ _ _ x_start E) as H. eexists l, o, t, (rsa_wire x_ebits x_nonce x_ename), (aes_wire x_nonce x_long (x_ename ++ [c_generic [110; 111; 110; 99; 101]])), _. split; [exact H|].
  split; [right; split; [reflexivity|]; eexists _, _; split; [eexists; split; reflexivity|]; split; [split; [reflexivity|]; eexists; split; reflexivity|reflexivity]|].
  vm_compute in E. injection E as <- <- <-. split; [right; left; reflexivity|]. split; [eexists _, _, _; split; [right; right; left; reflexivity|reflexivity]|]. split; [reflexivity|discriminate].
Qed.

Print Assumptions C83_one_reply.
Print Assumptions C83_plaintext.
Print Assumptions C83_interests.
Print Assumptions C83_group.
Print Assumptions C83_errors.
Print Assumptions C83_silent.
Print Assumptions C83_sent.
Print Assumptions C83_timeout.
Print Assumptions C83_cached.
Print Assumptions C83_add_key.
Print Assumptions C84_end_to_end.
Print Assumptions C83_always_answered_refuted.
Print Assumptions C83_no_key_name_refuted.
Print Assumptions C84_short_dkey_refuted.
Print Assumptions C84_long_ckey_refuted.
