(** * C96: FilePrivateKeyStorage, with failing operations on files and processes that end during a call *)
From Verif Require Import Base BaseLemmas BlobModel NameModel UriModel UriSpec UriProofs UriProps WireModel DerModel DerSpec DerProofs DerProps DerCutProps PkcsModel IcertModel TfModel TfSpec TfProofs PkcsSpec PkcsProps SinfoProps FpkModel FpkSpec FpkProofs.
Local Open Scope res_scope.

Section Fpk.
Variable P : Type.
Variable to8 : P -> res bytes.
Variable load8 : bytes -> res P.
Variable derive : P -> res bytes.
Variable psign : P -> bytes -> Z -> res bytes.
Variable sha : bytes -> bytes.
Variable load_public : bytes -> res unit.
Variable floor40 : Z -> Z.
Variable dir : list Z.
Notation pk_new := (pk_new load_public floor40).
Notation generateKeyPair := (generateKeyPair P to8 derive sha dir).
Notation deleteKeyPair := (deleteKeyPair sha dir).
Notation getPublicKey := (getPublicKey sha load_public floor40 dir).
Notation sign := (sign P load8 psign sha dir).
Notation doesKeyExist := (doesKeyExist sha dir).
Notation file_of n e := (nameTransform sha dir (n_toUri n false) e).
Notation p_call := (p_call P to8 derive sha dir).
Notation run := (run P to8 derive sha dir).
Notation good_key := (good_key P to8 load8 derive).
Notation whole_only := (whole_only P to8 load8).
Notation names_ok := (names_ok sha).
Notation call_ok := (call_ok P to8 load8 derive).
Notation call := (call P).
Notation m_run := (m_run P).
Notation reach := (reach P to8 derive sha dir).
(** What a call gives when nothing fails *)
Notation answer p f := (snd (perform p f)).
Definition or_security {A} (r : res A) : res A := match r with Ok a => Ok a | Err _ => Err SecurityException end.

(** ** While nothing fails: a map from names to key pairs *)
Theorem C96_history : forall U h n, names_ok U -> Forall (call_ok U) h -> U n ->
  match m_run h n with
  | Some k => (exists publ, derive k = Ok publ /\ perform (getPublicKey n) (run h) = (run h, pk_new publ)) /\
      (forall data alg, perform (sign data n alg) (run h) = (run h, or_security (psign k data alg))) /\
      perform (doesKeyExist n 1) (run h) = (run h, Ok true) /\ perform (doesKeyExist n 2) (run h) = (run h, Ok true)
  | None => perform (getPublicKey n) (run h) = (run h, Err SecurityException) /\
      (forall data alg, perform (sign data n alg) (run h) = (run h, Err SecurityException)) /\
      perform (doesKeyExist n 1) (run h) = (run h, Ok false) /\ perform (doesKeyExist n 2) (run h) = (run h, Ok false)
  end.
Proof.
  intros U h n NO F Un. pose proof (rep_run P to8 load8 derive sha dir U NO h F n Un) as R. destruct (m_run h n) as [k|].
  - destruct R as (priv & publ & A & B & C & D & E & F1 & F2). split; [exists publ; split; [exact B|]; rewrite perform_pub, F1; cbn [f_text]; rewrite base64_round by exact D; reflexivity|]. split; [|rewrite !perform_exists; unfold there; rewrite F1, F2; split; reflexivity].
    intros data alg. rewrite perform_sign, F2. cbn [f_text]. unfold signed. rewrite base64_round by exact C. cbn [rbind]. rewrite E. reflexivity.
  - destruct R as [F1 F2]. split; [now rewrite perform_pub, F1|]. split; [intros data alg; now rewrite perform_sign, F2|]. rewrite !perform_exists. unfold there. rewrite F1, F2. split; reflexivity.
Qed.
(** generateKeyPair makes a key pair exactly when the name has none (and generatePrivateKey does not
    fail); otherwise it raises SecurityException and changes no file. *)
Theorem C96_generate : forall U h n g, names_ok U -> Forall (call_ok U) h -> call_ok U (Generate P n g) ->
  (m_run h n = None -> (exists k, g = Ok k) -> answer (generateKeyPair n g) (run h) = Ok tt) /\
  (m_run h n <> None \/ (exists e, g = Err e) -> perform (generateKeyPair n g) (run h) = (run h, Err SecurityException)).
Proof.
  intros U h n g NO F O. pose proof (rep_run P to8 load8 derive sha dir U NO h F) as R. split.
  - intros M [k ->]. destruct (rep_call P to8 load8 derive sha dir U NO _ _ _ R O) as (_ & X & _). cbn [FpkModel.p_call] in X. rewrite X, M. reflexivity.
  - intros H. apply gen_refused. destruct H as [H|[e ->]]; [|right; right; exists e; reflexivity]. left. pose proof (R n (proj1 O)) as Rn. destruct (m_run h n); [|contradiction]. destruct Rn as (a & b & _ & _ & _ & _ & _ & E & _). change (FpkModel.uri n) with (n_toUri n false) in *. rewrite E. intro Q. discriminate Q.
Qed.
(** Whatever is on the disk, deleteKeyPair succeeds, the name has no key then, and no other file is changed. *)
Theorem C96_delete : forall f n, exists f', perform (deleteKeyPair n) f = (f', Ok tt) /\
  answer (getPublicKey n) f' = Err SecurityException /\ (forall data alg, answer (sign data n alg) f' = Err SecurityException) /\
  (forall q, q <> file_of n pub -> q <> file_of n pri -> f' q = f q).
Proof.
  intros f n. destruct (del_perform sha dir n f) as (f' & E & V1 & V2 & V3 & V4). exists f'. split; [exact E|]. rewrite perform_pub, V1. split; [reflexivity|]. split; [intros; now rewrite perform_sign, V2|].
  intros q Q1 Q2. destruct (list_eq_dec Z.eq_dec q (mapping_path dir)) as [-> |N]; [exact V3|]. now apply V4.
Qed.
(** mapping.txt has a line for each generation that succeeded, in their order: the URI, a space and the
    path of the files without the extension.  deleteKeyPair removes no line. *)
Theorem C96_mapping : forall U h, names_ok U -> Forall (call_ok U) h ->
  text_of (run h) (mapping_path dir) = concat (map (fun n => n_toUri n false ++ [32] ++ file_of n [] ++ [10]) (generated P (fun _ => None) h)).
Proof. intros U h NO F. apply (map_run P to8 load8 derive sha dir U NO h F). Qed.
(** Two names do not share a file; no key is kept in mapping.txt. *)
Theorem C96_files : forall U n n' e e', names_ok U -> U n -> U n' -> In e [pub; pri] -> In e' [pub; pri] ->
  (file_of n e = file_of n' e' -> n = n' /\ e = e') /\ file_of n e <> mapping_path dir.
Proof.
  intros U n n' e e' NO Un Un' I I'. split.
  - intros E. destruct I as [<- |[<- |[]]], I' as [<- |[<- |[]]]; [split; [eapply np_inj; eauto|reflexivity]|exfalso; exact (pub_pri _ _ _ _ E)|exfalso; exact (pub_pri _ _ _ _ (eq_sym E))|split; [eapply np_inj; eauto|reflexivity]].
  - destruct I as [<- |[<- |[]]]; [apply pub_map|apply pri_map].
Qed.
(** doesKeyExist for a symmetric key raises AttributeError whatever there is; for a class that is not a
    KeyClass it is False. *)
Theorem C96_exists : forall f n c, answer (doesKeyExist n c) f =
  match c with 1 => Ok (match f (file_of n pub) with Some _ => true | None => false end) | 2 => Ok (match f (file_of n pri) with Some _ => true | None => false end) | 3 => Err AttributeError | _ => Ok false end.
Proof. intros f n c. rewrite perform_exists. cbn [snd]. destruct (Z.eqb_spec c 1) as [-> |N1]; [reflexivity|]. destruct (Z.eqb_spec c 2) as [-> |N2]; [reflexivity|]. destruct (Z.eqb_spec c 3) as [-> |N3]; [reflexivity|]. destruct c as [|[[p|p|]|[p|p|]|]|p]; try reflexivity; exfalso; lia. Qed.

(** ** Operations fail, and processes end in the middle *)
(** A call that reports success has done all that it does when nothing fails. *)
Theorem C96_success : forall c f f', exec (p_call c) f f' (Some (Ok tt)) -> perform (p_call c) f = (f', Ok tt).
Proof. intros c f f' H. eapply det_call; eassumption. Qed.
(** ... and when generateKeyPair does, only the owner may read the file of the private key. *)
Theorem C96_mode : forall n g f f', exec (generateKeyPair n g) f f' (Some (Ok tt)) ->
  exists x y, f' (file_of n pub) = Some x /\ f_mode x = Mode 292 /\ f' (file_of n pri) = Some y /\ f_mode y = Mode 256.
Proof.
  intros n g f f' X. apply (C96_success (Generate P n g)) in X. cbn [FpkModel.p_call] in X. destruct (f (file_of n pub)) eqn:E1; [rewrite (gen_refused P to8 derive sha dir n g f) in X by (left; unfold FpkModel.uri; congruence); discriminate X|]. destruct (f (file_of n pri)) eqn:E2; [rewrite (gen_refused P to8 derive sha dir n g f) in X by (right; left; unfold FpkModel.uri; congruence); discriminate X|].
  destruct (material P to8 derive g) as [[priv publ]|e] eqn:M; [|rewrite (gen_refused P to8 derive sha dir n g f) in X by (right; right; eauto); discriminate X]. destruct (gen_done P to8 derive sha dir n g f priv publ E1 E2 M) as (f1 & E & V1 & V2 & _). rewrite E in X. injection X as <-. eexists _, _. split; [exact V1|]. split; [reflexivity|]. split; [exact V2|reflexivity].
Qed.
(** Whatever fails in a call, and wherever the process ends, the keys of other names are as they were. *)
Definition of_name (c : call) (n : name) : Prop := match c with Generate _ m _ => m = n | Delete _ m => m = n end.
Theorem C96_others : forall U c f f' r n, names_ok U -> call_ok U c -> U n -> exec (p_call c) f f' r -> ~ of_name c n ->
  answer (getPublicKey n) f' = answer (getPublicKey n) f /\ (forall data alg, answer (sign data n alg) f' = answer (sign data n alg) f) /\ (forall kc, answer (doesKeyExist n kc) f' = answer (doesKeyExist n kc) f).
Proof.
  intros U c f f' r n NO O Un X N. assert (Un0 : U (call_name P c)) by (destruct c; cbn in *; tauto). assert (N0 : n <> call_name P c) by (destruct c; cbn in *; congruence).
  destruct (rep_frame sha dir U NO f f' (call_name P c) n Un0 Un N0) as [E1 E2]; [intros q Q1 Q2 Q3; apply (call_frame P to8 load8 derive sha load_public dir c f f' r q X Q1 Q2 Q3)|].
  split; [rewrite !perform_pub; cbn [snd]; now rewrite E1|]. split; [intros; rewrite !perform_sign; cbn [snd]; now rewrite E2|]. intro kc. rewrite !perform_exists. cbn [snd]. unfold there. now rewrite E1, E2.
Qed.
(** A name for which there is a public or a private key: generateKeyPair never changes a file. *)
Theorem C96_no_overwrite : forall n g f f' r, answer (doesKeyExist n 1) f = Ok true \/ answer (doesKeyExist n 2) f = Ok true -> exec (generateKeyPair n g) f f' r -> f' = f.
Proof.
  intros n g f f' r H X. unfold there in *. rewrite !perform_exists in H. cbn [snd] in H. change (1 =? 1) with true in H. change (2 =? 1) with false in H. change (2 =? 2) with true in H. cbv iota in H. apply (gen_exec P to8 load8 derive sha load_public dir) in X. destruct X as [-> |(E1 & E2 & _)]; [reflexivity|]. unfold there in H. rewrite E1, E2 in H. destruct H as [H|H]; discriminate H.
Qed.
(** Whatever failed, and wherever processes ended: sign makes no signature with another key than one
    that was generated for this name; otherwise it raises SecurityException, or ValueError for a part of a file. *)
Theorem C96_no_wrong_key : forall U h f n data alg, names_ok U -> Forall (call_ok U) h -> (forall m k, In (Generate P m (Ok k)) h -> whole_only k) -> reach h f -> U n ->
  answer (sign data n alg) f = Err SecurityException \/ answer (sign data n alg) f = Err ValueError \/
  exists k, In (Generate P n (Ok k)) h /\ answer (sign data n alg) f = or_security (psign k data alg).
Proof.
  intros U h f n data alg NO F W R Un. rewrite perform_sign. cbn [snd]. destruct (f (file_of n pri)) as [x|] eqn:E; unfold FpkModel.uri; rewrite E; [|left; reflexivity].
  destruct (reach_beginnings P to8 load8 derive sha load_public dir U NO h f R F n Un) as [B _]. destruct (B x E) as (k & priv & I & T & u & Pu). assert (G : good_key k) by (rewrite Forall_forall in F; destruct (F _ I) as [_ G]; apply G; reflexivity). destruct G as (priv' & publ & A & _ & C & _ & L). assert (priv' = priv) by congruence. subst priv'.
  unfold signed. pose proof (base64_round priv true C) as D. rewrite Pu in D. destruct (decode_prefix _ _ _ D) as [-> |(a & c & -> & Ec)]; [right; left; reflexivity|]. cbn [rbind]. destruct c as [|z c].
  - rewrite app_nil_r in Ec. subst a. rewrite L. right. right. exists k. split; [exact I|reflexivity].
  - destruct (W n k I priv a (z :: c) T Ec) as [e ->]; [intro Q; discriminate Q|]. left. reflexivity.
Qed.
(** ... and a public key that getPublicKey gives is one that was generated for this name, and whole
    (a SubjectPublicKeyInfo is a DER sequence; of a part of it C59_cut_sequence says that it is refused). *)
Theorem C96_public_key : forall U h f n x, names_ok U -> Forall (call_ok U) h -> (forall m k publ, In (Generate P m (Ok k)) h -> derive k = Ok publ -> exists vs, der (VSeq vs) publ) -> reach h f -> U n -> answer (getPublicKey n) f = Ok x ->
  exists k publ, In (Generate P n (Ok k)) h /\ derive k = Ok publ /\ pk_der x = Some publ.
Proof.
  intros U h f n x NO F W R Un A. rewrite perform_pub in A. cbn [snd] in A. unfold FpkModel.uri in A. destruct (f (file_of n pub)) as [y|] eqn:E; [|discriminate A].
  destruct (reach_beginnings P to8 load8 derive sha load_public dir U NO h f R F n Un) as [_ B]. destruct (B y E) as (k & publ & I & T & u & Pu). assert (G : good_key k) by (rewrite Forall_forall in F; destruct (F _ I) as [_ G]; apply G; reflexivity). destruct G as (priv & publ' & _ & A' & _ & C & _). assert (publ' = publ) by congruence. subst publ'.
  pose proof (base64_round publ true C) as D. rewrite Pu in D. destruct (decode_prefix _ _ _ D) as [X|(a & c & X & Ec)]; rewrite X in A; cbn [rbind] in A; [discriminate A|]. exists k, publ. split; [exact I|]. split; [exact T|].
  destruct c as [|z c].
  - rewrite app_nil_r in Ec. subst a. unfold IcertModel.pk_new in A. cbv zeta in A. match type of A with rbind ?m _ = _ => destruct m as [v|] end; cbn [rbind] in A; [|discriminate A]. destruct (is_oid_str v _); [destruct (load_public publ); cbn [rbind] in A; [|discriminate A]|destruct (is_oid_str v _); [|discriminate A]]; injection A as <-; reflexivity.
  - exfalso. destruct (W n k publ I T) as [vs Dv]. destruct (C59_cut_sequence vs publ a (z :: c) Dv Ec) as [e Ee]; [intro Q; discriminate Q|]. unfold IcertModel.pk_new in A. cbv zeta in A. rewrite Ee in A. cbn [rbind] in A. destruct e; discriminate A.
Qed.
(** Whatever was left on the disk, deleteKeyPair and then generateKeyPair makes a name usable. *)
Theorem C96_repair : forall f n k, good_key k ->
  exists f1 f2 publ, perform (deleteKeyPair n) f = (f1, Ok tt) /\ perform (generateKeyPair n (Ok k)) f1 = (f2, Ok tt) /\
    derive k = Ok publ /\ answer (getPublicKey n) f2 = pk_new publ /\ forall data alg, answer (sign data n alg) f2 = or_security (psign k data alg).
Proof.
  intros f n k G. destruct (del_perform sha dir n f) as (f1 & E & V1 & V2 & _). destruct (good_material P to8 load8 derive k G) as (priv & publ & A & B & C & D & L & M). destruct (gen_done P to8 derive sha dir n (Ok k) f1 priv publ V1 V2 M) as (f2 & E2 & W1 & W2 & _).
  exists f1, f2, publ. split; [exact E|]. split; [exact E2|]. split; [exact B|]. rewrite perform_pub, W1. cbn [snd f_text]. rewrite base64_round by exact D. split; [reflexivity|]. intros data alg. rewrite perform_sign, W2. cbn [snd f_text]. unfold signed. rewrite base64_round by exact C. cbn [rbind]. rewrite L. reflexivity.
Qed.
End Fpk.

(** ** Non-vacuity and witnesses *)
Definition fp_priv : bytes := [48; 3; 2; 1; 9].
Definition fp_pub : bytes := [48; 17; 48; 9; 6; 7; 42; 134; 72; 206; 61; 2; 1; 3; 4; 0; 7; 8; 9].
Definition fp_to8 (_ : unit) : res bytes := Ok fp_priv.
Definition fp_load8 (b : bytes) : res unit := if zlist_eqb b fp_priv then Ok tt else Err ValueError.
Definition fp_derive (_ : unit) : res bytes := Ok fp_pub.
Definition fp_sign (_ : unit) (data : bytes) (alg : Z) : res bytes := if alg =? 1 then Ok (7 :: data) else Err RuntimeError.
Definition fp_sha (b : bytes) : bytes := map (fun c => c mod 256) b.
Definition fp_public (_ : bytes) : res unit := Ok tt.
Definition fp_dir : list Z := [100].
Definition fp_name : name := [c_generic [97; 191]].
Definition fp_name2 : name := [c_generic [98]].
Notation fp_gen := (Generate unit fp_name (Ok tt)).
Notation fp_del := (Delete unit fp_name).
Notation fp_call := (p_call unit fp_to8 fp_derive fp_sha fp_dir).
Notation fp_getpub := (getPublicKey fp_sha fp_public tk_floor fp_dir).
Notation fp_dosign := (sign unit fp_load8 fp_sign fp_sha fp_dir).
Notation fp_exists := (doesKeyExist fp_sha fp_dir).
Definition fp_used (n : name) : Prop := n = fp_name \/ n = fp_name2.
Lemma fp_good : good_key unit fp_to8 fp_load8 fp_derive tt.
Proof. exists fp_priv, fp_pub. split; [reflexivity|]. split; [reflexivity|]. split; [apply bytes_okb_ok; reflexivity|]. split; [apply bytes_okb_ok; reflexivity|reflexivity]. Qed.
Lemma fp_names : names_ok fp_sha fp_used.
Proof.
  split.
  - intros n Hn. split.
    + exists n, []. split; [now rewrite app_nil_r|]. split; [|auto]. destruct Hn as [-> | ->]; (constructor; [split; [apply bytes_okb_ok; reflexivity|left; split; reflexivity]|constructor]).
    + destruct Hn as [-> | ->]; apply bytes_okb_ok; vm_compute; reflexivity.
  - intros n n' [-> | ->] [-> | ->] E; try reflexivity; vm_compute in E; discriminate E.
Qed.
Lemma fp_ok : Forall (call_ok unit fp_to8 fp_load8 fp_derive fp_used) [fp_gen; Generate unit fp_name2 (Ok tt); fp_del].
Proof. constructor; [split; [left; reflexivity|intros [] _; apply fp_good]|]. constructor; [split; [right; reflexivity|intros [] _; apply fp_good]|]. constructor; [left; reflexivity|constructor]. Qed.
Lemma fp_whole : whole_only unit fp_to8 fp_load8 tt.
Proof.
  intros priv a b T E N. injection T as <-. exists ValueError. unfold fp_load8. destruct (zlist_eqb a fp_priv) eqn:Q; [|reflexivity]. apply zlist_eqb_eq in Q. subst a. rewrite <- (app_nil_r fp_priv) in E at 1. apply app_inv_head in E. congruence.
Qed.
Example C96_example :
  let h := [fp_gen; Generate unit fp_name2 (Ok tt); fp_del] in let f := run unit fp_to8 fp_derive fp_sha fp_dir h in
  m_run unit h fp_name2 = Some tt /\ m_run unit h fp_name = None /\
  snd (perform (fp_dosign [1; 2] fp_name2 1) f) = Ok [7; 1; 2] /\ snd (perform (fp_dosign [1; 2] fp_name 1) f) = Err SecurityException /\
  snd (perform (fp_getpub fp_name2) f) = Ok (PK (Some fp_pub) (Some 1)) /\ length (generated unit (fun _ => None) h) = 2%nat.
Proof. cbv zeta. repeat (split; [vm_compute; reflexivity|]). vm_compute; reflexivity. Qed.

Notation fp_path e := (nameTransform fp_sha fp_dir (n_toUri fp_name false) e).
(** Where a process that generates the key pair can end: after [k] operations *)
Fixpoint cut {A} (k : nat) (p : prog A) (f : fs) : fs := match k, p with S k, Op o c => let '(f', r) := does o f in cut k (c r) f' | _, _ => f end.
Lemma cut_exec {A} k : forall (p : prog A) f, exec p f (cut k p f) None.
Proof. induction k as [|k IH]; intros p f; [constructor|]. destruct p as [r|o c]; [constructor|]. cbn [cut]. destruct (does o f) as [f' r] eqn:E. eapply X_op; [exact E|apply IH]. Qed.
Lemma cut_reach k c : reach unit fp_to8 fp_derive fp_sha fp_dir [c] (cut k (fp_call c) no_files).
Proof. apply (R_call _ _ _ _ _ [] no_files c _ None); [constructor|apply cut_exec]. Qed.
(** The public key of the example is DER *)
Example C96_public_example : exists vs, der (VSeq vs) fp_pub.
Proof.
  exists [VSeq [VOid [1; 2; 840; 10045; 2; 1]]; VBits 0 [7; 8; 9]]. destruct (C59_encode (VSeq [VSeq [VOid [1; 2; 840; 10045; 2; 1]]; VBits 0 [7; 8; 9]])) as (n & E & _ & D).
  - cbn. split; [split; [eexists 1, 2, _; split; [reflexivity|]; split; [lia|]; split; [lia|]; repeat (constructor; [lia|]); constructor|exact Logic.I]|]. split; [split; [unfold is_byte; lia|apply bytes_okb_ok; reflexivity]|exact Logic.I].
  - vm_compute in E. injection E as <-. apply D. vm_compute. reflexivity.
Qed.
(** generateKeyPair is not atomic: if the process ends after the public key is written, there is a
    public key without a private key; generateKeyPair raises SecurityException from then on. *)
Theorem C96_generate_atomic_refuted : ~ (forall P to8 load8 derive sha dir U h f n, names_ok sha U -> Forall (call_ok P to8 load8 derive U) h -> reach P to8 derive sha dir h f -> U n ->
  snd (perform (doesKeyExist sha dir n 1) f) = snd (perform (doesKeyExist sha dir n 2) f)).
Proof.
  intro X. pose proof fp_ok as F. inversion F as [|? ? F1 F2]; subst. specialize (X unit fp_to8 fp_load8 fp_derive fp_sha fp_dir fp_used [fp_gen] _ fp_name fp_names (Forall_cons _ F1 (Forall_nil _)) (cut_reach 5 fp_gen) (or_introl eq_refl)). vm_compute in X. discriminate X.
Qed.
Example C96_generate_atomic_example : let f := cut 5 (fp_call fp_gen) no_files in
  snd (perform (fp_getpub fp_name) f) = Ok (PK (Some fp_pub) (Some 1)) /\ snd (perform (fp_dosign [1] fp_name 1) f) = Err SecurityException /\ snd (perform (fp_call fp_gen) f) = Err SecurityException.
Proof. cbv zeta. repeat (split; [vm_compute; reflexivity|]). vm_compute; reflexivity. Qed.
(** deleteKeyPair is not atomic: if the process ends in between, doesKeyExist says that there is no
    public key, and sign still makes signatures with the private key. *)
Theorem C96_delete_atomic_refuted : ~ (forall P to8 load8 derive psign sha dir U h f n data alg s, names_ok sha U -> Forall (call_ok P to8 load8 derive U) h -> reach P to8 derive sha dir h f -> U n ->
  snd (perform (doesKeyExist sha dir n 1) f) = Ok false -> snd (perform (sign P load8 psign sha dir data n alg) f) <> Ok s).
Proof.
  intro X. pose proof fp_ok as F. inversion F as [|? ? F1 F2]; subst. inversion F2 as [|? ? _ F3]; subst. inversion F3 as [|? ? F4 _]; subst.
  refine (X unit fp_to8 fp_load8 fp_derive fp_sign fp_sha fp_dir fp_used ([fp_gen] ++ [fp_del]) (cut 2 (fp_call fp_del) (run unit fp_to8 fp_derive fp_sha fp_dir [fp_gen])) fp_name [1] 1 [7; 1] fp_names _ _ (or_introl eq_refl) _ _).
  - apply Forall_app. split; (constructor; [assumption|constructor]).
  - apply (R_call _ _ _ _ _ [fp_gen] (run unit fp_to8 fp_derive fp_sha fp_dir [fp_gen]) fp_del _ None); [|apply cut_exec]. apply (R_call _ _ _ _ _ [] no_files fp_gen _ (Some (snd (perform (fp_call fp_gen) no_files)))); [constructor|]. apply (perform_exec (fp_call fp_gen) no_files).
  - vm_compute. reflexivity.
  - vm_compute. reflexivity.
Qed.
(** The private key is not always hidden from other users: it is written before the mode of its file is
    set, and if the process ends there the whole key is in a file with the mode of any new file. *)
Theorem C96_private_mode_refuted : ~ (forall P to8 load8 derive sha dir U h f n x k priv, names_ok sha U -> Forall (call_ok P to8 load8 derive U) h -> reach P to8 derive sha dir h f -> U n ->
  f (nameTransform sha dir (n_toUri n false) pri) = Some x -> to8 k = Ok priv -> b64decode (f_text x) = Ok priv -> f_mode x = Mode 256).
Proof.
  intro X. pose proof fp_ok as F. inversion F as [|? ? F1 F2]; subst.
  specialize (X unit fp_to8 fp_load8 fp_derive fp_sha fp_dir fp_used [fp_gen] _ fp_name (File (base64Encode fp_priv true) NewFile) tt fp_priv fp_names (Forall_cons _ F1 (Forall_nil _)) (cut_reach 7 fp_gen) (or_introl eq_refl)).
  assert (Y : NewFile = Mode 256); [apply X; vm_compute; reflexivity|discriminate Y].
Qed.
Print Assumptions C96_history.
Print Assumptions C96_generate.
Print Assumptions C96_delete.
Print Assumptions C96_mapping.
Print Assumptions C96_files.
Print Assumptions C96_exists.
Print Assumptions C96_success.
Print Assumptions C96_mode.
Print Assumptions C96_others.
Print Assumptions C96_no_overwrite.
Print Assumptions C96_no_wrong_key.
Print Assumptions C96_public_key.
Print Assumptions C96_repair.
Print Assumptions C96_generate_atomic_refuted.
Print Assumptions C96_delete_atomic_refuted.
Print Assumptions C96_private_mode_refuted.
