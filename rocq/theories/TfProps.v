(** * C79: TpmBackEndFile, with failing operations on files and processes that end during a call *)
From Verif Require Import Base BaseLemmas BlobModel NameModel WireModel HierModel ChainModel DerModel DerSpec DerProofs DerProps PkcsModel PkcsSpec PkcsProps TfModel TfSpec TfProofs.
Local Open Scope res_scope.

(** base64Encode, with lines of 64 characters or without, can be read again. *)
Theorem C79_base64 : forall b newlines, bytes_ok b -> b64decode (base64Encode b newlines) = Ok b.
Proof. intros. now apply base64_round. Qed.
(** No line is longer than 64 characters, and each ends with a newline. *)
Theorem C79_lines : forall b, bytes_ok b -> exists ls, base64Encode b true = concat (map (fun l => l ++ [10]) ls) /\ concat ls = base64Encode b false /\ Forall (fun l => 1 <= zlen l <= 64 /\ ~ In 10 l) ls.
Proof.
  intros b Hb. unfold base64Encode. cbv zeta. assert (C : Forall (fun c => c <> 10) (b64encode b)) by (eapply Forall_impl; [|apply encode_chars, Hb]; cbv beta; tauto). generalize (Nat.le_refl (length (b64encode b))). generalize (length (b64encode b)) at 2 3 as fuel. generalize (b64encode b) C. clear.
  intros s C fuel. revert s C. induction fuel as [|fuel IH]; intros s C L; [destruct s; [exists []; repeat split; constructor|cbn in L; lia]|]. cbn [add_newlines]. destruct s as [|c s]; [exists []; repeat split; constructor|].
  rewrite <- (firstn_skipn 64 (c :: s)) in C. apply Forall_app in C. destruct C as [C1 C2]. destruct (IH (skipn 64 (c :: s)) C2) as (ls & E & J & F); [rewrite skipn_length; cbn [length] in *; lia|]. exists (firstn 64 (c :: s) :: ls). rewrite E. cbn [map concat]. split; [now rewrite <- app_assoc|]. split; [rewrite J; apply firstn_skipn|]. constructor; [|exact F].
  split; [unfold zlen; rewrite firstn_length; cbn [length]; lia|]. intro I. rewrite Forall_forall in C1. apply (C1 10 I). reflexivity.
Qed.

Section Tf.
Variable K : Type.
Variable load_der : bytes -> res K.
Variable to_der : K -> bytes.
Variable pbkdf2 : Z -> bytes -> Z -> bytes -> res bytes.
Variable des des_inv : bytes -> bytes -> bytes -> res bytes.
Variable floor40 : Z -> Z.
Variable sha : bytes -> bytes.
Variable derive : tkey K -> bytes.
Notation tkey := (tkey K).
Notation call := (call K).
Notation hasKey := (hasKey K load_der floor40 sha).
Notation getKeyHandle := (getKeyHandle K load_der floor40 sha).
Notation createKey := (createKey K load_der to_der floor40 sha derive).
Notation deleteKey := (deleteKey sha).
Notation exportKey := (exportKey K load_der to_der pbkdf2 des floor40 sha).
Notation dump := (dump K to_der pbkdf2 des).
Notation parse_bag := (parse_bag K load_der pbkdf2 des_inv floor40).
Notation importKey := (importKey K load_der to_der pbkdf2 des_inv floor40 sha).
Notation p_call := (p_call K load_der to_der pbkdf2 des_inv floor40 sha derive).
Notation run := (run K load_der to_der pbkdf2 des_inv floor40 sha derive).
Notation storable := (storable K load_der to_der floor40).
Notation no_collision := (no_collision sha).
Notation may_use := (may_use K sha derive).
Notation may_store := (may_store K load_der pbkdf2 des_inv floor40).
Notation call_ok := (call_ok K load_der to_der pbkdf2 des_inv floor40 sha derive).
Notation new_name := (new_name K sha derive).
Notation m_run := (m_run K load_der pbkdf2 des_inv floor40 sha derive).
Notation reach := (reach K load_der to_der pbkdf2 des_inv floor40 sha derive).
(** What a call gives when nothing fails *)
Notation answer p f := (snd (perform p f)).

(** ** While nothing fails: a map from names to keys *)
(** After any history, also in a new process, every name has the key that the history gave it. *)
Theorem C79_history : forall U h n, no_collision U -> Forall (call_ok U) h -> U n ->
  perform (getKeyHandle n) (run h no_files) = (run h no_files, Ok (m_run h n)) /\
  perform (hasKey n) (run h no_files) = (run h no_files, Ok (match m_run h n with Some _ => true | None => false end)) /\
  forall pw salt iv, perform (exportKey n pw salt iv) (run h no_files) = (run h no_files, match m_run h n with Some k => dump k pw salt iv | None => Err RuntimeError end).
Proof.
  intros U h n NC F Un. pose proof (rep_run K load_der to_der pbkdf2 des_inv floor40 sha derive U NC h F) as R. pose proof (rep_got K load_der floor40 sha U _ _ n R Un) as G. split; [now rewrite perform_get, G|]. split; [now rewrite perform_has, (rep_found K load_der floor40 sha U _ _ n R Un)|].
  intros pw salt iv. rewrite perform_export, G. now destruct (m_run h n).
Qed.
(** createKey: the name is the one asked for, the one made of the SHA-256 of the public key, or the
    first random one that is free; it is refused exactly if there is none, and then nothing changes. *)
Theorem C79_create : forall U h i kp k rs, no_collision U -> Forall (call_ok U) h -> call_ok U (Create K i kp (Ok k) rs) ->
  match new_name (m_run h) i kp k rs with
  | Some n => answer (createKey i kp (Ok k) rs) (run h no_files) = Ok (n, k)
  | None => exists e, answer (createKey i kp (Ok k) rs) (run h no_files) = Err e
  end.
Proof.
  intros U h i kp k rs NC F [HU HS]. pose proof (rep_run K load_der to_der pbkdf2 des_inv floor40 sha derive U NC h F) as R. destruct (rep_create K load_der to_der floor40 sha derive U NC _ _ i kp k rs R HU (HS k eq_refl)) as (f' & r & E & C & _).
  rewrite E. exact C.
Qed.
(** importKey and deleteKey *)
Theorem C79_import : forall U h n bag pw, no_collision U -> Forall (call_ok U) h -> call_ok U (Import K n bag pw) ->
  answer (importKey n bag pw) (run h no_files) = match m_run h n with Some _ => Err RuntimeError | None => match parse_bag bag pw with Ok _ => Ok tt | Err e => Err e end end.
Proof.
  intros U h n bag pw NC F [HU HS]. pose proof (rep_run K load_der to_der pbkdf2 des_inv floor40 sha derive U NC h F) as R. assert (Un : U n) by (apply HU; reflexivity). unfold TfModel.importKey. rewrite perform_bind, perform_has, (rep_found K load_der floor40 sha U _ _ n R Un).
  destruct (m_run h n); [reflexivity|]. cbv iota. rewrite perform_bind. cbn [plift perform]. destruct (parse_bag bag pw) as [k|e] eqn:P; [|reflexivity]. destruct (rep_save K load_der to_der floor40 sha U NC _ _ n k R Un (HS k P)) as (f' & -> & _). reflexivity.
Qed.
Theorem C79_delete : forall f n, answer (deleteKey n) f = Ok tt /\ answer (hasKey n) (fst (perform (deleteKey n) f)) = Ok false.
Proof.
  intros f n. rewrite perform_has. unfold TfModel.deleteKey, found. cbn [perform]. destruct (f (path sha n)) eqn:E; cbn [perform give fst snd]; rewrite ?E; [|split; reflexivity]. cbn [plift perform fst snd]. rewrite set_same. split; reflexivity.
Qed.
(** A key that is exported and imported under another name, there or elsewhere, is the same key. *)
Theorem C79_transfer : forall U h n k pw salt iv bag priv U' h' n',
  no_collision U -> Forall (call_ok U) h -> U n -> m_run h n = Some k -> answer (exportKey n pw salt iv) (run h no_files) = Ok bag ->
  no_collision U' -> Forall (call_ok U') h' -> U' n' -> m_run h' n' = None -> storable k ->
  floor_ok floor40 -> (tk_type k = TK_RSA \/ tk_type k = TK_EC) -> private_key_info (to_der (tk_key k)) (key_oid (tk_type k)) priv -> load_der (to_der (tk_key k)) = Ok (tk_key k) ->
  (forall dk m ct, zlen m mod 8 = 0 -> des dk iv m = Ok ct -> des_inv dk iv ct = Ok m /\ bytes_ok ct) -> bytes_ok salt -> bytes_ok iv -> zlen bag < 2 ^ 64 ->
  answer (importKey n' bag pw) (run h' no_files) = Ok tt /\ answer (getKeyHandle n') (run (h' ++ [Import K n' bag pw]) no_files) = Ok (Some k).
Proof.
  intros U h n k pw salt iv bag priv U' h' n' NC F Un M E NC' F' Un' M' Sk Hf T H L Hd Hs Hi Sz.
  assert (D : dump k pw salt iv = Ok bag). { destruct (C79_history U h n NC F Un) as (_ & _ & X). rewrite X, M in E. exact E. }
  assert (P : parse_bag bag pw = Ok k).
  { unfold TfModel.parse_bag. unfold TfModel.dump in D. destruct pw as [w|].
    - rewrite <- (app_nil_r bag). apply (C71_round_trip K load_der to_der pbkdf2 des des_inv floor40 Hf k priv w salt iv bag); assumption.
    - injection D as <-. apply (C71_plain K load_der to_der floor40 Hf k priv); assumption. }
  assert (CO : call_ok U' (Import K n' bag pw)). { split; [intros n0 ->; exact Un'|]. intros k0 H0. cbn [TfSpec.may_store] in H0. assert (k0 = k) by congruence. subst k0. exact Sk. }
  split; [rewrite (C79_import U' h' n' bag pw NC' F' CO), M', P; reflexivity|].
  destruct (C79_history U' (h' ++ [Import K n' bag pw]) n' NC') as (X & _); [apply Forall_app; split; [exact F'|constructor; [exact CO|constructor]]|exact Un'|]. rewrite X. cbn [snd]. f_equal. unfold TfSpec.m_run. rewrite fold_left_app. cbn [fold_left TfSpec.m_call]. fold (m_run h'). rewrite M', P. unfold m_set. destruct (name_dec n' n'); [reflexivity|contradiction].
Qed.

(** ** Operations fail, and processes end in the middle *)
(** A call that reports success has done all that it does when nothing fails. *)
Theorem C79_success : forall c f f', exec false (p_call c) f f' (Some (Ok tt)) -> perform (p_call c) f = (f', Ok tt).
Proof. intros c f f' H. eapply det_call; eassumption. Qed.
(** A call that reports an error, or during which the process ends, leaves every name other than its
    own as it was, and its own name as it was, or with the key it stores, or without a key (deleted, or
    a part of a file is left, for which getKeyHandle gives None or raises ValueError). *)
Theorem C79_call : forall U rd c f f' r n, no_collision U -> call_ok U c -> exec rd (p_call c) f f' r -> U n ->
  answer (getKeyHandle n) f' = answer (getKeyHandle n) f \/
  (may_use c n /\ ((c = Delete K n /\ answer (getKeyHandle n) f' = Ok None) \/
    exists k, may_store c k /\ (answer (getKeyHandle n) f' = Ok (Some k) \/ answer (getKeyHandle n) f' = Ok None \/ answer (getKeyHandle n) f' = Err ValueError))).
Proof.
  intros U rd c f f' r n NC [HU HS] X Un. rewrite !perform_get. cbn [snd]. apply (exec_call K load_der to_der pbkdf2 des_inv floor40 sha derive) in X. destruct X as [-> |(n0 & M & Fr & D)]; [left; reflexivity|].
  destruct (list_eq_dec Z.eq_dec (path sha n) (path sha n0)) as [Eq|Ne]; [|left; unfold got; now rewrite (Fr _ Ne)]. apply (path_inj sha U NC) in Eq; [|exact Un|apply HU, M]. subst n0. right. split; [exact M|].
  destruct D as [[Ec D]|(k & t & t1 & M2 & Et & P & D & _)]; [left; split; [exact Ec|unfold got; now rewrite D]|]. right. exists k. split; [exact M2|]. apply (got_prefix K load_der to_der floor40 sha k t t1); auto.
Qed.
(** Whatever failed, and wherever processes ended: a key that is found under a name is one that was
    generated or imported for this very name; otherwise there is None or a ValueError. *)
Theorem C79_no_wrong_key : forall U rd h f n, no_collision U -> Forall (call_ok U) h -> reach rd h f -> U n ->
  answer (getKeyHandle n) f = Ok None \/ answer (getKeyHandle n) f = Err ValueError \/
  exists k c, answer (getKeyHandle n) f = Ok (Some k) /\ In c h /\ may_use c n /\ may_store c k.
Proof.
  intros U rd h f n NC F R Un. rewrite perform_get. cbn [snd]. destruct (f (path sha n)) as [t'|] eqn:E; [|left; unfold got; now rewrite E].
  destruct (reach_inv K load_der to_der pbkdf2 des_inv floor40 sha derive U NC rd h f R F n t' Un E) as (c & k & t & I & M1 & M2 & Et & P). assert (Sk : storable k) by (rewrite Forall_forall in F; destruct (F c I) as [_ HS]; apply HS, M2).
  destruct (got_prefix K load_der to_der floor40 sha k t t' f n Sk Et P E) as [-> |[-> | ->]]; auto. right. right. exists k, c. auto.
Qed.
(** While reads do not fail, a key that is there is not replaced by importKey, nor by createKey with a
    name that is given or random. *)
Theorem C79_no_overwrite : forall U c f f' r n k, no_collision U -> call_ok U c -> U n -> answer (getKeyHandle n) f = Ok (Some k) ->
  c <> Delete K n -> (forall i kp gen rs, c = Create K i kp gen rs -> kp_idType kp <> KI_SHA256) -> exec false (p_call c) f f' r -> answer (getKeyHandle n) f' = Ok (Some k).
Proof.
  intros U c f f' r n k NC [HU HS] Un G Nd Ns X. rewrite perform_get in *. cbn [snd] in *. apply (exec_call K load_der to_der pbkdf2 des_inv floor40 sha derive) in X. destruct X as [-> |(n0 & M & Fr & D)]; [exact G|].
  destruct (list_eq_dec Z.eq_dec (path sha n) (path sha n0)) as [Eq|Ne]; [|unfold got; rewrite (Fr _ Ne); exact G]. apply (path_inj sha U NC) in Eq; [|exact Un|apply HU, M]. subst n0. exfalso.
  destruct D as [[Ec D]|(k0 & t & t1 & M2 & Et & P & D & Fd)]; [contradiction|]. rewrite found_got, G in Fd. assert (Y : @Ok bool true = Ok false); [apply Fd; [reflexivity|]|discriminate Y]. intro Sc. destruct c as [i kp gen rs|n0|n0 bag pw]; [|contradiction|contradiction]. apply (Ns i kp gen rs eq_refl), Sc.
Qed.
(** Whatever was left on the disk, deleteKey and then importKey or createKey makes a name usable. *)
Theorem C79_repair : forall f n k bag pw, storable k -> parse_bag bag pw = Ok k ->
  exists f1 f2, perform (deleteKey n) f = (f1, Ok tt) /\ perform (importKey n bag pw) f1 = (f2, Ok tt) /\ answer (getKeyHandle n) f2 = Ok (Some k).
Proof.
  intros f n k bag pw Sk P. destruct (C79_delete f n) as [D1 D2]. destruct (perform (deleteKey n) f) as [f1 r1] eqn:E. cbn [fst snd] in *. subst r1. exists f1. rewrite perform_has in D2. cbn [snd] in D2.
  destruct (storable_text K load_der to_der floor40 k Sk) as (t & Et & Dt & _). eexists. split; [reflexivity|]. split.
  - unfold TfModel.importKey. rewrite perform_bind, perform_has, D2. cbv iota. rewrite perform_bind. cbn [plift perform]. rewrite P. rewrite perform_save, Et. reflexivity.
  - rewrite perform_get. cbn [snd]. unfold got. rewrite set_same, Dt. reflexivity.
Qed.
End Tf.

(** ** Non-vacuity and witnesses *)
Definition tf_der : bytes := [48; 3; 2; 1; 9].
Definition tf_info (_ : unit) : bytes := [48; 21; 2; 1; 0; 48; 9; 6; 7; 42; 134; 72; 206; 61; 2; 1; 4; 5] ++ tf_der.
Definition tf_load (b : bytes) : res unit := if zlist_eqb b tf_der then Ok tt else if zlist_eqb b (tf_info tt) then Ok tt else Err ValueError.
Definition tf_sha (b : bytes) : bytes := b.
Definition tf_key : tkey unit := TKey TK_EC tt.
Definition tf_derive (_ : tkey unit) : bytes := [1; 2].
Definition tf_name : name := [c_generic [97]; KEY; c_generic [49]].
Definition tf_name2 : name := [c_generic [97]; KEY; c_generic [50]].
Notation tf_has := (hasKey unit tf_load tk_floor tf_sha).
Notation tf_get := (getKeyHandle unit tf_load tk_floor tf_sha).
Notation tf_import := (Import unit tf_name (tf_info tt) None).
Notation tf_create := (Create unit [c_generic [97]] (KeyParams 1 KI_RANDOM (c_generic [])) (Ok tf_key) [[49]; [50]]).
Notation tf_call := (p_call unit tf_load tf_info tk_pbkdf2 tk_des tk_floor tf_sha tf_derive).
Lemma tf_storable : storable unit tf_load tf_info tk_floor tf_key.
Proof.
  exists tf_der. split; [vm_compute; reflexivity|]. split; [apply bytes_okb_ok; reflexivity|]. split; [vm_compute; reflexivity|]. intros a b E N. exists ValueError. unfold tf_load.
  assert (L : (length a < 5)%nat). { apply (f_equal (@length Z)) in E. rewrite app_length in E. cbn [tf_der length] in E. destruct b; [contradiction|cbn [length] in E; lia]. }
  destruct (zlist_eqb a tf_der) eqn:E1; [apply zlist_eqb_eq in E1; subst a; cbn in L; lia|]. destruct (zlist_eqb a (tf_info tt)) eqn:E2; [apply zlist_eqb_eq in E2; subst a; cbn in L; lia|]. reflexivity.
Qed.
Definition tf_used (n : name) : Prop := n = tf_name \/ n = tf_name2.
Lemma tf_nc : no_collision tf_sha tf_used.
Proof. intros n n' [-> | ->] [-> | ->] E; try reflexivity; vm_compute in E; discriminate E. Qed.
Lemma tf_ok : Forall (call_ok unit tf_load tf_info tk_pbkdf2 tk_des tk_floor tf_sha tf_derive tf_used) [tf_import; tf_create].
Proof.
  constructor; [|constructor; [|constructor]].
  - split; [intros n ->; left; reflexivity|]. intros k H. vm_compute in H. injection H as <-. apply tf_storable.
  - split; [|intros k H; injection H as <-; apply tf_storable]. intros n [[E _]|[[E _]|(_ & r & [<- |[<- |[]]] & ->)]]; [discriminate E|discriminate E|left; reflexivity|right; reflexivity].
Qed.
Example C79_example : m_run unit tf_load tk_pbkdf2 tk_des tk_floor tf_sha tf_derive [tf_import; tf_create] tf_name2 = Some tf_key /\
  snd (perform (tf_get tf_name2) (run unit tf_load tf_info tk_pbkdf2 tk_des tk_floor tf_sha tf_derive [tf_import; tf_create] no_files)) = Ok (Some tf_key).
Proof. split; [reflexivity|]. vm_compute. reflexivity. Qed.
Lemma tf_cut_reach rd : reach unit tf_load tf_info tk_pbkdf2 tk_des tk_floor tf_sha tf_derive rd [tf_import] (set_file (set_file no_files (path tf_sha tf_name) (Some [])) (path tf_sha tf_name) (Some [77; 65; 77; 67; 65])).
Proof.
  apply (R_call _ _ _ _ _ _ _ _ rd [] no_files tf_import _ None); [constructor|]. cbn [p_call]. apply XIsFile. apply XOpen. apply XWriteEnds. exists [81; 107; 61; 10]. vm_compute. reflexivity.
Qed.
(** hasKey does not always give an answer: if a process ends while it writes a key, then hasKey,
    getKeyHandle, createKey, importKey and exportKey raise ValueError (binascii.Error) for its name. *)
Theorem C79_has_answers_refuted : ~ (forall K load_der to_der pbkdf2 des_inv floor40 sha derive U rd h f n, no_collision sha U -> Forall (call_ok K load_der to_der pbkdf2 des_inv floor40 sha derive U) h -> reach K load_der to_der pbkdf2 des_inv floor40 sha derive rd h f -> U n ->
  exists b, snd (perform (hasKey K load_der floor40 sha n) f) = Ok b).
Proof.
  intro X. pose proof tf_ok as F. inversion F as [|? ? F1 F2]; subst. destruct (X unit tf_load tf_info tk_pbkdf2 tk_des tk_floor tf_sha tf_derive tf_used false [tf_import] _ tf_name tf_nc (Forall_cons _ F1 (Forall_nil _)) (tf_cut_reach false) (or_introl eq_refl)) as [b E]. vm_compute in E. discriminate E.
Qed.
(** A key is not safe from a crash in importKey's or createKey's own name only: createKey with the
    SHA-256 of the public key as the name writes over the file of the same key, and if the process ends
    there the key is lost. *)
Definition tf_sha_create : call unit := Create unit [c_generic [97]] (KeyParams 1 KI_SHA256 (c_generic [])) (Ok tf_key) [].
Theorem C79_sha_create_loses_refuted : ~ (forall K load_der to_der pbkdf2 des_inv floor40 sha derive f f' r i kp k rs n,
  snd (perform (getKeyHandle K load_der floor40 sha n) f) = Ok (Some k) -> storable K load_der to_der floor40 k -> exec false (p_call K load_der to_der pbkdf2 des_inv floor40 sha derive (Create K i kp (Ok k) rs)) f f' r -> snd (perform (getKeyHandle K load_der floor40 sha n) f') = Ok (Some k)).
Proof.
  intro X. set (n := [c_generic [97]; KEY; c_generic [1; 2]]). set (f := set_file no_files (path tf_sha n) (Some [77; 65; 77; 67; 65; 81; 107; 61; 10])).
  specialize (X unit tf_load tf_info tk_pbkdf2 tk_des tk_floor tf_sha tf_derive f (set_file f (path tf_sha n) (Some [])) None [c_generic [97]] (KeyParams 1 KI_SHA256 (c_generic [])) tf_key [] n).
  assert (E : snd (perform (tf_get n) (set_file f (path tf_sha n) (Some []))) = Ok (Some tf_key)); [apply X; [vm_compute; reflexivity|apply tf_storable|]|vm_compute in E; discriminate E].
  cbn [p_call]. apply XOpen. apply XEnd.
Qed.
(** If a read fails, a key that is there is replaced by importKey. *)
Theorem C79_read_failure_refuted : ~ (forall K load_der to_der pbkdf2 des_inv floor40 sha derive f f' r n bag pw k,
  snd (perform (getKeyHandle K load_der floor40 sha n) f) = Ok (Some k) -> exec true (p_call K load_der to_der pbkdf2 des_inv floor40 sha derive (Import K n bag pw)) f f' r -> snd (perform (getKeyHandle K load_der floor40 sha n) f') = Ok (Some k)).
Proof.
  intro X. set (f := set_file no_files (path tf_sha tf_name) (Some [77; 65; 77; 67; 65; 81; 107; 61; 10])).
  specialize (X unit tf_load tf_info tk_pbkdf2 tk_des tk_floor tf_sha tf_derive f (set_file f (path tf_sha tf_name) (Some [])) None tf_name (tf_info tt) None tf_key).
  assert (E : snd (perform (tf_get tf_name) (set_file f (path tf_sha tf_name) (Some []))) = Ok (Some tf_key)); [apply X; [vm_compute; reflexivity|]|vm_compute in E; discriminate E].
  cbn [p_call]. apply XIsFile. cbn. eapply XReadFails with (e := OtherError); [reflexivity|]. cbn. apply XOpen. apply XEnd.
Qed.
Print Assumptions C79_history.
Print Assumptions C79_transfer.
Print Assumptions C79_success.
Print Assumptions C79_call.
Print Assumptions C79_no_wrong_key.
Print Assumptions C79_no_overwrite.
