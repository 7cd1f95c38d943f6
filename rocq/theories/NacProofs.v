(** * DecryptorV2: what each step does *)
From Verif Require Import Base BaseLemmas NameModel NameSpec NameProofs DictModel DictProofs WireModel CtlModel HierModel PibModel PibSpec PibProps FrontModel FrontProofs5 BagModel ChainModel CmdProps NacModel NacSpec.

Section N.
Variable P : Type.
Variable derive : P -> bytes.
Variable psign : Z -> P -> bytes -> bytes.
Variable pverify : bytes -> bytes -> bytes -> res bool.
Variable ktype : bytes -> res Z.
Variable load : bytes -> option bytes -> res P.
Variable ord : list name -> list name.
Variable pdec : P -> bytes -> res bytes.
Variable cbc_inv : bytes -> bytes -> bytes -> res bytes.
Variable credentials : name.
Notation kstate := (kstate P).
Notation dstate := (dstate P).
Notation do_decrypt := (do_decrypt cbc_inv).
Notation decrypt_ck := (decrypt_ck P pdec cbc_inv).
Notation import_kdk := (import_kdk P psign pverify ktype load ord).
Notation kdk_from := (kdk_from P load).
Notation ck_from := (ck_from P pdec).
Notation importSafeBag := (importSafeBag P psign pverify ktype load ord).
Notation on_ck := (on_ck P ktype ord pdec cbc_inv credentials).
Notation on_kdk := (on_kdk P psign pverify ktype load ord pdec cbc_inv).
Notation d_step := (d_step P psign pverify ktype load ord pdec cbc_inv credentials).
Notation d_run := (d_run P psign pverify ktype load ord pdec cbc_inv credentials).

(** ** The private keys of a KeyChain *)
Definition stored (c : kstate) : list (name * P) := t_handles (k_tpm c) ++ t_keys (k_tpm c).
Definition holds (c : kstate) (k : name) (p : P) : Prop := exists k0, In (k0, p) (stored c) /\ n_equals k0 k = true.
Definition grows (N : name -> P -> Prop) (c c' : kstate) : Prop := forall k p, holds c' k p -> holds c k p \/ N k p.
Definition nothing : name -> P -> Prop := fun _ _ => False.
Definition keepsT {A} (N : name -> P -> Prop) (m : sm kstate A) : Prop := forall s, grows N s (fst (m s)).
Lemma grows_refl : forall N c, grows N c c. Proof. intros N c k p H. auto. Qed.
Lemma grows_trans : forall N a b c, grows N a b -> grows N b c -> grows N a c. Proof. intros N a b c H1 H2 k p H. destruct (H2 _ _ H) as [H'|H']; auto. Qed.
Lemma grows_tpm : forall N c c', k_tpm c' = k_tpm c -> grows N c c'. Proof. intros N c c' E k p H. left. unfold holds, stored in *. rewrite E in H. exact H. Qed.
Lemma grows_weak : forall (N N' : name -> P -> Prop) c c', (forall k p, N k p -> N' k p) -> grows N c c' -> grows N' c c'. Proof. intros N N' c c' W H k p X. destruct (H _ _ X); auto. Qed.
Lemma k_bind' : forall A B N (m : sm kstate A) (f : A -> sm kstate B) s, grows N s (fst (m s)) -> (forall a, snd (m s) = Ok a -> grows N (fst (m s)) (fst (f a (fst (m s))))) -> grows N s (fst (bind m f s)).
Proof. intros A B N m f s H1 H2. unfold bind. destruct (m s) as [s1 [a|e]]; cbn [fst snd] in *; [|exact H1]. eapply grows_trans; [exact H1|apply H2; reflexivity]. Qed.
Lemma k_bind : forall A B N (m : sm kstate A) (f : A -> sm kstate B), keepsT N m -> (forall a, keepsT N (f a)) -> keepsT N (bind m f).
Proof. intros A B N m f H1 H2 s. apply k_bind'; [apply H1|]. intros a _. apply H2. Qed.
Lemma k_catch : forall A N cl (m h : sm kstate A), keepsT N m -> keepsT N h -> keepsT N (catch cl m h).
Proof. intros A N cl m h H1 H2 s. unfold catch. specialize (H1 s). destruct (m s) as [s1 [a|e]]; cbn [fst] in *; [exact H1|]. destruct (cl e); [|exact H1]. eapply grows_trans; [exact H1|apply H2]. Qed.
Lemma k_ret : forall A N (a : A), keepsT N (ret a). Proof. intros A N a s. apply grows_refl. Qed.
Lemma k_raise : forall A N e, keepsT N (@raise _ A e). Proof. intros A N a s. apply grows_refl. Qed.
Lemma k_lift : forall A N (r : res A), keepsT N (lift r). Proof. intros A N a s. apply grows_refl. Qed.
Lemma k_get : forall A N (f : kstate -> A), keepsT N (get f). Proof. intros A N f s. apply grows_refl. Qed.
Lemma k_pcall : forall N o, keepsT N (pcall P ktype ord o).
Proof. intros N o s. apply grows_tpm. unfold pcall. match goal with |- context [let (_, _) := ?e in _] => destruct e as [x a] end. reflexivity. Qed.
Lemma k_an_id : forall N m, keepsT N m -> keepsT N (an_id P m). Proof. intros N m H. apply k_bind; [exact H|]. intros []; first [apply k_ret|apply k_raise]. Qed.
Lemma k_an_key : forall N m, keepsT N m -> keepsT N (an_key P m). Proof. intros N m H. apply k_bind; [exact H|]. intros []; first [apply k_ret|apply k_raise]. Qed.
Lemma k_an_none : forall N m, keepsT N m -> keepsT N (an_none P m). Proof. intros N m H. apply k_bind; [exact H|]. intros []; first [apply k_ret|apply k_raise]. Qed.
Lemma dget_in' : forall K V (eqb : K -> K -> bool) (d : dict K V) k v, dget eqb d k = Some v -> exists k0, In (k0, v) d /\ eqb k0 k = true.
Proof. intros K V eqb d k v. induction d as [|[k' v'] d IH]; intros H; [discriminate H|]. cbn [dget] in H. destruct (eqb k' k) eqn:E; [injection H as ->; exists k'; split; [left; reflexivity|exact E]|]. destruct (IH H) as (k0 & I & E'). exists k0. split; [right; exact I|exact E']. Qed.
Lemma dset_in' : forall K V (eqb : K -> K -> bool) (d : dict K V) k v k0 v0, In (k0, v0) (dset eqb d k v) -> In (k0, v0) d \/ v0 = v /\ (k0 = k \/ eqb k0 k = true).
Proof.
  intros K V eqb d k v k0 v0. induction d as [|[k' v'] d IH]; cbn [dset]; intros H; [destruct H as [H|[]]; injection H as <- <-; auto|]. destruct (eqb k' k) eqn:E; (destruct H as [H|H]; [injection H as <- <-|]).
  - right. auto.
  - left. right. exact H.
  - left. left. reflexivity.
  - destruct (IH H) as [H'|H']; [left; right; exact H'|right; exact H'].
Qed.
Lemma dset_dset : forall K V (eqb : K -> K -> bool) (d : dict K V) k v v', eqb k k = true -> dset eqb (dset eqb d k v) k v' = dset eqb d k v'.
Proof. intros K V eqb d k v v' R. induction d as [|[k0 v0] d IH]; cbn [dset]; [rewrite R; reflexivity|]. destruct (eqb k0 k) eqn:E; cbn [dset]; rewrite E; [reflexivity|]. rewrite IH. reflexivity. Qed.
Lemma dget_dset : forall K V (eqb : K -> K -> bool) (d : dict K V) k v, eqb k k = true -> dget eqb (dset eqb d k v) k = Some v.
Proof. intros K V eqb d k v R. induction d as [|[k0 v0] d IH]; cbn [dset dget]; [rewrite R; reflexivity|]. destruct (eqb k0 k) eqn:E; cbn [dget]; rewrite E; [reflexivity|]. exact IH. Qed.
Lemma holds_eq : forall c k k' p, holds c k p -> n_equals k k' = true -> holds c k' p.
Proof. intros c k k' p (k0 & I & E) E'. exists k0. split; [exact I|]. apply (eq_trans_n _ _ _ E E'). Qed.
Lemma find_ok : forall k s s' r, tpm_find P k s = (s', r) -> grows nothing s s' /\ exists o, r = Ok o /\ forall p, o = Some p -> holds s k p.
Proof.
  intros k s s' r. unfold tpm_find, bind, get, w_tpm, put, ret. destruct (dget n_equals (t_handles (k_tpm s)) k) as [p|] eqn:E1; [|destruct (dget n_equals (t_keys (k_tpm s)) k) as [p|] eqn:E2]; intros [= <- <-].
  - split; [apply grows_refl|]. eexists. split; [reflexivity|]. intros q [= <-]. destruct (dget_in' _ _ _ _ _ _ E1) as (k0 & I & E). exists k0. split; [apply in_or_app; left; exact I|exact E].
  - assert (H : holds s k p). { destruct (dget_in' _ _ _ _ _ _ E2) as (k0 & I & E). exists k0. split; [apply in_or_app; right; exact I|exact E]. }
    split; [|eexists; split; [reflexivity|]; intros q [= <-]; exact H]. intros k' q (k0 & I & E). left. unfold stored in I. cbn [k_tpm t_handles t_keys] in I. apply in_app_or in I. destruct I as [I|I]; [|exists k0; split; [apply in_or_app; right; exact I|exact E]]. apply dset_in' in I. destruct I as [I|[-> I]]; [exists k0; split; [apply in_or_app; left; exact I|exact E]|].
    apply (holds_eq _ k); [exact H|]. destruct I as [-> |I]; [exact E|]. apply (eq_trans_n _ k0); [apply eq_sym_n, I|exact E].
  - split; [apply grows_refl|]. eexists. split; [reflexivity|]. intros p X. discriminate X.
Qed.
Lemma k_find : forall k, keepsT nothing (tpm_find P k). Proof. intros k s. destruct (tpm_find P k s) as [s' r] eqn:E. exact (proj1 (find_ok _ _ _ _ E)). Qed.
Lemma k_weak : forall A (N : name -> P -> Prop) (m : sm kstate A), keepsT nothing m -> keepsT N m. Proof. intros A N m H s. apply (grows_weak nothing); [intros k p []|apply H]. Qed.
Lemma tpm_decrypt_ok : forall c k s s' r, tpm_decrypt P pdec c k s = (s', r) -> grows nothing s s' /\ forall m, r = Ok (Some m) -> exists p, holds s k p /\ pdec p c = Ok m.
Proof.
  intros c k s s' r. unfold tpm_decrypt, bind. destruct (tpm_find P k s) as [s1 r1] eqn:E. destruct (find_ok _ _ _ _ E) as (G & o & -> & H). destruct o as [p|].
  - specialize (H p eq_refl). unfold lift. destruct (pdec p c) as [m|e] eqn:Ed; unfold ret; intros [= <- <-]; (split; [exact G|]); intros m' [= <-]. eauto.
  - unfold ret. intros [= <- <-]. split; [exact G|]. intros m X. discriminate X.
Qed.
Lemma k_known : forall i k, keepsT nothing (kdk_known P ktype ord i k).
Proof.
  intros i k. unfold kdk_known. apply k_bind.
  - apply k_catch; [apply k_bind; [apply k_an_id, k_pcall|intros; apply k_ret]|apply k_ret].
  - intros [h|]; [|apply k_ret]. apply k_catch; [apply k_bind; [apply k_an_key, k_pcall|intros; apply k_ret]|apply k_ret].
Qed.
Lemma k_tpm_import : forall k bag pw, keepsT (fun k' p => load bag pw = Ok p /\ n_equals k k' = true) (tpm_import P load k bag pw).
Proof.
  intros k bag pw s. unfold tpm_import, bind, get, w_tpm, put, lift, raise. destruct (din n_equals (t_keys (k_tpm s)) k); [apply grows_refl|]. destruct (load bag pw) as [p|e]; [|apply grows_refl]. cbn [fst]. intros k' q (k0 & I & E). unfold stored in I. cbn [k_tpm t_handles t_keys] in I. apply in_app_or in I. destruct I as [I|I]; [left; exists k0; split; [apply in_or_app; left; exact I|exact E]|].
  apply dset_in' in I. destruct I as [I|[-> I]]; [left; exists k0; split; [apply in_or_app; right; exact I|exact E]|]. right. split; [reflexivity|]. destruct I as [-> |I]; [exact E|]. apply (eq_trans_n _ k0); [apply eq_sym_n, I|exact E].
Qed.
Lemma k_delete : forall N k, keepsT N (tpm_delete P k).
Proof. intros N k s k' q (k0 & I & E). left. exists k0. split; [|exact E]. unfold stored, tpm_delete, bind, get, w_tpm, put in I. cbn [fst k_tpm t_handles t_keys] in I. apply in_app_or in I. apply in_or_app. destruct I as [I|I]; [left|right]; apply dremove_in in I; exact I. Qed.
Lemma k_sign : forall rnd m k d, keepsT nothing (tpm_sign P psign rnd m k d). Proof. intros rnd m k d. unfold tpm_sign. apply k_bind; [apply k_find|intros; apply k_ret]. Qed.
Lemma k_import : forall c bag pw rnd, keepsT (fun k p => load bag pw = Ok p /\ exists k0, cert_getKeyName (d_name c) = Ok k0 /\ n_equals k0 k = true) (importSafeBag c bag pw rnd).
Proof.
  intros c bag pw rnd. set (N := fun k p => _). unfold ChainModel.importSafeBag. apply k_bind; [apply k_lift|]. intros []. apply k_bind; [apply k_lift|]. intros i s. apply k_bind'; [apply k_lift|]. intros k Ek. cbn [lift fst snd] in Ek. cbn [lift fst]. revert s.
  match goal with |- forall s, grows N s (fst (?m s)) => change (keepsT N m) end.
  apply k_bind; [apply k_get|]. intros []; [apply k_raise|]. apply k_bind; [apply k_catch; [|apply k_ret]|].
  { apply k_bind; [apply k_an_id, k_pcall|]. intros h. apply k_bind; [apply k_an_key, k_pcall|]. intros h2. apply k_raise. }
  intros []. apply k_bind; [apply k_catch; [|apply k_raise]|].
  { intros s. eapply grows_weak; [|apply k_tpm_import]. intros k' p [L E]. split; [exact L|]. exists k. auto. }
  intros []. apply k_bind; [apply k_weak, k_sign|]. intros sg. cbv zeta. assert (F : keepsT N (bind (tpm_delete P k) (fun _ => @raise _ unit RuntimeError))) by (apply k_bind; [apply k_delete|intros; apply k_raise]).
  destruct (ktype (x_content c)) as [ty|e]; [|exact F]. destruct (pverify _ _ _) as [[]|e]; [|exact F|exact F]. apply k_bind; [apply k_an_id, k_pcall|]. intros h. apply k_bind; [apply k_an_key, k_pcall|]. intros h2. apply k_an_none, k_pcall.
Qed.

(** ** The steps *)
Definition ck (s : dstate) (k : name) : ckey := match dget n_equals (d_keys s) k with Some c => c | None => CKey None 0 [] end.
(** The Interest of each kind *)
Definition pend_send (p : pend) : name * bool * bool := match p with PCk k _ _ => (k, true, false) | PKdk _ pre _ _ _ => (kdk_name credentials pre, false, true) end.
(** What the handler of an Interest does after its Interest is taken from the Face *)
Inductive done (s : dstate) (k : name) (r : Z) (x : option Z) (N : name -> P -> Prop) (got : bytes -> Prop) (next : pend -> Prop) : dstate -> Prop :=
  | Dfail chain' code : grows N (d_chain s) chain' -> done s k r x N got next (DState (d_keys s) (d_pend s) chain' (d_out s ++ [Answer r (Failure code)]))
  | Dnext id p n cp mf chain' : x = Some id -> next p -> pend_send p = (n, cp, mf) -> grows N (d_chain s) chain' ->
      done s k r x N got next (DState (dset n_equals (d_keys s) k (CKey (ck_bits (ck s k)) id (ck_queue (ck s k)))) (dset Z.eqb (d_pend s) id p) chain' (d_out s ++ [Send id n cp mf]))
  | Dgot bits chain' : got bits -> grows N (d_chain s) chain' ->
      done s k r x N got next (DState (dset n_equals (d_keys s) k (CKey (Some bits) (ck_pending (ck s k)) [])) (d_pend s) chain' (d_out s ++ map (fun q => Answer (fst q) (do_decrypt (snd q) bits)) (ck_queue (ck s k)))).
Lemma answer_all_ok : forall bits l (s : dstate), answer_all P cbc_inv bits l s = (DState (d_keys s) (d_pend s) (d_chain s) (d_out s ++ map (fun q => Answer (fst q) (do_decrypt (snd q) bits)) l), Ok tt).
Proof.
  intros bits l. induction l as [|[r e] l IH]; intros s; cbn [answer_all map]; [rewrite app_nil_r; destruct s; reflexivity|]. unfold bind, emit, put. rewrite IH. cbn [d_keys d_pend d_chain d_out fst snd]. rewrite <- app_assoc. reflexivity.
Qed.
Lemma to_bytes_ok : forall b x, to_bytes b = Ok x -> b = Some x. Proof. intros [b|] x H; cbn in H; congruence. Qed.
Lemma decrypt_ck_done : forall k d kdk r x next (s : dstate), exists s', decrypt_ck k d kdk r s = (s', Ok tt) /\ done s k r x nothing (ck_from d (holds (d_chain s) kdk)) next s'.
Proof.
  intros k d kdk r x next s. unfold NacModel.decrypt_ck. destruct (decode_content (d_content d)) as [e|er] eqn:Ed; [|eexists; split; [reflexivity|constructor; apply grows_refl]].
  unfold bind at 1, catch, bind at 1, lift. destruct (to_bytes (ec_payload e)) as [c|er] eqn:Et; [|cbn [any_exn]; unfold ret at 1; eexists; split; [reflexivity|constructor; apply grows_refl]].
  unfold bind at 1, inchain. destruct (tpm_decrypt P pdec c kdk (d_chain s)) as [ch rr] eqn:Ec. destruct (tpm_decrypt_ok _ _ _ _ _ Ec) as [G F]. destruct rr as [[bits|]|er].
  - unfold ret at 1. destruct (F bits eq_refl) as (p & Hp & Dp). unfold bind, the_ck, get, set_key, put. cbn [d_keys d_pend d_chain d_out]. fold (ck s k). rewrite answer_all_ok. cbn [d_keys d_pend d_chain d_out]. rewrite dset_dset by apply eq_refl_n. eexists. split; [reflexivity|]. constructor; [|exact G]. exists e, c, p. apply to_bytes_ok in Et. auto.
  - unfold ret at 1. eexists. split; [reflexivity|]. unfold fail, emit, put. cbn [fst d_keys d_pend d_chain d_out]. apply Dfail. exact G.
  - cbn [any_exn]. unfold ret at 1. eexists. split; [reflexivity|]. unfold fail, emit, put. cbn [fst d_keys d_pend d_chain d_out]. apply Dfail. exact G.
Qed.
Lemma express_done : forall N got (next : pend -> Prop) k r x p n cp mf (s : dstate), next p -> pend_send p = (n, cp, mf) -> exists s', express P x k p n cp mf r s = (s', Ok tt) /\ done s k r x N got next s'.
Proof.
  intros N got next k r x p n cp mf s Hn Hs. unfold express. destruct x as [id|]; [|eexists; split; [reflexivity|constructor; apply grows_refl]].
  unfold bind, put, emit, set_pending, the_ck, set_key, get. cbn [d_keys d_pend d_chain d_out]. fold (ck s k). eexists. split; [reflexivity|]. apply (Dnext s); auto using grows_refl.
Qed.
(** The state when the handler of the Interest [id] begins *)
Definition begin_handler (s : dstate) (id : Z) (k : name) : dstate := DState (dset n_equals (d_keys s) k (CKey (ck_bits (ck s k)) 0 (ck_queue (ck s k)))) (dremove Z.eqb (d_pend s) id) (d_chain s) (d_out s).
Lemma done_weak : forall s k r x (N N' : name -> P -> Prop) (got got' : bytes -> Prop) (next next' : pend -> Prop) s', (forall a b, N a b -> N' a b) -> (forall b, got b -> got' b) -> (forall p, next p -> next' p) -> done s k r x N got next s' -> done s k r x N' got' next' s'.
Proof. intros s k r x N N' got got' next next' s' H1 H2 H3 D. destruct D; constructor; auto; eapply grows_weak; eassumption. Qed.
Lemma done_chain : forall keys pn c c' out k r x (N : name -> P -> Prop) (got : bytes -> Prop) (next : pend -> Prop) s', grows N c c' -> done (DState keys pn c' out) k r x N got next s' -> done (DState keys pn c out) k r x N got next s'.
Proof. intros keys pn c c' out k r x N got next s' G D. inversion D; subst; cbn [d_keys d_pend d_chain d_out] in *; [apply Dfail|apply (Dnext (DState keys pn c out))|apply (Dgot (DState keys pn c out))]; auto; eapply grows_trans; eassumption. Qed.
(** What the CK Data [d] says of the CK [k]: it is encrypted by the KEK of a KDK. *)
Lemma on_ck_done : forall k r d x s id, exists s', on_ck k r d x (DState (d_keys s) (dremove Z.eqb (d_pend s) id) (d_chain s) (d_out s)) = (s', Ok tt) /\
  done (begin_handler s id k) k r x nothing (fun bits => exists pre i key, kdk_info (d_name d) k = Ok (KdkInfo pre i key) /\ ck_from d (holds (d_chain s) key) bits)
    (fun p => exists pre i key, kdk_info (d_name d) k = Ok (KdkInfo pre i key) /\ p = PKdk k pre d N_RETRIES r) s'.
Proof.
  intros k r d x s id. unfold NacModel.on_ck, catch. unfold bind at 1, set_pending, the_ck, set_key, bind at 1, get, put. cbn [d_keys d_pend d_chain d_out]. fold (ck s k). unfold bind at 1, lift.
  destruct (kdk_info (d_name d) k) as [[code|pre i key]|e] eqn:E; [eexists; split; [reflexivity|]; apply (Dfail (begin_handler s id k)), grows_refl| |eexists; split; [reflexivity|]; apply (Dfail (begin_handler s id k)), grows_refl].
  unfold bind at 1, inchain. cbn [d_keys d_pend d_chain d_out]. destruct (kdk_known P ktype ord i key (d_chain s)) as [ch [b|er]] eqn:Ek; pose proof (k_known i key (d_chain s)) as G; rewrite Ek in G; cbn [fst] in G; [|eexists; split; [reflexivity|]; apply (Dfail (begin_handler s id k)), G].
  set (s1 := DState _ _ ch _). destruct b.
  - destruct (decrypt_ck_done k d key r x (fun _ => False) s1) as (s' & E1 & D). rewrite E1. exists s'. split; [reflexivity|]. apply (done_chain _ _ _ ch); [exact G|]. eapply done_weak; [| | |exact D]; [auto| |].
    + intros bits (e & c & p & A1 & A2 & A3 & A4). exists pre, i, key. split; [reflexivity|]. exists e, c, p. split; [exact A1|]. split; [exact A2|]. split; [|exact A4]. destruct (G key p A3) as [X|[]]. exact X.
    + intros p [].
  - unfold fetch_kdk. match goal with |- context [express P x k ?pp ?n ?a ?b r s1] => destruct (express_done nothing (fun bits => exists pre0 i0 key0, @Ok kdkinfo (KdkInfo pre i key) = Ok (KdkInfo pre0 i0 key0) /\ ck_from d (holds (d_chain s) key0) bits) (fun p => exists pre0 i0 key0, @Ok kdkinfo (KdkInfo pre i key) = Ok (KdkInfo pre0 i0 key0) /\ p = PKdk k pre0 d N_RETRIES r) k r x pp n a b s1) as (s' & E1 & D) end.
    { exists pre, i, key. auto. }
    { reflexivity. }
    rewrite E1. exists s'. split; [reflexivity|]. apply (done_chain _ _ _ ch); [exact G|exact D].
Qed.
Lemma import_done : forall d cred rnd r (s : dstate), exists b c' o, import_kdk d cred rnd r s = (DState (d_keys s) (d_pend s) c' (d_out s ++ o), Ok b) /\ grows (kdk_from d cred) (d_chain s) c' /\
  match b with true => o = [] | false => exists code, o = [Answer r (Failure code)] end.
Proof.
  intros d cred rnd r s. unfold NacModel.import_kdk, catch, lift.
  assert (F : exists b c' o, @pair dstate (res bool) (DState (d_keys s) (d_pend s) (d_chain s) (d_out s ++ [Answer r (Failure E_DecryptionFailure)])) (Ok false) = (DState (d_keys s) (d_pend s) c' (d_out s ++ o), Ok b) /\ grows (kdk_from d cred) (d_chain s) c' /\ match b with true => o = [] | false => exists code, o = [Answer r (Failure code)] end).
  { exists false, (d_chain s), [Answer r (Failure E_DecryptionFailure)]. split; [reflexivity|]. split; [apply grows_refl|]. eexists. reflexivity. }
  unfold bind at 1. destruct (decode_content (d_content d)) as [e|er] eqn:E1; [|exact F]. unfold bind at 1. destruct (to_bytes (ec_payload e)) as [w|er] eqn:E2; [|exact F]. unfold bind at 1. destruct (sb_wireDecode w) as [bag|er] eqn:E3; [|exact F].
  unfold bind at 1. destruct (to_bytes (ec_payloadKey e)) as [pk|er] eqn:E4; [|exact F]. unfold bind at 1. destruct (cred pk) as [[sec|]|er] eqn:E5; [| |exact F].
  - unfold bind at 1. destruct (to_bytes (sb_key bag)) as [key|er] eqn:E6; [|exact F]. clear F. unfold bind at 1, inchain. destruct (importSafeBag _ _ _ _ (d_chain s)) as [c' rr] eqn:Ei.
    assert (G : grows (kdk_from d cred) (d_chain s) c'). { pose proof (k_import (sb_certificate bag) key (Some sec) rnd (d_chain s)) as G. rewrite Ei in G. cbn [fst] in G. eapply grows_weak; [|exact G]. intros k p (L & k0 & K1 & K2). apply to_bytes_ok in E2, E4, E6. exists e, w, bag, pk, sec, key, k0. auto 10. }
    destruct rr as [[]|er].
    + exists true, c', []. rewrite app_nil_r. split; [reflexivity|]. auto.
    + exists false, c', [Answer r (Failure E_DecryptionFailure)]. split; [reflexivity|]. split; [exact G|]. eexists. reflexivity.
  - exists false, (d_chain s), [Answer r (Failure E_TpmKeyNotFound)]. split; [reflexivity|]. split; [apply grows_refl|]. eexists. reflexivity.
Qed.
Lemma on_kdk_done : forall k pre ckd r d cred rnd s id, exists s', on_kdk k pre ckd r d cred rnd (DState (d_keys s) (dremove Z.eqb (d_pend s) id) (d_chain s) (d_out s)) = (s', Ok tt) /\
  done (begin_handler s id k) k r None (kdk_from d cred) (fun bits => exists key, kdk_key_of pre = Ok key /\ ck_from ckd (fun p => holds (d_chain s) key p \/ kdk_from d cred key p) bits) (fun _ => False) s'.
Proof.
  intros k pre ckd r d cred rnd s id. unfold NacModel.on_kdk, catch. unfold bind at 1, set_pending, the_ck, set_key, bind at 1, get, put. cbn [d_keys d_pend d_chain d_out]. fold (ck s k). fold (begin_handler s id k). set (s0 := begin_handler s id k).
  destruct (import_done d cred rnd r s0) as (b & c' & o & Ei & G & Ho). unfold bind at 1. rewrite Ei. destruct b; cbn [negb].
  - subst o. rewrite app_nil_r. unfold bind at 1, lift. destruct (kdk_key_of pre) as [key|er] eqn:Ek.
    + set (s1 := DState _ _ c' _). destruct (decrypt_ck_done k ckd key r None (fun _ => False) s1) as (s' & E1 & D). rewrite E1. exists s'. split; [reflexivity|]. apply (done_chain _ _ _ c'); [exact G|]. eapply done_weak; [| | |exact D]; [intros ? ? []| |auto].
      intros bits (e & c & p & A1 & A2 & A3 & A4). exists key. split; [reflexivity|]. exists e, c, p. split; [exact A1|]. split; [exact A2|]. split; [|exact A4]. destruct (G key p A3) as [X|X]; auto.
    + eexists. split; [reflexivity|]. apply (Dfail s0). exact G.
  - destruct Ho as [code ->]. eexists. split; [reflexivity|]. apply (Dfail s0). exact G.
Qed.

(** ** The events *)
Definition x_of (o : event) : option Z := match o with EDecrypt _ _ x | EData _ _ _ _ x | ETimeout _ x => x | _ => None end.
Definition N_of (o : event) : name -> P -> Prop := match o with EData _ d cred _ _ => kdk_from d cred | _ => nothing end.
Definition got_of (s : dstate) (o : event) (p : pend) (bits : bytes) : Prop :=
  match o, p with
  | EData _ d _ _ _, PCk k _ _ => exists pre i key, kdk_info (d_name d) k = Ok (KdkInfo pre i key) /\ ck_from d (holds (d_chain s) key) bits
  | EData _ d cred _ _, PKdk _ pre ckd _ _ => exists key, kdk_key_of pre = Ok key /\ ck_from ckd (fun p => holds (d_chain s) key p \/ kdk_from d cred key p) bits
  | _, _ => False
  end.
Definition next_of (o : event) (p p' : pend) : Prop :=
  match o, p with
  | EData _ d _ _ _, PCk k _ r => exists pre i key, kdk_info (d_name d) k = Ok (KdkInfo pre i key) /\ p' = PKdk k pre d N_RETRIES r
  | ETimeout _ _, PCk k t r => 1 < t /\ p' = PCk k (t - 1) r
  | ETimeout _ _, PKdk k pre ckd t r => 1 < t /\ p' = PKdk k pre ckd (t - 1) r
  | _, _ => False
  end.
Definition about (o : event) : option Z := match o with EData id _ _ _ _ | ETimeout id _ | ENack id => Some id | _ => None end.
Lemma about_none : forall o id (s : dstate), about o = Some id -> dget Z.eqb (d_pend s) id = None -> d_step o s = (s, Ok tt).
Proof.
  intros o id s A E. assert (R : dremove Z.eqb (d_pend s) id = d_pend s). { clear A. revert E. induction (d_pend s) as [|[k v] d IH]; [reflexivity|]. cbn [dget dremove]. destruct (Z.eqb k id); [discriminate|]. intros E. rewrite IH by exact E. reflexivity. }
  destruct o; try discriminate A; injection A as ->; unfold NacModel.d_step, bind, take; rewrite E, R; destruct s; reflexivity.
Qed.
Lemma about_some : forall o id (s : dstate) p, about o = Some id -> dget Z.eqb (d_pend s) id = Some p ->
  exists s', d_step o s = (s', Ok tt) /\ done (begin_handler s id (pend_ck p)) (pend_ck p) (pend_request p) (x_of o) (N_of o) (got_of s o p) (next_of o p) s'.
Proof.
  intros o id s p A E. assert (X : forall k (m : sm dstate unit), bind (set_pending P k 0) (fun _ => m) (DState (d_keys s) (dremove Z.eqb (d_pend s) id) (d_chain s) (d_out s)) = m (begin_handler s id k)) by reflexivity.
  destruct o as [|id' d cred rnd x|id' x|id'|]; try discriminate A; injection A as ->; unfold NacModel.d_step, take; unfold bind at 1; rewrite E; destruct p as [k t r|k pre ckd t r]; cbn [pend_ck pend_request x_of N_of got_of next_of].
  - destruct (on_ck_done k r d x s id) as (s' & E' & D). exists s'. split; [exact E'|]. eapply done_weak; [| | |exact D]; auto. intros ? ? [].
  - destruct (on_kdk_done k pre ckd r d cred rnd s id) as (s' & E' & D). exists s'. split; [exact E'|]. inversion D; subst; [constructor; assumption|contradiction|constructor; assumption].
  - rewrite X. destruct (1 <? t) eqn:Et; [|eexists; split; [reflexivity|]; apply (Dfail (begin_handler s id k)), grows_refl]. apply express_done; [|reflexivity]. split; [lia|reflexivity].
  - rewrite X. destruct (1 <? t) eqn:Et; [|eexists; split; [reflexivity|]; apply (Dfail (begin_handler s id k)), grows_refl]. apply express_done; [|reflexivity]. split; [lia|reflexivity].
  - rewrite X. eexists. split; [reflexivity|]. apply (Dfail (begin_handler s id k)), grows_refl.
  - rewrite X. eexists. split; [reflexivity|]. apply (Dfail (begin_handler s id k)), grows_refl.
Qed.
(** decrypt *)
Lemma unusable_step : forall r e x (s : dstate), usable e = false -> exists code, d_step (EDecrypt r e x) s = (DState (d_keys s) (d_pend s) (d_chain s) (d_out s ++ [Answer r (Failure code)]), Ok tt).
Proof.
  intros r e x s U. unfold NacModel.d_step, decrypt. unfold usable in U. destruct (kl_type (ec_keyLocator e)) as [t|]; cbn [negb]; [|eexists; reflexivity]. destruct (t =? 1) eqn:Et; cbn [negb]; [|eexists; reflexivity]. destruct (ec_iv e); [discriminate U|]. eexists. reflexivity.
Qed.
Lemma usable_step : forall r e x (s : dstate), usable e = true -> let k := ck_of e in
  match dget n_equals (d_keys s) k with
  | Some c => match ck_bits c with
              | Some bits => d_step (EDecrypt r e x) s = (DState (d_keys s) (d_pend s) (d_chain s) (d_out s ++ [Answer r (do_decrypt e bits)]), Ok tt)
              | None => d_step (EDecrypt r e x) s = (DState (dset n_equals (d_keys s) k (CKey None (ck_pending c) (ck_queue c ++ [(r, e)]))) (d_pend s) (d_chain s) (d_out s), Ok tt)
              end
  | None => exists s', d_step (EDecrypt r e x) s = (s', Ok tt) /\ done (DState (dset n_equals (d_keys s) k (CKey None 0 [(r, e)])) (d_pend s) (d_chain s) (d_out s)) k r x nothing (fun _ => False) (fun p => p = PCk k N_RETRIES r) s'
  end.
Proof.
  intros r e x s U k. unfold NacModel.d_step, decrypt. unfold usable in U. destruct (kl_type (ec_keyLocator e)) as [t|]; [|discriminate U]. destruct (ec_iv e) as [iv|] eqn:Ei; [|discriminate U]. rewrite U. cbn [negb]. fold (ck_of e). fold k.
  destruct (dget n_equals (d_keys s) k) as [c|] eqn:Ek.
  - destruct (ck_bits c) as [bits|] eqn:Eb; unfold bind, get, set_key, put, emit, ret; rewrite Ek, Eb; reflexivity.
  - unfold bind at 1, get. rewrite Ek. cbn [ck_bits ck_pending ck_queue app]. unfold bind at 1, set_key, put. unfold fetch_ck. apply express_done; reflexivity.
Qed.
End N.
