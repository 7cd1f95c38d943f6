(** * C70: SigningInfo *)
From Verif Require Import Base BaseLemmas NameModel NameSpec NameProofs DictModel WireModel UriModel UriSpec UriProofs UriProps HierModel HierSpec HierProps PibModel PibSpec PibProps FrontModel FrontSpec FrontProofs FrontProofs5 ChainModel ChainSpec ChainProofs ChainProofs2 ChainProps ChainExamples SinfoModel.

(** Names with a URI (C12) *)
Definition uri_ok (n : name) : Prop := exists p q, n = p ++ q /\ Forall plain_comp p /\ (q = [] \/ exists d, q = [d] /\ digest_comp d).
(** What a string can say: the kind of signer and its name *)
Definition kind (ty : Z) (n : name) : signinginfo :=
  if ty =? SI_NULL then si_default
  else if ty =? SI_SHA256 then si_ofSha256
  else if (ty =? SI_ID) && (if name_dec n digest_identity then true else false) then si_ofSha256
  else si_new ty n.

Lemma uri_set : forall n, uri_ok n -> n_set (n_toUri n false) = Ok n.
Proof. intros n (p & q & -> & A & B). apply C12_uri_round_trip; assumption. Qed.
Lemma digest_uri : uri_ok digest_identity.
Proof. exists digest_identity, []. split; [reflexivity|]. split; [|auto]. repeat (apply Forall_cons; [split; [apply bytes_okb_ok; reflexivity|left; split; reflexivity]|]). apply Forall_nil. Qed.
Lemma uri_inj : forall a b, uri_ok a -> uri_ok b -> n_toUri a false = n_toUri b false -> a = b.
Proof. intros a b A B E. apply uri_set in A, B. rewrite E in A. congruence. Qed.
Lemma eqb_refl : forall l, zlist_eqb l l = true. Proof. intros l. apply zlist_eqb_eq. reflexivity. Qed.
Lemma eqb_false : forall a b, a <> b -> zlist_eqb a b = false. Proof. intros a b N. destruct (zlist_eqb a b) eqn:E; [|reflexivity]. apply zlist_eqb_eq in E. contradiction. Qed.
Lemma split_colon : forall a r, Forall (fun x => x <> 58) a -> find_idx 58 (a ++ 58 :: r) = Some (length a) /\ firstn (length a) (a ++ 58 :: r) = a /\ skipn (S (length a)) (a ++ 58 :: r) = r.
Proof. intros a r H. split; [apply find_idx_app, H|]. clear H. induction a as [|x a [IH1 IH2]]; [split; reflexivity|]. split; [cbn; f_equal; exact IH1|exact IH2]. Qed.
Ltac nocolon := repeat (apply Forall_cons; [discriminate|]); apply Forall_nil.

(** The string of a SigningInfo, read back, has its kind of signer and its name.  The digest
    algorithm, the validity period and the objects of the PIB are not in the string; an identity
    named /localhost/identity/digest-sha256 means the digest. *)
Theorem C70_round_trip : forall si, 0 <= si_type si <= 4 -> uri_ok (si_name si) -> exists str, si_str si = Ok str /\ si_parse str = Ok (kind (si_type si) (si_name si)).
Proof.
  intros [ty n hi hk d v] T U. cbn [si_type si_name] in *. unfold si_str, kind. cbn [si_type si_name]. unfold SI_NULL, SI_ID, SI_KEY, SI_CERT, SI_SHA256.
  assert (C : ty = 0 \/ ty = 1 \/ ty = 2 \/ ty = 3 \/ ty = 4) by lia. destruct C as [-> |[-> |[-> |[-> | -> ]]]]; cbn [Z.eqb Pos.eqb andb orb]; eexists; (split; [reflexivity|]).
  - reflexivity.
  - unfold si_parse. rewrite eqb_false by discriminate. destruct (split_colon s_id (n_toUri n false) ltac:(nocolon)) as (-> & -> & ->). rewrite eqb_refl. destruct (name_dec n digest_identity) as [-> |N].
    + rewrite eqb_refl. reflexivity.
    + rewrite eqb_false by (intros E; apply N, uri_inj; [exact U|apply digest_uri|exact E]). rewrite (uri_set n U). reflexivity.
  - unfold si_parse. rewrite eqb_false by discriminate. destruct (split_colon s_key (n_toUri n false) ltac:(nocolon)) as (-> & -> & ->). rewrite (eqb_false s_key s_id) by discriminate. rewrite eqb_refl. rewrite (uri_set n U). reflexivity.
  - unfold si_parse. rewrite eqb_false by discriminate. destruct (split_colon s_cert (n_toUri n false) ltac:(nocolon)) as (-> & -> & ->). rewrite (eqb_false s_cert s_id), (eqb_false s_cert s_key) by discriminate. rewrite eqb_refl. rewrite (uri_set n U). reflexivity.
  - unfold si_parse. rewrite eqb_false by discriminate. destruct (split_colon s_id (n_toUri digest_identity false) ltac:(nocolon)) as (-> & -> & ->). rewrite !eqb_refl. reflexivity.
Qed.
(** Different signers have different strings. *)
Theorem C70_injective : forall a b, 0 <= si_type a <= 4 -> 0 <= si_type b <= 4 -> uri_ok (si_name a) -> uri_ok (si_name b) -> si_str a = si_str b -> kind (si_type a) (si_name a) = kind (si_type b) (si_name b).
Proof. intros a b Ta Tb Ua Ub E. destruct (C70_round_trip a Ta Ua) as (x & Ex & Px), (C70_round_trip b Tb Ub) as (y & Ey & Py). congruence. Qed.
(** What any string means *)
Theorem C70_strings : forall str,
  (str = [] -> si_parse str = Ok si_default) /\
  (str <> [] -> ~ In 58 str -> si_parse str = Err ValueError) /\
  (forall scheme rest, str = scheme ++ 58 :: rest -> ~ In 58 scheme ->
    (scheme = [105; 100] -> rest = n_toUri digest_identity false -> si_parse str = Ok si_ofSha256) /\
    (scheme = [105; 100] -> rest <> n_toUri digest_identity false -> si_parse str = rbind (n_set rest) (fun n => Ok (si_ofIdentity n))) /\
    (scheme = [107; 101; 121] -> si_parse str = rbind (n_set rest) (fun n => Ok (si_ofKey n))) /\
    (scheme = [99; 101; 114; 116] -> si_parse str = rbind (n_set rest) (fun n => Ok (si_ofCertificate n))) /\
    (scheme <> [105; 100] -> scheme <> [107; 101; 121] -> scheme <> [99; 101; 114; 116] -> si_parse str = Err ValueError)).
Proof.
  intros str. split; [intros ->; reflexivity|]. split.
  - intros N H. unfold si_parse. rewrite (eqb_false str []) by exact N. rewrite find_idx_none; [reflexivity|]. apply Forall_forall. intros x I ->. contradiction.
  - intros scheme rest -> H. assert (F : Forall (fun x => x <> 58) scheme) by (apply Forall_forall; intros x I ->; contradiction). unfold si_parse. rewrite (eqb_false (scheme ++ _) []) by (destruct scheme; discriminate). destruct (split_colon scheme rest F) as (-> & -> & ->). fold s_id s_key s_cert. unfold rbind.
    split; [|split; [|split; [|split]]].
    + intros -> ->. rewrite !eqb_refl. reflexivity.
    + intros -> N. rewrite eqb_refl, (eqb_false rest) by exact N. destruct (n_set rest); reflexivity.
    + intros ->. rewrite (eqb_false s_key s_id) by discriminate. rewrite eqb_refl. destruct (n_set rest); reflexivity.
    + intros ->. rewrite (eqb_false s_cert s_id), (eqb_false s_cert s_key) by discriminate. rewrite eqb_refl. destruct (n_set rest); reflexivity.
    + intros N1 N2 N3. rewrite !eqb_false by assumption. reflexivity.
Qed.
(** Written and read back, a SigningInfo denotes the same signer (C68). *)
Definition denotes_name (si : signinginfo) : Prop := (forall hd, si_identity si = Some hd -> si_name si = h_name hd) /\ (forall hd, si_key si = Some hd -> si_name si = h_name hd).
Ltac prop4 := unfold SI_NULL, SI_ID, SI_KEY, SI_CERT, SI_SHA256 in *; split; [lia|]; split; [first [assumption|apply Forall_nil]|]; split; [reflexivity|]; split; [intros hd X; discriminate X|]; split; [intros hd X; discriminate X|first [assumption|intros X; discriminate X]].
Section K.
Variable P : Type.
Variable derive : P -> bytes.
Variable psign : Z -> P -> bytes -> bytes.
Variable pverify : bytes -> bytes -> bytes -> res bool.
Variable ktype : bytes -> res Z.
Variable sha : bytes -> bytes.
Variable load : bytes -> option bytes -> res P.
Variable ord : list name -> list name.
Theorem C70_same_signer : forall h0 keys0 s si w, crypto P derive psign pverify ktype sha -> order ord -> reach P derive psign pverify ktype sha load ord h0 keys0 s ->
  si_proper (k_log s) si -> denotes_name si -> uri_ok (si_name si) -> ~ (si_type si = SI_ID /\ si_name si = digest_identity) ->
  exists str si', si_str si = Ok str /\ si_parse str = Ok si' /\ si_proper (k_log s) si' /\ (signer h0 (k_log s) si w <-> signer h0 (k_log s) si' w).
Proof.
  intros h0 keys0 s si w Cr Or R Ps [Di Dk] U Nd. destruct (reach_ok P derive psign pverify ktype sha load ord h0 keys0 s Cr Or R) as [B _]. pose proof Ps as (T & V & _ & Li & Lk & Hc). destruct (C70_round_trip si T U) as (str & E1 & E2). exists str, (kind (si_type si) (si_name si)). split; [exact E1|]. split; [exact E2|].
  destruct si as [ty n hi hk d v]. cbn [si_type si_name si_identity si_key] in *.
  assert (C : ty = 0 \/ ty = 1 \/ ty = 2 \/ ty = 3 \/ ty = 4) by lia. unfold signer, si_proper, kind, SI_NULL, SI_ID, SI_KEY, SI_CERT, SI_SHA256 in *.
  destruct C as [-> |[-> |[-> |[-> | -> ]]]]; cbn [Z.eqb Pos.eqb andb si_type si_name si_identity si_key si_new si_default si_ofSha256 si_digest]; unfold SI_NULL, SI_ID, SI_KEY, SI_CERT, SI_SHA256 in *.
  - split; [prop4|]. split; intros (A & _); (split; [exact A|]); repeat (split; [intros X; discriminate X|]); intros X; discriminate X.
  - destruct (name_dec n digest_identity) as [-> |_]; [destruct Nd; auto|]. cbn [si_type si_name si_identity si_key si_new si_default si_ofSha256 si_digest]. split; [prop4|].
    destruct hi as [h|].
    + destruct (live_id_val P ktype h0 s h B (Li h eq_refl)) as [_ I]. unfold pib_hist in I. rewrite (Di h eq_refl), I. split; intros (_ & A & _); (split; [intros X; discriminate X|]); (split; [exact A|]); repeat (split; [intros X; discriminate X|]); intros X; discriminate X.
    + split; intros (_ & A & _); (split; [intros X; discriminate X|]); (split; [exact A|]); repeat (split; [intros X; discriminate X|]); intros X; discriminate X.
  - split; [prop4|].
    destruct hk as [h|]; [|split; intros (_ & _ & A & _); (split; [intros X; discriminate X|]); (split; [intros X; discriminate X|]); (split; [exact A|]); split; intros X; discriminate X].
    destruct (live_key_val P ktype h0 s h B (Lk h eq_refl)) as (ko & _ & Ak & _ & _ & Kb & _). rewrite (Dk h eq_refl). unfold pib_hist in Kb. unfold by_key. rewrite Kb. split; intros (_ & _ & A & _); (split; [intros X; discriminate X|]); (split; [intros X; discriminate X|]); (split; [|split; intros X; discriminate X]).
    + intros _. split; [intros _; exact (A eq_refl)|intros N; contradiction].
    + intros _. exact (proj1 (A eq_refl) Ak).
  - split; [prop4|].
    split; intros (_ & _ & _ & A & _); (split; [intros X; discriminate X|]); (split; [intros X; discriminate X|]); (split; [intros X; discriminate X|]); (split; [exact A|]); intros X; discriminate X.
  - split; [prop4|].
    split; intros (_ & _ & _ & _ & A); (split; [intros X; discriminate X|]); (split; [intros X; discriminate X|]); (split; [intros X; discriminate X|]); (split; [intros X; discriminate X|]); exact A.
Qed.
End K.
(** ** The setters *)
(** the signer a call chooses *)
Definition chooses (c : sicall) : option (Z * name * option handle * option handle) :=
  match c with
  | SReset t => if (0 <=? t) && (t <=? 4) then Some (t, [], None, None) else None
  | SIdentity n => Some (SI_ID, n, None, None) | SKeyName n => Some (SI_KEY, n, None, None) | SCertificate n => Some (SI_CERT, n, None, None) | SSha256 => Some (SI_SHA256, [], None, None)
  | SPibIdentity h => Some (SI_ID, match h with Some h => h_name h | None => [] end, h, None)
  | SPibKey h => Some (SI_KEY, match h with Some h => h_name h | None => [] end, None, h)
  | SDigest _ | SValidity _ => None
  end.
Lemma call_choice : forall s c, match chooses c with
  | Some (t, n, i, k) => si_call s c = SI t n i k (match c with SSha256 => DA_SHA256 | _ => si_digest s end) vp_none
  | None => si_type (si_call s c) = si_type s /\ si_name (si_call s c) = si_name s /\ si_identity (si_call s c) = si_identity s /\ si_key (si_call s c) = si_key s end.
Proof.
  intros s [t|n|n|n| |h|h|d|v]; cbn [chooses]; try reflexivity; try (repeat split; reflexivity).
  unfold si_call, si_reset, SI_NULL, SI_ID, SI_KEY, SI_CERT, SI_SHA256. destruct ((0 <=? t) && (t <=? 4)) eqn:E.
  - apply andb_prop in E. destruct E as [E1 E2]. assert (C : t = 0 \/ t = 1 \/ t = 2 \/ t = 3 \/ t = 4) by lia. destruct C as [-> |[-> |[-> |[-> | -> ]]]]; reflexivity.
  - replace ((t =? 0) || (t =? 1) || (t =? 2) || (t =? 3) || (t =? 4)) with false; [repeat split; reflexivity|]. symmetry. apply Bool.andb_false_iff in E. rewrite !Bool.orb_false_iff, !Z.eqb_neq. lia.
Qed.
(** The last choice of a signer counts; it forgets the validity period. *)
Theorem C70_last_signer : forall s l1 c l2 t n i k, chooses c = Some (t, n, i, k) -> Forall (fun c => chooses c = None) l2 ->
  let s' := si_run s (l1 ++ c :: l2) in si_type s' = t /\ si_name s' = n /\ si_identity s' = i /\ si_key s' = k.
Proof.
  intros s l1 c l2 t n i k E F. cbv zeta. unfold si_run. rewrite fold_left_app. cbn [fold_left]. set (s1 := fold_left si_call l1 s). pose proof (call_choice s1 c) as X. rewrite E in X.
  assert (Y : si_type (si_call s1 c) = t /\ si_name (si_call s1 c) = n /\ si_identity (si_call s1 c) = i /\ si_key (si_call s1 c) = k) by (rewrite X; repeat split; reflexivity). clear X. revert Y. generalize (si_call s1 c). induction F as [|a l2 Ha F IH]; intros z Y; [exact Y|]. cbn [fold_left]. apply IH. pose proof (call_choice z a) as W. rewrite Ha in W. destruct W as (A & B & C & D), Y as (A' & B' & C' & D'). repeat split; congruence.
Qed.
Theorem C70_last_validity : forall s l c v, si_validity (si_call (si_run s l) c) = match c with SValidity v => v | SDigest _ => si_validity (si_run s l) | _ => match chooses c with Some _ => vp_none | None => si_validity (si_run s l) end end /\
  si_validity (si_run s (l ++ [SValidity v])) = v.
Proof.
  intros s l c v. split; [|unfold si_run; rewrite fold_left_app; reflexivity]. pose proof (call_choice (si_run s l) c) as X. destruct c as [t| | | | | | | |]; try reflexivity. cbn [chooses] in *. destruct ((0 <=? t) && (t <=? 4)) eqn:E; [rewrite X; reflexivity|]. unfold si_call, si_reset, SI_NULL, SI_ID, SI_KEY, SI_CERT, SI_SHA256. replace ((t =? 0) || (t =? 1) || (t =? 2) || (t =? 3) || (t =? 4)) with false; [reflexivity|]. symmetry. apply Bool.andb_false_iff in E. rewrite !Bool.orb_false_iff, !Z.eqb_neq. lia.
Qed.
(** Every SigningInfo made with the API has a type that can be written; a PIB object in it has its name. *)
Theorem C70_reachable : forall l, let s := si_run si_default l in 0 <= si_type s <= 4 /\ denotes_name s /\ (si_type s <> SI_ID -> si_identity s = None) /\ (si_type s <> SI_KEY -> si_key s = None) /\ exists str, si_str s = Ok str.
Proof.
  intros l. cbv zeta. unfold denotes_name. assert (H : 0 <= si_type (si_run si_default l) <= 4 /\ ((forall hd, si_identity (si_run si_default l) = Some hd -> si_name (si_run si_default l) = h_name hd) /\ (forall hd, si_key (si_run si_default l) = Some hd -> si_name (si_run si_default l) = h_name hd)) /\ (si_type (si_run si_default l) <> SI_ID -> si_identity (si_run si_default l) = None) /\ (si_type (si_run si_default l) <> SI_KEY -> si_key (si_run si_default l) = None)).
  { induction l as [|c l IH] using rev_ind; [split; [split; discriminate|]; split; [split; intros hd X; discriminate X|]; split; intros _; reflexivity|]. unfold si_run in *. rewrite fold_left_app. cbn [fold_left]. set (s := fold_left si_call l si_default) in *. pose proof (call_choice s c) as X. destruct (chooses c) as [[[[t n] i] k]|] eqn:E.
    - rewrite X. cbn [si_type si_name si_identity si_key]. destruct c as [t'| | | | |[h|]|[h|]| |]; cbn [chooses] in E; try discriminate E; try (destruct ((0 <=? t') && (t' <=? 4)) eqn:E2; [|discriminate E]); injection E as <- <- <- <-; unfold SI_ID, SI_KEY, SI_CERT, SI_SHA256; (split; [try (apply andb_prop in E2; destruct E2); lia|]); (split; [split; intros hd Y; first [discriminate Y|injection Y as ->; reflexivity]|]); (split; intros N; try reflexivity; exfalso; apply N; reflexivity).
    - destruct X as (-> & -> & -> & ->). exact IH. }
  destruct H as (T & D & A & B). split; [exact T|]. split; [exact D|]. split; [exact A|]. split; [exact B|]. unfold si_str, SI_NULL, SI_ID, SI_KEY, SI_CERT, SI_SHA256. set (s := si_run si_default l) in *. assert (C : si_type s = 0 \/ si_type s = 1 \/ si_type s = 2 \/ si_type s = 3 \/ si_type s = 4) by lia. destruct C as [C|[C|[C|[C|C]]]]; rewrite C; eexists; reflexivity.
Qed.
(** getPibIdentity and getPibKey raise ValueError unless the signer was last chosen as an identity or
    as a key; then they give the PIB object that was given, if one was. *)
Theorem C70_pib_objects : forall s l1 c l2 t n i k, chooses c = Some (t, n, i, k) -> Forall (fun c => chooses c = None) l2 ->
  let s' := si_run s (l1 ++ c :: l2) in
  si_getPibIdentity s' = (if t =? 1 then Ok i else Err ValueError) /\ si_getPibKey s' = (if t =? 2 then Ok k else Err ValueError).
Proof.
  intros s l1 c l2 t n i k E F. cbv zeta. destruct (C70_last_signer s l1 c l2 t n i k E F) as (A & _ & B & C). unfold si_getPibIdentity, si_getPibKey, SI_ID, SI_KEY. rewrite A, B, C. split; [destruct (t =? 1)|destruct (t =? 2)]; reflexivity.
Qed.
(** Two spellings of the same name may denote different signers: only the exact string means the digest. *)
Theorem C70_spelling_refuted : ~ (forall a b n x y, n_set a = Ok n -> n_set b = Ok n -> si_parse (s_id ++ 58 :: a) = Ok x -> si_parse (s_id ++ 58 :: b) = Ok y -> si_type x = si_type y).
Proof.
  intros X. specialize (X (n_toUri digest_identity false) (n_toUri digest_identity true) digest_identity si_ofSha256 (si_ofIdentity digest_identity) eq_refl eq_refl eq_refl eq_refl). discriminate X.
Qed.
(** A certificate to sign with *)
Definition ex_uri : name := [c_generic [97; 47; 58]; c_generic []; Comp CT_OTHER 32 [61]].
Example C70_example : uri_ok ex_uri /\ si_str (si_ofCertificate ex_uri) = Ok [99;101;114;116;58;47;97;37;50;70;37;51;65;47;46;46;46;47;51;50;61;37;51;68] /\
  si_parse [99;101;114;116;58;47;97;37;50;70;37;51;65;47;46;46;46;47;51;50;61;37;51;68] = Ok (si_ofCertificate ex_uri).
Proof.
  split; [|split; vm_compute; reflexivity]. exists ex_uri, []. split; [reflexivity|]. split; [|auto]. repeat (apply Forall_cons; [split; [apply bytes_okb_ok; reflexivity|vm_compute; intuition congruence]|]). apply Forall_nil.
Qed.
Example C70_example_signer : t_reach [] [] t_s1 /\ si_proper (k_log t_s1) (si_ofPibKey t_hk1) /\ denotes_name (si_ofPibKey t_hk1) /\ uri_ok t_k1.
Proof.
  split; [exact t_reach1|]. split; [|split].
  - split; [cbn; unfold SI_KEY; lia|]. split; [apply validb_ok; reflexivity|]. split; [reflexivity|]. split; [intros hd E; discriminate E|]. split; [intros hd E; injection E as <-; vm_compute; auto 20|intros E; discriminate E].
  - split; [intros hd E; discriminate E|intros hd E; injection E as <-; reflexivity].
  - exists t_k1, []. split; [reflexivity|]. split; [|auto]. repeat (apply Forall_cons; [split; [apply bytes_okb_ok; reflexivity|left; split; reflexivity]|]). apply Forall_nil.
Qed.
Print Assumptions C70_round_trip.
Print Assumptions C70_injective.
Print Assumptions C70_strings.
Print Assumptions C70_same_signer.
Print Assumptions C70_last_signer.
Print Assumptions C70_last_validity.
Print Assumptions C70_reachable.
Print Assumptions C70_spelling_refuted.
