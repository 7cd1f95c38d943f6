(** * Proofs for TpmBackEndFile *)
From Verif Require Import Base BaseLemmas BlobModel NameModel WireModel HierModel ChainModel PkcsModel TfModel TfSpec.
Local Open Scope res_scope.

(** ** base64 *)
Lemma val_char v : 0 <= v < 64 -> b64_val (b64_char v) = Some v.
Proof.
  intro H. unfold b64_char. destruct (v <? 26) eqn:A; [unfold b64_val; replace ((65 <=? 65 + v) && (65 + v <=? 90)) with true by lia; f_equal; lia|].
  destruct (v <? 52) eqn:B; [unfold b64_val; replace ((65 <=? 97 + (v - 26)) && (97 + (v - 26) <=? 90)) with false by lia; replace ((97 <=? 97 + (v - 26)) && (97 + (v - 26) <=? 122)) with true by lia; f_equal; lia|].
  destruct (v <? 62) eqn:C; [unfold b64_val; replace ((65 <=? 48 + (v - 52)) && (48 + (v - 52) <=? 90)) with false by lia; replace ((97 <=? 48 + (v - 52)) && (48 + (v - 52) <=? 122)) with false by lia; replace ((48 <=? 48 + (v - 52)) && (48 + (v - 52) <=? 57)) with true by lia; f_equal; lia|].
  destruct (v =? 62) eqn:D; [replace v with 62 by lia; reflexivity|replace v with 63 by lia; reflexivity].
Qed.
Lemma char_range v : 0 <= v < 64 -> b64_char v <> 61 /\ b64_char v <> 10 /\ 0 <= b64_char v <= 127.
Proof. intro H. unfold b64_char. repeat match goal with |- context [if ?b then _ else _] => destruct b eqn:? end; lia. Qed.
Lemma read_char v r q left pads : 0 <= v < 64 -> b64_read (b64_char v :: r) q left pads =
  if q =? 0 then b64_read r 1 v 0
  else if q =? 1 then l <-- b64_read r 2 (v mod 16) 0 ;; Ok (left * 4 + v / 16 :: l)
  else if q =? 2 then l <-- b64_read r 3 (v mod 4) 0 ;; Ok (left * 16 + v / 4 :: l)
  else l <-- b64_read r 0 0 0 ;; Ok (left * 64 + v :: l).
Proof. intro H. cbn [b64_read]. destruct (char_range v H) as (A & _). replace (b64_char v =? 61) with false by lia. rewrite val_char by exact H. reflexivity. Qed.
Ltac dv := Z.to_euclidean_division_equations; lia.
Lemma three (P : bytes -> Prop) : P [] -> (forall x, P [x]) -> (forall x y, P [x; y]) -> (forall x y z r, P r -> P (x :: y :: z :: r)) -> forall b, P b.
Proof.
  intros H0 H1 H2 H3 b. assert (X : P b /\ (forall x, P (x :: b)) /\ forall x y, P (x :: y :: b)); [|apply X]. induction b as [|a b (A & B & C)]; [auto|]. split; [apply B|]. split; [intro; apply C|]. intros x y. apply H3, A.
Qed.
Lemma six_a x : 0 <= x < 256 -> x / 4 * 4 + (x mod 4 * 16) / 16 = x.
Proof. intro. rewrite Z.div_mul by lia. dv. Qed.
Lemma six_b x y : 0 <= x < 256 -> 0 <= y < 256 -> x / 4 * 4 + (x mod 4 * 16 + y / 16) / 16 = x /\ (x mod 4 * 16 + y / 16) mod 16 = y / 16.
Proof. intros. assert (0 <= y / 16 < 16) by dv. rewrite (Z.add_comm (x mod 4 * 16)), Z.div_add, Z.mod_add by lia. rewrite (Z.div_small (y / 16)), (Z.mod_small (y / 16)) by lia. split; [dv|reflexivity]. Qed.
Lemma six_c y z : 0 <= y < 256 -> 0 <= z < 256 -> y / 16 * 16 + (y mod 16 * 4 + z / 64) / 4 = y /\ (y mod 16 * 4 + z / 64) mod 4 = z / 64.
Proof. intros. assert (0 <= z / 64 < 4) by dv. rewrite (Z.add_comm (y mod 16 * 4)), Z.div_add, Z.mod_add by lia. rewrite (Z.div_small (z / 64)), (Z.mod_small (z / 64)) by lia. split; [dv|reflexivity]. Qed.
Lemma six_d y : 0 <= y < 256 -> y / 16 * 16 + (y mod 16 * 4) / 4 = y.
Proof. intro. rewrite Z.div_mul by lia. dv. Qed.
Lemma read_encode b : bytes_ok b -> b64_read (b64encode b) 0 0 0 = Ok b.
Proof.
  induction b as [|x|x y|x y z r IH] using three; intro H.
  - reflexivity.
  - inversion H as [|? ? Hx _]; subst. unfold is_byte in Hx. cbn [b64encode]. rewrite !read_char by dv. cbn [Z.eqb Pos.eqb]. change (b64_read [61; 61] 2 ((x mod 4 * 16) mod 16) 0) with (Ok (@nil Z)). cbn [rbind]. rewrite six_a by lia. reflexivity.
  - inversion H as [|? ? Hx H']; subst. inversion H' as [|? ? Hy _]; subst. unfold is_byte in *. cbn [b64encode]. rewrite !read_char by dv. cbn [Z.eqb Pos.eqb]. change (b64_read [61] 3 ((y mod 16 * 4) mod 4) 0) with (Ok (@nil Z)). cbn [rbind]. destruct (six_b x y) as [-> ->]; [lia|lia|]. rewrite six_d by lia. reflexivity.
  - inversion H as [|? ? Hx H']; subst. inversion H' as [|? ? Hy H'']; subst. inversion H'' as [|? ? Hz Hr]; subst. unfold is_byte in *. cbn [b64encode]. rewrite !read_char by dv. cbn [Z.eqb Pos.eqb]. rewrite IH by exact Hr. cbn [rbind]. destruct (six_b x y) as [-> ->]; [lia|lia|]. destruct (six_c y z) as [-> ->]; [lia|lia|]. do 4 f_equal. dv.
Qed.
Lemma encode_chars b : bytes_ok b -> Forall (fun c => c <> 10 /\ 0 <= c <= 127) (b64encode b).
Proof.
  assert (C : forall v, 0 <= v < 64 -> b64_char v <> 10 /\ 0 <= b64_char v <= 127) by (intros v H; destruct (char_range v H); tauto).
  induction b as [|x|x y|x y z r IH] using three; intro H; cbn [b64encode]; [constructor| | |].
  - inversion H as [|? ? Hx _]; subst. unfold is_byte in Hx. repeat (constructor; [try (apply C; dv); lia|]). constructor.
  - inversion H as [|? ? Hx H']; subst. inversion H' as [|? ? Hy _]; subst. unfold is_byte in *. repeat (constructor; [try (apply C; dv); lia|]). constructor.
  - inversion H as [|? ? Hx H']; subst. inversion H' as [|? ? Hy H'']; subst. inversion H'' as [|? ? Hz Hr]; subst. unfold is_byte in *. do 4 (constructor; [apply C; dv|]). apply IH, Hr.
Qed.
(** Newlines are skipped *)
Lemma read_filter s : forall q left pads, b64_read s q left pads = b64_read (filter (fun c => negb (c =? 10)) s) q left pads.
Proof.
  induction s as [|c s IH]; intros; [reflexivity|]. cbn [filter]. destruct (c =? 10) eqn:E; cbn [negb].
  - replace c with 10 by lia. cbn [b64_read]. change (10 =? 61) with false. change (b64_val 10) with (@None Z). cbv iota. apply IH.
  - cbn [b64_read]. destruct (c =? 61); [destruct (2 <=? q); [destruct (4 <=? _); [reflexivity|]|]; apply IH|]. destruct (b64_val c) as [v|]; [|apply IH]. destruct (q =? 0); [apply IH|]. destruct (q =? 1); [now rewrite IH|]. destruct (q =? 2); now rewrite IH.
Qed.
Lemma filter_newlines : forall fuel s, (length s <= fuel)%nat -> Forall (fun c => c <> 10) s -> filter (fun c => negb (c =? 10)) (add_newlines fuel s) = s.
Proof.
  induction fuel as [|fuel IH]; intros s L F; [destruct s; [reflexivity|cbn in L; lia]|]. cbn [add_newlines]. destruct s as [|c s]; [reflexivity|]. rewrite <- (firstn_skipn 64 (c :: s)) in F. apply Forall_app in F. destruct F as [F1 F2].
  rewrite !filter_app. cbn [filter]. change (negb (10 =? 10)) with false. cbv iota. cbn [app]. rewrite IH.
  - rewrite <- (firstn_skipn 64 (c :: s)) at 3. f_equal. clear - F1. induction F1 as [|x l H F IH]; [reflexivity|]. cbn [filter]. replace (negb (x =? 10)) with true by lia. now rewrite IH.
  - rewrite skipn_length. cbn [length] in *. lia.
  - exact F2.
Qed.
Lemma newlines_chars : forall fuel s, Forall (fun c => 0 <= c <= 127) s -> Forall (fun c => 0 <= c <= 127) (add_newlines fuel s).
Proof.
  induction fuel as [|fuel IH]; intros s F; [constructor|]. cbn [add_newlines]. destruct s as [|c s]; [constructor|]. rewrite <- (firstn_skipn 64 (c :: s)) in F. apply Forall_app in F. destruct F as [F1 F2]. apply Forall_app. split; [exact F1|]. apply Forall_app. split; [constructor; [lia|constructor]|apply IH, F2].
Qed.
Lemma encode_ascii b nl : bytes_ok b -> Forall (fun c => 0 <= c <= 127) (base64Encode b nl).
Proof.
  intro H. assert (F : Forall (fun c => 0 <= c <= 127) (b64encode b)) by (eapply Forall_impl; [|apply encode_chars, H]; cbv beta; tauto). unfold base64Encode. cbv zeta. destruct nl; [apply newlines_chars, F|exact F].
Qed.
Lemma base64_round b nl : bytes_ok b -> b64decode (base64Encode b nl) = Ok b.
Proof.
  intro H. unfold b64decode. replace (forallb _ _) with true.
  - unfold base64Encode. cbv zeta. destruct nl; [|apply read_encode, H]. rewrite read_filter, filter_newlines; [apply read_encode, H|lia|eapply Forall_impl; [|apply encode_chars, H]; cbv beta; tauto].
  - symmetry. apply forallb_forall. intros c Hc. pose proof (encode_ascii b nl H) as F. rewrite Forall_forall in F. specialize (F c Hc). cbv beta in F. lia.
Qed.
(** A part at the beginning gives a part at the beginning, or an error. *)
Lemma read_prefix s : forall u q left pads b, b64_read (s ++ u) q left pads = Ok b -> b64_read s q left pads = Err ValueError \/ exists a c, b64_read s q left pads = Ok a /\ b = a ++ c.
Proof.
  induction s as [|c s IH]; intros u q left pads b H.
  - cbn [b64_read]. destruct (q =? 0); [right; exists [], b; auto|auto].
  - cbn [app b64_read] in H |- *. destruct (c =? 61).
    { destruct (2 <=? q); [destruct (4 <=? q + (pads + 1)); [right; exists [], b; auto|]|]; eapply IH, H. }
    destruct (b64_val c) as [v|]; [|eapply IH, H]. destruct (q =? 0); [eapply IH, H|].
    assert (X : forall x q' l', (l <-- b64_read (s ++ u) q' l' 0 ;; Ok (x :: l)) = Ok b -> (l <-- b64_read s q' l' 0 ;; Ok (x :: l)) = Err ValueError \/ exists a d, (l <-- b64_read s q' l' 0 ;; Ok (x :: l)) = Ok a /\ b = a ++ d).
    { intros x q' l' E. destruct (b64_read (s ++ u) q' l' 0) as [b'|] eqn:E'; [|discriminate E]. injection E as <-. destruct (IH _ _ _ _ _ E') as [-> |(a & d & -> & ->)]; [left; reflexivity|right; exists (x :: a), d; auto]. }
    destruct (q =? 1); [apply X, H|]. destruct (q =? 2); apply X, H.
Qed.
Lemma decode_prefix s u b : b64decode (s ++ u) = Ok b -> b64decode s = Err ValueError \/ exists a c, b64decode s = Ok a /\ b = a ++ c.
Proof.
  unfold b64decode. rewrite forallb_app. destruct (forallb _ s); cbn [andb]; [|auto]. destruct (forallb _ u); [|discriminate]. apply read_prefix.
Qed.

(** ** Programs *)
Lemma set_same f p t : set_file f p t p = t.
Proof. unfold set_file. now rewrite (proj2 (zlist_eqb_eq p p) eq_refl). Qed.
Lemma set_other f p t q : p <> q -> set_file f p t q = f q.
Proof. intro N. unfold set_file. destruct (zlist_eqb p q) eqn:E; [apply zlist_eqb_eq in E; contradiction|reflexivity]. Qed.
Lemma perform_then {A B} (p : prog A) (g : res A -> prog B) : forall f, perform (pthen p g) f = let (f', r) := perform p f in perform (g r) f'.
Proof. induction p as [r|p k IH|p k IH|p k IH|p t k IH|p k IH]; intro f; cbn [pthen perform]; auto. destruct (f p); apply IH. Qed.
Lemma perform_bind {A B} (p : prog A) (g : A -> prog B) f : perform (pbind p g) f = match perform p f with (f', Ok a) => perform (g a) f' | (f', Err e) => (f', Err e) end.
Proof. unfold pbind. rewrite perform_then. destruct (perform p f) as [f' [a|e]]; reflexivity. Qed.
Lemma exec_then {A B} rd (p : prog A) (g : res A -> prog B) : forall f f' r, exec rd (pthen p g) f f' r -> (exists f1 r1, exec rd p f f1 (Some r1) /\ exec rd (g r1) f1 f' r) \/ (exec rd p f f' None /\ r = None).
Proof.
  induction p as [r0|p k IH|p k IH|p k IH|p t k IH|p k IH]; intros f f' r H; cbn [pthen] in H; [left; exists f, r0; split; [constructor|exact H]|..];
    inversion H; subst; try (right; split; [solve [constructor; assumption]|reflexivity]);
    match goal with X : exec _ (pthen _ _) _ _ _ |- _ => apply IH in X; destruct X as [(f1 & r1 & E1 & E2)|[E1 E2]] end;
    [left; exists f1, r1; split; [|exact E2]|right; split; [|exact E2]|..]; try (left; exists f1, r1; split; [|exact E2]); try (right; split; [|exact E2]);
    solve [apply XIsFile; assumption|apply XRead; assumption|eapply XReadFails; [reflexivity|eassumption]|apply XOpen; assumption|eapply XOpenFails; eassumption|apply XWrite; assumption|eapply XWriteFails; eassumption|apply XRemove; assumption|eapply XRemoveFails; eassumption].
Qed.
Lemma exec_bind {A B} rd (p : prog A) (g : A -> prog B) f f' r : exec rd (pbind p g) f f' r ->
  (exists f1 a, exec rd p f f1 (Some (Ok a)) /\ exec rd (g a) f1 f' r) \/ (exists e, exec rd p f f' (Some (Err e)) /\ (r = Some (Err e) \/ r = None)) \/ (exec rd p f f' None /\ r = None).
Proof.
  intro H. apply exec_then in H. destruct H as [(f1 & [a|e] & H1 & H2)|H]; [left; eauto| |auto]. inversion H2; subst; right; left; eauto.
Qed.
(** What [perform] does is one of the executions. *)
Lemma perform_exec {A} rd (p : prog A) : forall f, exec rd p f (fst (perform p f)) (Some (snd (perform p f))).
Proof.
  induction p as [r0|p k IH|p k IH|p k IH|p t k IH|p k IH]; intro f; cbn [perform].
  - constructor.
  - constructor. apply IH.
  - apply XRead. apply IH.
  - apply XOpen. apply IH.
  - apply XWrite. apply IH.
  - destruct (f p) eqn:E; [apply XRemove; [congruence|apply IH]|eapply XRemoveFails; apply IH].
Qed.

Section Tf.
Variable K : Type.
Variable load_der : bytes -> res K.
Variable to_der : K -> bytes.
Variable pbkdf2 : Z -> bytes -> Z -> bytes -> res bytes.
Variable des des_inv : bytes -> bytes -> bytes -> res bytes.
Variable floor40 : Z -> Z.
Variable sha : bytes -> bytes.
Variable derive : tkey K -> bytes.
Notation tkey := (tkey K).
Notation call := (call K).
Notation path := (path sha).
Notation decode_key := (decode_key K load_der floor40).
Notation encode_key := (encode_key K to_der).
Notation load_key := (load_key K load_der floor40 sha).
Notation save_key := (save_key K to_der sha).
Notation hasKey := (hasKey K load_der floor40 sha).
Notation getKeyHandle := (getKeyHandle K load_der floor40 sha).
Notation fresh_id := (fresh_id K load_der floor40 sha).
Notation createKey := (createKey K load_der to_der floor40 sha derive).
Notation deleteKey := (deleteKey sha).
Notation exportKey := (exportKey K load_der to_der pbkdf2 des floor40 sha).
Notation parse_bag := (parse_bag K load_der pbkdf2 des_inv floor40).
Notation importKey := (importKey K load_der to_der pbkdf2 des_inv floor40 sha).
Notation p_call := (p_call K load_der to_der pbkdf2 des_inv floor40 sha derive).
Notation run := (run K load_der to_der pbkdf2 des_inv floor40 sha derive).
Notation storable := (storable K load_der to_der floor40).
Notation no_collision := (no_collision sha).
Notation may_use := (may_use K sha derive).
Notation may_store := (may_store K load_der pbkdf2 des_inv floor40).
Notation call_ok := (call_ok K load_der to_der pbkdf2 des_inv floor40 sha derive).
Notation first_free := (first_free K).
Notation new_name := (new_name K sha derive).
Notation m_call := (m_call K load_der pbkdf2 des_inv floor40 sha derive).
Notation m_run := (m_run K load_der pbkdf2 des_inv floor40 sha derive).
Notation reach := (reach K load_der to_der pbkdf2 des_inv floor40 sha derive).

Lemma storable_text k : storable k -> exists t, encode_key k = Ok t /\ decode_key t = Ok k /\
  forall t', prefix_of t' t -> decode_key t' = Ok k \/ decode_key t' = Err ValueError \/ decode_key t' = Err RuntimeError.
Proof.
  intros (der & E & B & L & Cut). unfold TfModel.encode_key. rewrite E. eexists. split; [reflexivity|]. pose proof (base64_round der true B) as R. split; [unfold TfModel.decode_key; rewrite R; cbn [rbind]; now rewrite L|].
  intros t' [u Eu]. rewrite Eu in R. apply decode_prefix in R. unfold TfModel.decode_key. destruct R as [-> |(a & c & -> & ->)]; [auto|]. cbn [rbind]. destruct c as [|x c]; [rewrite app_nil_r in L; rewrite L; auto|]. right. right.
  destruct (Cut a (x :: c) eq_refl) as [e He]; [discriminate|]. unfold PkcsModel.loadPkcs1. destruct (pkcs1_type floor40 a) as [ty|]; [|reflexivity]. cbn [rbind]. unfold load_typed. destruct (_ || _); [|reflexivity]. rewrite He. reflexivity.
Qed.

(** ** What one call reads *)
Definition found (f : files) (n : name) : res bool :=
  match f (path n) with None => Ok false | Some t => match decode_key t with Ok _ => Ok true | Err RuntimeError => Ok false | Err e => Err e end end.
Lemma perform_has n f : perform (hasKey n) f = (f, found f n).
Proof.
  unfold TfModel.hasKey, found. cbn [perform]. destruct (f (path n)) as [t|] eqn:E; cbn [negb]; [|reflexivity]. rewrite perform_then. unfold TfModel.load_key. cbn [perform]. rewrite E. unfold plift. cbn [perform].
  destruct (decode_key t) as [k|[]]; reflexivity.
Qed.
Lemma perform_load n f t : f (path n) = Some t -> perform (load_key n) f = (f, decode_key t).
Proof. intro E. unfold TfModel.load_key. cbn [perform]. rewrite E. reflexivity. Qed.
Definition got (f : files) (n : name) : res (option tkey) :=
  match f (path n) with None => Ok None | Some t => match decode_key t with Ok k => Ok (Some k) | Err RuntimeError => Ok None | Err e => Err e end end.
Lemma perform_get n f : perform (getKeyHandle n) f = (f, got f n).
Proof.
  unfold TfModel.getKeyHandle. rewrite perform_bind, perform_has. unfold found, got. destruct (f (path n)) as [t|] eqn:E; [|reflexivity]. destruct (decode_key t) as [k|e] eqn:D.
  - rewrite perform_bind, (perform_load _ _ _ E), D. reflexivity.
  - destruct e; reflexivity.
Qed.
Lemma perform_export n pw salt iv f : perform (exportKey n pw salt iv) f = (f, match got f n with Ok (Some k) => dump K to_der pbkdf2 des k pw salt iv | Ok None => Err RuntimeError | Err e => Err e end).
Proof.
  unfold TfModel.exportKey. rewrite perform_bind, perform_has. unfold found, got. destruct (f (path n)) as [t|] eqn:E; [|reflexivity]. destruct (decode_key t) as [k|e] eqn:D.
  - cbn [negb]. rewrite perform_bind, (perform_load _ _ _ E), D. reflexivity.
  - destruct e; reflexivity.
Qed.
Lemma found_got f n : found f n = match got f n with Ok (Some _) => Ok true | Ok None => Ok false | Err e => Err e end.
Proof. unfold found, got. destruct (f (path n)) as [t|]; [|reflexivity]. destruct (decode_key t) as [k|[]]; reflexivity. Qed.
Lemma perform_save n k f : perform (save_key n k) f = match encode_key k with Ok t => (set_file (set_file f (path n) (Some [])) (path n) (Some t), Ok tt) | Err e => (f, Err e) end.
Proof. unfold TfModel.save_key. rewrite perform_bind. unfold plift. cbn [perform]. destruct (encode_key k) as [t|e]; reflexivity. Qed.

(** ** The map *)
Variable U : name -> Prop.
Hypothesis NC : no_collision U.
Lemma path_inj n n' : U n -> U n' -> path n = path n' -> n = n'.
Proof. intros A B E. apply NC; [exact A|exact B|]. unfold TfModel.path in E. apply app_inv_tail in E. exact E. Qed.
Definition rep (f : files) (m : keymap K) : Prop :=
  forall n, U n -> match m n with None => f (path n) = None | Some k => exists t, f (path n) = Some t /\ decode_key t = Ok k end.
Lemma rep_got f m n : rep f m -> U n -> got f n = Ok (m n).
Proof. intros R Un. specialize (R n Un). unfold got. destruct (m n) as [k|]; [destruct R as (t & -> & ->); reflexivity|rewrite R; reflexivity]. Qed.
Lemma rep_found f m n : rep f m -> U n -> found f n = Ok (match m n with Some _ => true | None => false end).
Proof. intros R Un. rewrite found_got, (rep_got f m n R Un). now destruct (m n). Qed.
Lemma rep_save f m n k : rep f m -> U n -> storable k -> exists f', perform (save_key n k) f = (f', Ok tt) /\ rep f' (m_set K m n (Some k)).
Proof.
  intros R Un Sk. destruct (storable_text k Sk) as (t & E & D & _). rewrite perform_save, E. eexists. split; [reflexivity|]. intros n' Un'. unfold m_set. destruct (name_dec n n') as [<- |Ne].
  - exists t. now rewrite set_same.
  - rewrite !set_other by (intro X; apply Ne, path_inj; assumption). apply R, Un'.
Qed.
Lemma construct_eq i c : key_construct i c = i ++ [KEY; c].
Proof. unfold key_construct. now rewrite <- app_assoc. Qed.
Lemma rep_fresh f m i : rep f m -> forall rs, (forall r, In r rs -> U (i ++ [KEY; c_generic r])) ->
  exists x, perform (fresh_id i rs) f = (f, x) /\
   match first_free m i rs with
   | Some n => exists r, In r rs /\ n = i ++ [KEY; c_generic r] /\ x = Ok (c_generic r) /\ zlen r <> 0
   | None => (exists e, x = Err e) \/ (exists r, In r rs /\ x = Ok (c_generic r) /\ zlen r = 0)
   end.
Proof.
  intro R. induction rs as [|r rs IH]; intro HU; [eexists; split; [reflexivity|left; eexists; reflexivity]|]. cbn [TfModel.fresh_id TfSpec.first_free]. cbv zeta. rewrite perform_bind, perform_has, construct_eq, (rep_found f m _ R) by (apply HU; left; reflexivity).
  destruct (m (i ++ [KEY; c_generic r])) as [k|].
  - destruct IH as (x & E & H); [intros r' H; apply HU; right; exact H|]. exists x. split; [exact E|]. destruct (first_free m i rs) as [n|]; [destruct H as (r' & I & H); exists r'; split; [right; exact I|exact H]|destruct H as [H|(r' & I & H)]; [left; exact H|right; exists r'; split; [right; exact I|exact H]]].
  - exists (Ok (c_generic r)). split; [reflexivity|]. destruct (zlen r =? 0) eqn:Z; [right; exists r; split; [left; reflexivity|split; [reflexivity|lia]]|exists r; split; [left; reflexivity|repeat split; lia]].
Qed.
Definition create_name (x : option name) (k : tkey) (r : res (name * tkey)) : Prop := match x with Some n => r = Ok (n, k) | None => exists e, r = Err e end.
Lemma rep_create f m i kp k rs : rep f m -> (forall n, may_use (Create K i kp (Ok k) rs) n -> U n) -> storable k ->
  exists f' r, perform (createKey i kp (Ok k) rs) f = (f', r) /\ create_name (new_name m i kp k rs) k r /\
    rep f' (match new_name m i kp k rs with Some n => m_set K m n (Some k) | None => m end).
Proof.
  intros R HU Sk. unfold TfModel.createKey, TfSpec.new_name. rewrite perform_bind. destruct (kp_idType kp =? KI_USER) eqn:Eu.
  - assert (Un : U (i ++ [KEY; kp_id kp])) by (apply HU; left; split; [lia|reflexivity]). rewrite perform_bind, perform_has, construct_eq, (rep_found f m _ R Un). cbv zeta. destruct (m (i ++ [KEY; kp_id kp])) as [k'|].
    + cbv iota. cbn [stop perform]. exists f, (Err RuntimeError). repeat split; [exists RuntimeError; reflexivity|exact R].
    + cbv iota. cbn [give perform]. rewrite perform_bind. cbn [plift perform]. rewrite perform_bind. replace (kp_idType kp =? KI_SHA256) with false by (unfold KI_USER, KI_SHA256 in *; lia). replace (kp_idType kp =? KI_RANDOM) with false by (unfold KI_USER, KI_RANDOM in *; lia). cbn [andb perform give]. rewrite construct_eq, perform_bind. destruct (rep_save f m _ k R Un Sk) as (f' & -> & R'). exists f', (Ok (i ++ [KEY; kp_id kp], k)). repeat split. exact R'.
  - destruct (kp_idType kp =? KI_SHA256) eqn:Es.
    + assert (Un : U (i ++ [KEY; c_generic (sha (derive k))])) by (apply HU; right; left; split; [lia|]; exists k; split; reflexivity). cbn [give perform]. rewrite perform_bind. cbn [plift perform]. rewrite perform_bind. cbn [give perform]. rewrite construct_eq, perform_bind. destruct (rep_save f m _ k R Un Sk) as (f' & -> & R'). eexists f', (Ok (_, k)). repeat split. exact R'.
    + destruct (kp_idType kp =? KI_RANDOM) eqn:Er.
      * assert (HU' : forall r, In r rs -> U (i ++ [KEY; c_generic r])) by (intros r I; apply HU; right; right; split; [lia|]; exists r; auto). destruct (rep_fresh f m i R rs HU') as (x & -> & H). destruct (first_free m i rs) as [n|].
        -- destruct H as (r & I & -> & -> & Nz). rewrite perform_bind. cbn [plift perform]. rewrite perform_bind. change (c_value (c_generic r)) with r. replace (zlen r =? 0) with false by lia. cbn [andb give perform]. rewrite construct_eq, perform_bind. destruct (rep_save f m _ k R (HU' r I) Sk) as (f' & -> & R'). eexists f', (Ok (_, k)). repeat split. exact R'.
        -- destruct H as [(e & ->)|(r & I & -> & Z)]; [eexists f, (Err e); repeat split; [exists e; reflexivity|exact R]|]. rewrite perform_bind. cbn [plift perform]. rewrite perform_bind. change (c_value (c_generic r)) with r. replace (zlen r =? 0) with true by lia. cbn [andb stop perform]. eexists f, (Err _). repeat split; [eexists; reflexivity|exact R].
      * cbn [stop perform]. exists f, (Err RuntimeError). repeat split; [eexists; reflexivity|exact R].
Qed.
Lemma create_err f i kp e rs : exists e' f', perform (createKey i kp (Err e) rs) f = (f', Err e') /\ f' = f.
Proof.
  unfold TfModel.createKey. rewrite perform_bind.
  assert (X : forall rs, exists x, perform (fresh_id i rs) f = (f, x)).
  { clear. intro rs. induction rs as [|r rs [x IH]]; [eexists; reflexivity|]. cbn [TfModel.fresh_id]. cbv zeta. rewrite perform_bind, perform_has. destruct (found f _) as [[]|]; [exists x; exact IH|eexists; reflexivity|eexists; reflexivity]. }
  assert (Y : exists x, perform (if kp_idType kp =? KI_USER then b <~ hasKey (key_construct i (kp_id kp)) ;; if (b : bool) then stop RuntimeError else give (kp_id kp) else if kp_idType kp =? KI_SHA256 then give (kp_id kp) else if kp_idType kp =? KI_RANDOM then fresh_id i rs else stop RuntimeError) f = (f, x)).
  { destruct (kp_idType kp =? KI_USER); [rewrite perform_bind, perform_has; destruct (found f _) as [[]|]; eexists; reflexivity|]. destruct (kp_idType kp =? KI_SHA256); [eexists; reflexivity|]. destruct (kp_idType kp =? KI_RANDOM); [apply X|eexists; reflexivity]. }
  destruct Y as [x ->]. destruct x as [c|e']; [|exists e', f; auto]. rewrite perform_bind. cbn [plift perform]. exists RuntimeError, f. auto.
Qed.
Lemma rep_call f m c : rep f m -> call_ok U c -> rep (fst (perform (p_call c) f)) (m_call m c).
Proof.
  intros R [HU HS]. destruct c as [i kp gen rs|n|n bag pw]; cbn [TfModel.p_call TfSpec.m_call].
  - rewrite perform_bind. destruct gen as [k|e].
    + destruct (rep_create f m i kp k rs R HU (HS k eq_refl)) as (f' & r & -> & _ & R'). destruct r; exact R'.
    + destruct (create_err f i kp e rs) as (e' & f' & -> & ->). exact R.
  - unfold TfModel.deleteKey. cbn [perform]. assert (Un : U n) by (apply HU; reflexivity). intros n' Un'. unfold m_set. destruct (name_dec n n') as [<- |Ne].
    + destruct (f (path n)) eqn:E; cbn [perform]; [rewrite E; apply set_same|exact E].
    + destruct (f (path n)) eqn:E; cbn [perform]; [rewrite E; cbn [fst]|apply R, Un']. cbn [plift perform fst]. rewrite set_other by (intro X; apply Ne, path_inj; assumption). apply R, Un'.
  - assert (Un : U n) by (apply HU; reflexivity). unfold TfModel.importKey. rewrite perform_bind, perform_has, (rep_found f m n R Un). destruct (m n) as [k'|]; [exact R|]. cbv iota. rewrite perform_bind. cbn [plift perform]. destruct (parse_bag bag pw) as [k|e] eqn:P; [|exact R]. destruct (rep_save f m n k R Un (HS k P)) as (f' & -> & R'). exact R'.
Qed.
Lemma rep_run h : Forall (call_ok U) h -> rep (run h no_files) (m_run h).
Proof.
  assert (X : forall h f m, rep f m -> Forall (call_ok U) h -> rep (run h f) (fold_left m_call h m)).
  { clear h. induction h as [|c h IH]; intros f m R F; [exact R|]. inversion F as [|? ? F1 F2]; subst. unfold TfModel.run. cbn [fold_left]. apply (IH _ _ (rep_call f m c R F1) F2). }
  intro F. apply (X h no_files (fun _ => None)); [intros n _; reflexivity|exact F].
Qed.

(** ** Executions with failures *)
Lemma exec_load rd n f f' r : exec rd (load_key n) f f' r -> f' = f /\ (rd = false -> forall t, f (path n) = Some t -> r = None \/ r = Some (decode_key t)).
Proof.
  intro H. inversion H; subst; [split; [reflexivity|auto]| |].
  - match goal with X : exec _ _ _ _ _ |- _ => rename X into H1 end. destruct (f (path n)) as [t|]; inversion H1; subst; split; auto; intros _ t' E; [right; congruence|discriminate E].
  - match goal with X : exec _ _ _ _ _ |- _ => inversion X; subst end; split; auto; discriminate.
Qed.
Lemma exec_has rd n f f' r : exec rd (hasKey n) f f' r -> f' = f /\ (rd = false -> r = None \/ r = Some (found f n)).
Proof.
  intro H. inversion H; subst; [split; [reflexivity|auto]|]. match goal with X : exec _ _ _ _ _ |- _ => rename X into H1 end. unfold found. destruct (f (path n)) as [t|] eqn:E; cbn [negb] in H1.
  - change (exec rd (pthen (load_key n) (fun r : res tkey => match r with Ok _ => give true | Err RuntimeError => give false | Err e => stop e end)) f f' r) in H1. apply exec_then in H1. destruct H1 as [(f1 & r1 & H1 & H2)|[H1 ->]].
    + apply exec_load in H1. destruct H1 as [-> H1]. assert (X : f' = f /\ (r = None \/ r = Some (match r1 with Ok _ => Ok true | Err RuntimeError => Ok false | Err e => Err e end))) by (destruct r1 as [k|[]]; inversion H2; subst; auto). destruct X as [-> X]. split; [reflexivity|]. intro Rd. destruct (H1 Rd t E) as [Y|Y]; [discriminate Y|]. injection Y as ->. exact X.
    + apply exec_load in H1. destruct H1 as [-> _]. auto.
  - inversion H1; subst; auto.
Qed.
Lemma exec_fresh rd i rs : forall f f' r, exec rd (fresh_id i rs) f f' r -> f' = f /\ forall c, r = Some (Ok c) -> (exists x, In x rs /\ c = c_generic x) /\ (rd = false -> found f (i ++ [KEY; c]) = Ok false).
Proof.
  induction rs as [|x rs IH]; intros f f' r H; cbn [TfModel.fresh_id] in H; [inversion H; subst; split; try reflexivity; intros; discriminate|]. cbv zeta in H. apply exec_bind in H. destruct H as [(f1 & b & H1 & H2)|[(e & H1 & H2)|[H1 ->]]].
  - apply exec_has in H1. destruct H1 as [-> H1]. destruct b.
    + apply IH in H2. destruct H2 as [-> H2]. split; [reflexivity|]. intros c Ec. destruct (H2 c Ec) as [(y & I & E) G]. split; [exists y; split; [right; exact I|exact E]|exact G].
    + rewrite construct_eq in H1. inversion H2; subst; split; try reflexivity; intros c Ec; [|discriminate Ec]. injection Ec as <-. split; [exists x; split; [left; reflexivity|reflexivity]|]. intro Rd. destruct (H1 Rd) as [Y|Y]; [discriminate Y|congruence].
  - apply exec_has in H1. destruct H1 as [-> _]. split; [reflexivity|]. intros c ->. destruct H2 as [Y|Y]; discriminate Y.
  - apply exec_has in H1. destruct H1 as [-> _]. split; [reflexivity|]. intros c Y. discriminate Y.
Qed.
Lemma exec_save rd n k f f' r : exec rd (save_key n k) f f' r ->
  (f' = f /\ r <> Some (Ok tt)) \/ exists t t', encode_key k = Ok t /\ prefix_of t' t /\ f' (path n) = Some t' /\ (forall q, q <> path n -> f' q = f q) /\ (r = Some (Ok tt) -> perform (save_key n k) f = (f', Ok tt)).
Proof.
  intro H. rewrite perform_save. unfold TfModel.save_key in H. apply exec_bind in H. destruct H as [(f1 & t & H1 & H2)|[(e & H1 & H2)|[H1 ->]]].
  - inversion H1; subst; try congruence. match goal with X : _ = Ok t |- _ => rename X into Et end. inversion H2; subst.
    + left. split; [reflexivity|discriminate].
    + right. match goal with X : exec _ (WriteFile _ _ _) _ _ _ |- _ => rename X into H3 end. exists t. rewrite Et. inversion H3; subst.
      * exists []. split; [reflexivity|]. split; [exists t; reflexivity|]. split; [apply set_same|]. split; [intros q Q; apply set_other; congruence|discriminate].
      * match goal with X : exec _ (give tt) _ _ _ |- _ => rename X into H4 end. exists t. split; [reflexivity|]. split; [exists []; now rewrite app_nil_r|]. inversion H4; subst; (split; [apply set_same|]; split; [intros q Q; rewrite !set_other by congruence; reflexivity|]); [reflexivity|discriminate].
      * match goal with X : exec _ (stop _) _ _ _ |- _ => rename X into H4 end. exists t'. split; [reflexivity|]. split; [assumption|]. inversion H4; subst; (split; [apply set_same|]; split; [intros q Q; rewrite !set_other by congruence; reflexivity|]); discriminate.
      * exists t'. split; [reflexivity|]. split; [assumption|]. split; [apply set_same|]. split; [intros q Q; rewrite !set_other by congruence; reflexivity|discriminate].
    + left. match goal with X : exec _ (stop _) _ _ _ |- _ => inversion X; subst end; (split; [reflexivity|discriminate]).
  - inversion H1; subst. left. split; [reflexivity|]. destruct H2 as [-> | ->]; discriminate.
  - inversion H1; subst. left. split; [reflexivity|discriminate].
Qed.

(** A call that reports success has done what it does when nothing fails. *)
Definition det {A} (p : prog A) : Prop := forall f f' a, exec false p f f' (Some (Ok a)) -> perform p f = (f', Ok a).
Lemma det_bind {A B} (p : prog A) (g : A -> prog B) : det p -> (forall a, det (g a)) -> det (pbind p g).
Proof.
  intros P G f f' b H. rewrite perform_bind. apply exec_bind in H. destruct H as [(f1 & a & H1 & H2)|[(e & H1 & [H2|H2])|[H1 H2]]]; try discriminate H2. rewrite (P _ _ _ H1). apply G, H2.
Qed.
Lemma det_done {A} (r : res A) : det (Done r).
Proof. intros f f' a H. inversion H; subst. reflexivity. Qed.
Lemma det_has n : det (hasKey n).
Proof. intros f f' b H. apply exec_has in H. destruct H as [-> H]. destruct (H eq_refl) as [Y|Y]; [discriminate Y|]. rewrite perform_has. congruence. Qed.
Lemma det_save n k : det (save_key n k).
Proof. intros f f' [] H. apply exec_save in H. destruct H as [[_ H]|(t & t' & _ & _ & _ & _ & H)]; [now destruct H|apply H; reflexivity]. Qed.
Lemma det_fresh i rs : det (fresh_id i rs).
Proof. induction rs as [|r rs IH]; [apply det_done|]. cbn [TfModel.fresh_id]. cbv zeta. apply det_bind; [apply det_has|]. intros []; [exact IH|apply det_done]. Qed.
Lemma det_create i kp gen rs : det (createKey i kp gen rs).
Proof.
  unfold TfModel.createKey. apply det_bind.
  - destruct (_ =? _); [apply det_bind; [apply det_has|intros []; apply det_done]|]. destruct (_ =? _); [apply det_done|]. destruct (_ =? _); [apply det_fresh|apply det_done].
  - intro c. apply det_bind; [apply det_done|]. intro k. apply det_bind; [|intro d; cbv zeta; apply det_bind; [apply det_save|intro; apply det_done]]. destruct (_ =? _); [apply det_done|]. destruct (_ && _); apply det_done.
Qed.
Lemma det_call c : det (p_call c).
Proof.
  destruct c as [i kp gen rs|n|n bag pw]; cbn [TfModel.p_call].
  - apply det_bind; [apply det_create|intro; apply det_done].
  - intros f f' a H. unfold TfModel.deleteKey in *. cbn [perform]. inversion H; subst. match goal with X : exec _ _ _ _ _ |- _ => rename X into H1 end. destruct (f (path n)) eqn:E.
    + cbn [perform]. rewrite E. inversion H1; subst; match goal with X : exec _ (plift _) _ _ _ |- _ => inversion X; subst end. reflexivity.
    + inversion H1; subst. reflexivity.
  - apply det_bind; [apply det_has|]. intros []; [apply det_done|]. apply det_bind; [apply det_done|]. intro k. apply det_save.
Qed.

(** What a call that fails may have done *)
Definition sha_create (c : call) : Prop := match c with Create _ _ kp _ _ => kp_idType kp = KI_SHA256 | _ => False end.
Definition touch (rd : bool) (c : call) (f f' : files) : Prop :=
  f' = f \/ exists n, may_use c n /\ (forall q, q <> path n -> f' q = f q) /\
    ((c = Delete K n /\ f' (path n) = None) \/
     (exists k t t', may_store c k /\ encode_key k = Ok t /\ prefix_of t' t /\ f' (path n) = Some t' /\ (rd = false -> ~ sha_create c -> found f n = Ok false))).
Lemma touch_save rd c n k f f' r : may_use c n -> may_store c k -> (rd = false -> ~ sha_create c -> found f n = Ok false) -> exec rd (save_key n k) f f' r -> touch rd c f f'.
Proof.
  intros M1 M2 Fd H. apply exec_save in H. destruct H as [[H _]|(t & t' & E & P & F1 & F2 & _)]; [left; exact H|]. right. exists n. split; [exact M1|]. split; [exact F2|]. right. exists k, t, t'. auto.
Qed.
Lemma exec_call rd c f f' r : exec rd (p_call c) f f' r -> touch rd c f f'.
Proof.
  intro H. destruct c as [i kp gen rs|n|n bag pw]; cbn [TfModel.p_call] in H.
  - assert (X : exists r', exec rd (createKey i kp gen rs) f f' r').
    { apply exec_bind in H. destruct H as [(f1 & a & H1 & H2)|[(e & H1 & H2)|[H1 H2]]]; [inversion H2; subst; eauto|eauto|eauto]. }
    clear H r. destruct X as [r H]. unfold TfModel.createKey in H. apply exec_bind in H.
    set (ids := if kp_idType kp =? KI_USER then _ else _) in H.
    assert (Ids : forall f f' r, exec rd ids f f' r -> f' = f /\ forall c, r = Some (Ok c) ->
       (kp_idType kp = KI_USER /\ c = kp_id kp /\ (rd = false -> found f (i ++ [KEY; c]) = Ok false)) \/ kp_idType kp = KI_SHA256 \/
       (kp_idType kp = KI_RANDOM /\ (exists x, In x rs /\ c = c_generic x) /\ (rd = false -> found f (i ++ [KEY; c]) = Ok false))).
    { clear. intros f f' r H. unfold ids in H. destruct (kp_idType kp =? KI_USER) eqn:Eu.
      - apply exec_bind in H. destruct H as [(f1 & b & H1 & H2)|[(e & H1 & H2)|[H1 ->]]].
        + apply exec_has in H1. rewrite construct_eq in H1. destruct H1 as [-> H1]. destruct b; inversion H2; subst; split; try reflexivity; intros c Y; try discriminate Y. injection Y as <-. left. split; [lia|]. split; [reflexivity|]. intro Rd. destruct (H1 Rd) as [Z|Z]; [discriminate Z|congruence].
        + apply exec_has in H1. destruct H1 as [-> _]. split; [reflexivity|]. intros c ->. destruct H2 as [Y|Y]; discriminate Y.
        + apply exec_has in H1. destruct H1 as [-> _]. split; [reflexivity|]. intros c Y. discriminate Y.
      - destruct (kp_idType kp =? KI_SHA256) eqn:Es; [inversion H; subst; split; try reflexivity; intros; right; left; lia|]. destruct (kp_idType kp =? KI_RANDOM) eqn:Er.
        + apply exec_fresh in H. destruct H as [-> H]. split; [reflexivity|]. intros c Ec. right. right. destruct (H c Ec) as [H1 H2]. repeat split; [lia|exact H1|exact H2].
        + inversion H; subst; split; try reflexivity; intros c Y; discriminate Y. }
    destruct H as [(f1 & c & H1 & H2)|[(e & H1 & _)|[H1 _]]]; apply Ids in H1; destruct H1 as [-> H1]; [|left; reflexivity|left; reflexivity]. specialize (H1 c eq_refl). clear Ids.
    apply exec_bind in H2. destruct H2 as [(f1 & k & H2 & H3)|[(e & H2 & _)|[H2 _]]]; [|inversion H2; subst; left; reflexivity|inversion H2; subst; left; reflexivity].
    assert (G : gen = Ok k /\ f1 = f) by (inversion H2; subst; destruct gen; [split; congruence|discriminate]). destruct G as [-> ->]. clear H2.
    apply exec_bind in H3. destruct H3 as [(f1 & d & H3 & H4)|[(e & H3 & _)|[H3 _]]].
    + assert (D : f1 = f /\ ((kp_idType kp = KI_SHA256 /\ d = c_generic (sha (derive k))) \/ (kp_idType kp <> KI_SHA256 /\ d = c))).
      { destruct (kp_idType kp =? KI_SHA256) eqn:Es; [inversion H3; subst; split; [reflexivity|left; split; [lia|reflexivity]]|]. destruct (_ && _); inversion H3; subst; split; try reflexivity; right; split; try lia; reflexivity. }
      destruct D as [-> D]. clear H3. cbv zeta in H4. rewrite construct_eq in H4.
      assert (M : may_use (Create K i kp (Ok k) rs) (i ++ [KEY; d]) /\ (rd = false -> ~ sha_create (Create K i kp (Ok k) rs) -> found f (i ++ [KEY; d]) = Ok false)).
      { cbn [TfSpec.may_use sha_create]. destruct D as [[D ->]|[D ->]].
        - split; [right; left; split; [exact D|exists k; auto]|]. intros _ X. now destruct X.
        - destruct H1 as [(A & -> & B)|[A|(A & (x & I & ->) & B)]]; [|contradiction|].
          + split; [left; auto|intros Rd _; apply B, Rd].
          + split; [right; right; split; [exact A|exists x; auto]|intros Rd _; apply B, Rd]. }
      destruct M as [M1 M2]. apply exec_bind in H4. destruct H4 as [(f1 & u & H4 & H5)|[(e & H4 & _)|[H4 _]]].
      * inversion H5; subst; (eapply touch_save; [exact M1|reflexivity|exact M2|exact H4]).
      * eapply touch_save; [exact M1|reflexivity|exact M2|exact H4].
      * eapply touch_save; [exact M1|reflexivity|exact M2|exact H4].
    + left. destruct (kp_idType kp =? KI_SHA256); [inversion H3; subst; reflexivity|destruct (_ && _); inversion H3; subst; reflexivity].
    + left. destruct (kp_idType kp =? KI_SHA256); [inversion H3; subst; reflexivity|destruct (_ && _); inversion H3; subst; reflexivity].
  - unfold TfModel.deleteKey in H. inversion H; subst; [left; reflexivity|]. match goal with X : exec _ _ _ _ _ |- _ => rename X into H1 end. destruct (f (path n)) eqn:E; [|inversion H1; subst; left; reflexivity]. inversion H1; subst; [left; reflexivity| |].
    + match goal with X : exec _ (plift _) _ _ _ |- _ => inversion X; subst end; (right; exists n; split; [reflexivity|]; split; [intros q Q; apply set_other; congruence|left; split; [reflexivity|apply set_same]]).
    + match goal with X : exec _ (plift _) _ _ _ |- _ => inversion X; subst end; left; reflexivity.
  - unfold TfModel.importKey in H. apply exec_bind in H. destruct H as [(f1 & b & H1 & H2)|[(e & H1 & _)|[H1 _]]]; apply exec_has in H1; destruct H1 as [-> H1]; [|left; reflexivity|left; reflexivity]. destruct b; [inversion H2; subst; left; reflexivity|].
    apply exec_bind in H2. destruct H2 as [(f1 & k & H2 & H3)|[(e & H2 & _)|[H2 _]]]; [|inversion H2; subst; left; reflexivity|inversion H2; subst; left; reflexivity].
    assert (G : parse_bag bag pw = Ok k /\ f1 = f) by (inversion H2; subst; split; congruence). destruct G as [G ->]. eapply touch_save; [reflexivity|exact G| |exact H3]. intros Rd _. destruct (H1 Rd) as [Z|Z]; [discriminate Z|congruence].
Qed.
Lemma got_prefix k t t' f n : storable k -> encode_key k = Ok t -> prefix_of t' t -> f (path n) = Some t' -> got f n = Ok (Some k) \/ got f n = Ok None \/ got f n = Err ValueError.
Proof.
  intros Sk E P F. destruct (storable_text k Sk) as (t0 & E0 & _ & H). assert (t0 = t) by congruence. subst t0. unfold got. rewrite F. destruct (H t' P) as [-> |[-> | ->]]; auto.
Qed.
(** Every file is a part of what was written for its name. *)
Lemma reach_inv rd h f : reach rd h f -> Forall (call_ok U) h -> forall n t', U n -> f (path n) = Some t' -> exists c k t, In c h /\ may_use c n /\ may_store c k /\ encode_key k = Ok t /\ prefix_of t' t.
Proof.
  induction 1 as [|h f c f' r R IH X]; intros F n t' Un E; [discriminate E|]. apply Forall_app in F. destruct F as [F1 F2]. inversion F2 as [|? ? [HU _] _]; subst. specialize (IH F1).
  assert (Old : f (path n) = Some t' -> exists c0 k t, In c0 (h ++ [c]) /\ may_use c0 n /\ may_store c0 k /\ encode_key k = Ok t /\ prefix_of t' t).
  { intro O. destruct (IH n t' Un O) as (c0 & k & t & I & Y). exists c0, k, t. split; [apply in_or_app; left; exact I|exact Y]. }
  apply exec_call in X. destruct X as [-> |(n0 & M & Fr & D)]; [apply Old, E|]. destruct (list_eq_dec Z.eq_dec (path n) (path n0)) as [Eq|Ne]; [|apply Old; rewrite <- (Fr _ Ne); exact E].
  apply path_inj in Eq; [|exact Un|apply HU, M]. subst n0. destruct D as [[_ D]|(k & t & t1 & M2 & Et & P & D & _)]; [congruence|]. exists c, k, t. split; [apply in_or_app; right; left; reflexivity|]. repeat split; [exact M|exact M2|exact Et|congruence].
Qed.
End Tf.
