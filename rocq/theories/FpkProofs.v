(** * Proofs for FilePrivateKeyStorage *)
From Verif Require Import Base BaseLemmas BlobModel NameModel UriModel UriProofs WireModel DerModel PkcsModel IcertModel TfModel TfSpec TfProofs SinfoProps FpkModel FpkSpec.
Local Open Scope res_scope.
Notation perform := FpkModel.perform.
Notation exec := FpkModel.exec.
Notation prog := FpkModel.prog.
Notation pbind := FpkModel.pbind.
Notation Done := FpkModel.Done.
Notation no_files := FpkModel.no_files.

(** ** Files *)
Lemma put_same f p x : put f p x p = x.
Proof. unfold put. now rewrite zlist_eqb_refl. Qed.
Lemma put_other f p x q : p <> q -> put f p x q = f q.
Proof. intro N. unfold put. destruct (zlist_eqb p q) eqn:E; [apply zlist_eqb_eq in E; contradiction|reflexivity]. Qed.
Lemma perform_bind {A B} (p : prog A) (g : A -> prog B) : forall f, perform (pbind p g) f = match perform p f with (f', Ok a) => perform (g a) f' | (f', Err e) => (f', Err e) end.
Proof. induction p as [r|o k IH]; intro f; [destruct r; reflexivity|]. cbn. destruct (does o f) as [f1 r]. apply IH. Qed.
Lemma perform_exec {A} (p : prog A) : forall f, exec p f (fst (perform p f)) (Some (snd (perform p f))).
Proof. induction p as [r|o k IH]; intro f; [constructor|]. cbn. destruct (does o f) as [f1 r] eqn:E. eapply X_op; [exact E|apply IH]. Qed.
Lemma exec_bind {A B} (p : prog A) (g : A -> prog B) : forall f f' r, exec (pbind p g) f f' r ->
  (exists f1 a, exec p f f1 (Some (Ok a)) /\ exec (g a) f1 f' r) \/ (exists e, exec p f f' (Some (Err e)) /\ forall x, r <> Some (Ok x)) \/ (exec p f f' None /\ r = None).
Proof.
  induction p as [r0|o k IH]; intros f f' r X.
  - destruct r0 as [a|e]; cbn in X.
    + left. exists f, a. split; [constructor|exact X].
    + right. inversion X; subst; [left; exists e; split; [constructor|intros x Q; discriminate Q]|right; split; [constructor|reflexivity]].
  - cbn in X. inversion X; subst.
    + right. right. split; [constructor|reflexivity].
    + match goal with H : exec (pbind _ _) _ _ _ |- _ => apply IH in H; destruct H as [(f2 & a & X1 & X2)|[(e & X1 & X2)|(X1 & ->)]] end; [left; exists f2, a; split; [eapply X_op; eauto|exact X2]|right; left; exists e; split; [eapply X_op; eauto|exact X2]|right; right; split; [eapply X_op; eauto|reflexivity]].
    + match goal with H : exec (pbind _ _) _ _ _ |- _ => apply IH in H; destruct H as [(f2 & a & X1 & X2)|[(e' & X1 & X2)|(X1 & ->)]] end; [left; exists f2, a; split; [eapply X_fail; eauto|exact X2]|right; left; exists e'; split; [eapply X_fail; eauto|exact X2]|right; right; split; [eapply X_fail; eauto|reflexivity]].
    + right. right. split; [now constructor|reflexivity].
Qed.
Lemma exec_done {A} (r0 : res A) f f' r : exec (Done r0) f f' r -> f' = f /\ (r = Some r0 \/ r = None).
Proof. intro X. inversion X; subst; auto. Qed.
Lemma exec_act o f f' r : exec (act o) f f' r -> (exists a, does o f = (f', Ok a) /\ (r = Some (Ok tt) \/ r = None)) \/ (partly o f f' /\ forall x, r <> Some (Ok x)).
Proof.
  intro X. inversion X as [| |? ? ? f1 r1 ? ? D X1|? ? ? f1 e ? ? C D X1|? ? ? ? D]; subst; clear X.
  - right. split; [constructor|intros x Q; discriminate Q].
  - destruct r1 as [a|e]; apply exec_done in X1; destruct X1 as [-> Q]; [left; exists a; auto|]. right. split; [|intros x Y; destruct Q as [-> | ->]; discriminate Y].
    assert (f1 = f); [|subst; constructor]. destruct o; cbn in D; try (destruct (f p)); congruence.
  - apply exec_done in X1. destruct X1 as [-> Q]. right. split; [assumption|]. intros x Y. destruct Q as [-> | ->]; discriminate Y.
  - right. split; [assumption|intros x Q; discriminate Q].
Qed.
Definition there (f : fs) (p : list Z) : bool := match f p with Some _ => true | None => false end.
Lemma exec_isfile p f f' r : exec (isfile p) f f' r -> f' = f /\ (r = Some (Ok (there f p)) \/ r = None).
Proof.
  intro X. inversion X as [| |? ? ? f1 r1 ? ? D X1|? ? ? f1 e ? ? C D X1|? ? ? ? D]; subst; clear X; [auto| | |].
  - cbn in D. injection D as <- <-. apply exec_done in X1. destruct X1 as [-> Q]. split; [reflexivity|exact Q].
  - contradiction.
  - inversion D; subst. auto.
Qed.
Lemma partly_open p f f' : partly (OOpen p) f f' -> f' = f. Proof. intro H. now inversion H. Qed.
Lemma partly_chmod p m f f' : partly (OChmod p m) f f' -> f' = f. Proof. intro H. now inversion H. Qed.
Lemma partly_remove p f f' : partly (ORemove p) f f' -> f' = f. Proof. intro H. now inversion H. Qed.
Lemma partly_write p t f f' : partly (OWrite p t) f f' -> f' = f \/ exists t', prefix_of t' t /\ f' = put f p (Some (File t' (mode_of f p))).
Proof. intro H. inversion H; subst; [auto|]. right. eexists. split; [eexists; reflexivity|reflexivity]. Qed.
Lemma partly_append p t f f' : partly (OAppend p t) f f' -> f' = f \/ exists t', prefix_of t' t /\ f' = put f p (Some (File (text_of f p ++ t') (mode_of f p))).
Proof. intro H. inversion H; subst; [auto|]. right. eexists. split; [eexists; reflexivity|reflexivity]. Qed.
Lemma prefix_refl (t : list Z) : prefix_of t t. Proof. exists []. now rewrite app_nil_r. Qed.
Lemma prefix_nil (t : list Z) : prefix_of [] t. Proof. exists t. reflexivity. Qed.

(** A program that does not go on after a failure *)
Definition det {A} (p : prog A) : Prop := forall f f' a, exec p f f' (Some (Ok a)) -> perform p f = (f', Ok a).
Lemma det_bind {A B} (p : prog A) (g : A -> prog B) : det p -> (forall a, det (g a)) -> det (pbind p g).
Proof.
  intros Hp Hg f f' b X. apply exec_bind in X. destruct X as [(f1 & a & X1 & X2)|[(e & _ & X)|(_ & X)]]; [|exfalso; apply (X b); reflexivity|discriminate X]. rewrite perform_bind, (Hp _ _ _ X1). apply Hg, X2.
Qed.
Lemma det_done {A} (r : res A) : det (Done r).
Proof. intros f f' a X. apply exec_done in X. destruct X as [-> [X|X]]; [|discriminate X]. injection X as <-. reflexivity. Qed.
Lemma det_act o : det (act o).
Proof. intros f f' a X. apply exec_act in X. destruct X as [(x & D & _)|(_ & X)]; [|exfalso; apply (X a); reflexivity]. cbn. rewrite D. now destruct a. Qed.
Lemma det_isfile p : det (isfile p).
Proof. intros f f' a X. apply exec_isfile in X. destruct X as [-> [X|X]]; [|discriminate X]. injection X as ->. reflexivity. Qed.

(** ** base64 *)
Lemma encode_alpha b : bytes_ok b -> Forall (fun c => 43 <= c <= 122) (b64encode b).
Proof.
  assert (C : forall v, 0 <= v < 64 -> 43 <= b64_char v <= 122) by (intros v H; unfold b64_char; repeat match goal with |- context [if ?b then _ else _] => destruct b eqn:? end; lia).
  induction b as [|x|x y|x y z r IH] using three; intro H; cbn [b64encode]; [constructor| | |].
  - inversion H as [|? ? Hx _]; subst. unfold is_byte in Hx. repeat (constructor; [try (apply C; dv); lia|]). constructor.
  - inversion H as [|? ? Hx H']; subst. inversion H' as [|? ? Hy _]; subst. unfold is_byte in *. repeat (constructor; [try (apply C; dv); lia|]). constructor.
  - inversion H as [|? ? Hx H']; subst. inversion H' as [|? ? Hy H'']; subst. inversion H'' as [|? ? Hz Hr]; subst. unfold is_byte in *. do 4 (constructor; [apply C; dv|]). apply IH, Hr.
Qed.
Lemma strip_encode b : bytes_ok b -> strip (base64Encode b false) = base64Encode b false.
Proof. intro H. apply strip_nospace. unfold nospace. eapply Forall_impl; [|apply encode_alpha, H]. cbv beta. intros c R. unfold is_space. repeat (rewrite orb_false_iff; split); lia. Qed.
Lemma repl_inj a : forall b, Forall (fun c => 43 <= c <= 122) a -> Forall (fun c => 43 <= c <= 122) b ->
  map (fun c => if c =? 47 then 37 else c) a = map (fun c => if c =? 47 then 37 else c) b -> a = b.
Proof.
  induction a as [|x a IH]; intros [|y b] Ha Hb E; [reflexivity|discriminate E|discriminate E|]. cbn [map] in E. inversion Ha; inversion Hb; subst. injection E as E1 E2. f_equal; [|apply IH; assumption]. destruct (x =? 47) eqn:X, (y =? 47) eqn:Y; lia.
Qed.

Section Fpk.
Variable P : Type.
Variable to8 : P -> res bytes.
Variable load8 : bytes -> res P.
Variable derive : P -> res bytes.
Variable psign : P -> bytes -> Z -> res bytes.
Variable sha : bytes -> bytes.
Variable load_public : bytes -> res unit.
Variable floor40 : Z -> Z.
Variable dir : list Z.
Notation pk_new := (pk_new load_public floor40).
Notation np n e := (nameTransform sha dir (FpkModel.uri n) e).
Notation mp := (mapping_path dir).
Notation generateKeyPair := (generateKeyPair P to8 derive sha dir).
Notation deleteKeyPair := (deleteKeyPair sha dir).
Notation getPublicKey := (getPublicKey sha load_public floor40 dir).
Notation sign := (sign P load8 psign sha dir).
Notation doesKeyExist := (doesKeyExist sha dir).
Notation p_call := (p_call P to8 derive sha dir).
Notation run := (run P to8 derive sha dir).
Notation good_key := (good_key P to8 load8 derive).
Notation names_ok := (names_ok sha).
Notation call_ok := (call_ok P to8 load8 derive).
Notation call := (call P).
Notation m_run := (m_run P).
Notation m_call := (m_call P).
Notation m_set := (m_set P).
Notation reach := (reach P to8 derive sha dir).

Lemma nt_ext u e : nameTransform sha dir u [] ++ e = nameTransform sha dir u e.
Proof. unfold nameTransform. cbv zeta. rewrite app_nil_r, <- !app_assoc. reflexivity. Qed.
Lemma app_end (a b c d : list Z) : length c = length d -> a ++ c = b ++ d -> c = d.
Proof. intros L E. apply (f_equal (@rev Z)) in E. rewrite !rev_app_distr in E. apply (f_equal (firstn (length (rev c)))) in E. rewrite firstn_app, Nat.sub_diag, firstn_O, app_nil_r, firstn_all in E. replace (length (rev c)) with (length (rev d)) in E by (rewrite !rev_length; now symmetry). rewrite firstn_app, Nat.sub_diag, firstn_O, app_nil_r, firstn_all in E. apply (f_equal (@rev Z)) in E. now rewrite !rev_involutive in E. Qed.
Lemma pub_pri u v : nameTransform sha dir u pub <> nameTransform sha dir v pri.
Proof. intro E. unfold nameTransform in E. cbv zeta in E. rewrite !app_assoc in E. apply app_end in E; [discriminate E|reflexivity]. Qed.
Lemma pub_map u : nameTransform sha dir u pub <> mp.
Proof. intro E. unfold nameTransform, mapping_path in E. cbv zeta in E. change [109; 97; 112; 112; 105; 110; 103; 46; 116; 120; 116] with ([109; 97; 112; 112; 105; 110; 103] ++ [46; 116; 120; 116]) in E. rewrite !app_assoc in E. apply app_end in E; [discriminate E|reflexivity]. Qed.
Lemma pri_map u : nameTransform sha dir u pri <> mp.
Proof. intro E. unfold nameTransform, mapping_path in E. cbv zeta in E. change [109; 97; 112; 112; 105; 110; 103; 46; 116; 120; 116] with ([109; 97; 112; 112; 105; 110; 103] ++ [46; 116; 120; 116]) in E. rewrite !app_assoc in E. apply app_end in E; [discriminate E|reflexivity]. Qed.
Lemma np_inj U n n' e : names_ok U -> U n -> U n' -> np n e = np n' e -> n = n'.
Proof.
  intros [UO NC] Un Un' E. destruct (UO n Un) as [O1 B1]. destruct (UO n' Un') as [O2 B2]. apply uri_inj; [exact O1|exact O2|]. apply NC; [exact Un|exact Un'|].
  unfold nameTransform in E. cbv zeta in E. apply app_inv_head in E. apply app_inv_head in E. apply app_inv_tail in E. unfold FpkModel.uri in E. rewrite (strip_encode _ B1), (strip_encode _ B2) in E. unfold base64Encode in E. cbv zeta in E. apply repl_inj in E; [|apply encode_alpha, B1|apply encode_alpha, B2].
  pose proof (base64_round _ false B1) as R1. pose proof (base64_round _ false B2) as R2. unfold base64Encode in R1, R2. cbv zeta in R1, R2. rewrite E in R1. congruence.
Qed.

(** ** What the calls give *)
Lemma perform_pub n f : perform (getPublicKey n) f = (f, match f (np n pub) with None => Err SecurityException | Some x => rbind (b64decode (f_text x)) pk_new end).
Proof. unfold FpkModel.getPublicKey, FpkModel.doesKeyExist. cbn. destruct (f (np n pub)) eqn:E; [|reflexivity]. cbn. rewrite E. reflexivity. Qed.
Definition signed (t : list Z) (data : bytes) (alg : Z) : res bytes :=
  der <-- b64decode t ;; match (k <-- load8 der ;; psign k data alg) with Ok s => Ok s | Err _ => Err SecurityException end.
Lemma perform_sign data n alg f : perform (sign data n alg) f = (f, match f (np n pri) with None => Err SecurityException | Some x => signed (f_text x) data alg end).
Proof. unfold FpkModel.sign, FpkModel.doesKeyExist. cbn. destruct (f (np n pri)) eqn:E; [|reflexivity]. cbn. rewrite E. reflexivity. Qed.
Lemma perform_exists n c f : perform (doesKeyExist n c) f =
  (f, if c =? 1 then Ok (there f (np n pub)) else if c =? 2 then Ok (there f (np n pri)) else if c =? 3 then Err AttributeError else Ok false).
Proof. unfold FpkModel.doesKeyExist, KC_PUBLIC, KC_PRIVATE, KC_SYMMETRIC. destruct (c =? 1); [reflexivity|]. destruct (c =? 2); [reflexivity|]. destruct (c =? 3); reflexivity. Qed.

(** ** generateKeyPair and deleteKeyPair *)
Definition line (n : name) : list Z := FpkModel.uri n ++ [32] ++ np n [] ++ [10].
Definition material (g : res P) : res (bytes * bytes) := k <-- g ;; a <-- to8 k ;; b <-- derive k ;; Ok (a, b).
Lemma act_bind {A} o (g : unit -> prog A) f f1 : does o f = (f1, Ok AUnit) -> perform (pbind (act o) g) f = perform (g tt) f1.
Proof. intro D. rewrite perform_bind. unfold act. cbn [FpkModel.perform]. rewrite D. reflexivity. Qed.
Section Gen.
Variables (p1 p2 p3 : list Z) (f : fs).
Hypotheses (N1 : p1 <> p2) (N2 : p1 <> p3) (N3 : p2 <> p3).
(** The files named, and the others *)
Definition view (f' : fs) (a b c : option file) : Prop := f' p1 = a /\ f' p2 = b /\ f' p3 = c /\ forall q, q <> p1 -> q <> p2 -> q <> p3 -> f' q = f q.
Lemma view_1 f' a b c x : view f' a b c -> view (put f' p1 x) x b c.
Proof. intros (A & B & C & D). split; [apply put_same|]. split; [now rewrite put_other|]. split; [now rewrite put_other|]. intros q Q1 Q2 Q3. rewrite put_other by congruence. auto. Qed.
Lemma view_2 f' a b c x : view f' a b c -> view (put f' p2 x) a x c.
Proof. intros (A & B & C & D). split; [now rewrite put_other by congruence|]. split; [apply put_same|]. split; [now rewrite put_other|]. intros q Q1 Q2 Q3. rewrite put_other by congruence. auto. Qed.
Lemma view_3 f' a b c x : view f' a b c -> view (put f' p3 x) a b x.
Proof. intros (A & B & C & D). split; [now rewrite put_other by congruence|]. split; [now rewrite put_other by congruence|]. split; [apply put_same|]. intros q Q1 Q2 Q3. rewrite put_other by congruence. auto. Qed.
Definition tail (l tpub tpri : list Z) : prog unit :=
  pbind (act (OAppend p3 l)) (fun _ =>
  pbind (act (OOpen p1)) (fun _ => pbind (act (OWrite p1 tpub)) (fun _ =>
  pbind (act (OOpen p2)) (fun _ => pbind (act (OWrite p2 tpri)) (fun _ =>
  pbind (act (OChmod p1 292)) (fun _ => act (OChmod p2 256))))))).
Hypotheses (E1 : f p1 = None) (E2 : f p2 = None).
Lemma view_0 : view f None None (f p3). Proof. split; [exact E1|]. split; [exact E2|]. split; [reflexivity|]. intros; reflexivity. Qed.
Definition m3 (l : list Z) : option file := Some (File (text_of f p3 ++ l) (mode_of f p3)).
Lemma mode_view_1 g x b c : view g (Some x) b c -> mode_of g p1 = f_mode x. Proof. intros (A & _). unfold mode_of. now rewrite A. Qed.
Lemma mode_view_2 g a x c : view g a (Some x) c -> mode_of g p2 = f_mode x. Proof. intros (_ & B & _). unfold mode_of. now rewrite B. Qed.
Lemma mode_view_1n g b c : view g None b c -> mode_of g p1 = NewFile. Proof. intros (A & _). unfold mode_of. now rewrite A. Qed.
Lemma mode_view_2n g a c : view g a None c -> mode_of g p2 = NewFile. Proof. intros (_ & B & _). unfold mode_of. now rewrite B. Qed.
Lemma tail_perform l tpub tpri : exists f', perform (tail l tpub tpri) f = (f', Ok tt) /\ view f' (Some (File tpub (Mode 292))) (Some (File tpri (Mode 256))) (m3 l).
Proof.
  unfold tail. pose proof view_0 as V. erewrite act_bind by reflexivity. apply (view_3 _ _ _ _ (m3 l)) in V. change (Some {| f_text := text_of f p3 ++ l; f_mode := mode_of f p3 |}) with (m3 l). revert V. generalize (put f p3 (m3 l)) as g. intros g V.
  erewrite act_bind by reflexivity. rewrite (mode_view_1n _ _ _ V). apply (view_1 _ _ _ _ (Some (File [] NewFile))) in V. revert V. generalize (put g p1 (Some (File [] NewFile))). clear g. intros g V.
  erewrite act_bind by reflexivity. rewrite (mode_view_1 _ _ _ _ V). cbn [f_mode]. apply (view_1 _ _ _ _ (Some (File tpub NewFile))) in V. revert V. generalize (put g p1 (Some (File tpub NewFile))). clear g. intros g V.
  erewrite act_bind by reflexivity. rewrite (mode_view_2n _ _ _ V). apply (view_2 _ _ _ _ (Some (File [] NewFile))) in V. revert V. generalize (put g p2 (Some (File [] NewFile))). clear g. intros g V.
  erewrite act_bind by reflexivity. rewrite (mode_view_2 _ _ _ _ V). cbn [f_mode]. apply (view_2 _ _ _ _ (Some (File tpri NewFile))) in V. revert V. generalize (put g p2 (Some (File tpri NewFile))). clear g. intros g V.
  erewrite act_bind. 2:{ cbn [does]. destruct V as (V1 & _). rewrite V1. reflexivity. } cbn [f_text]. apply (view_1 _ _ _ _ (Some (File tpub (Mode 292)))) in V. revert V. generalize (put g p1 (Some (File tpub (Mode 292)))). clear g. intros g V.
  unfold act. cbn [FpkModel.perform does]. pose proof V as (_ & V2 & _). rewrite V2. cbn [FpkModel.perform give f_text]. eexists. split; [reflexivity|]. apply (view_2 _ _ _ _ (Some (File tpri (Mode 256)))) in V. exact V.
Qed.
Definition outcome (l tpub tpri : list Z) (f' : fs) : Prop := exists a b c, view f' a b c /\
  (c = f p3 \/ exists l', prefix_of l' l /\ c = m3 l') /\
  ((a = None /\ b = None) \/
   (exists t, prefix_of t tpub /\ a = Some (File t NewFile) /\ b = None) \/
   (exists t, prefix_of t tpri /\ a = Some (File tpub NewFile) /\ b = Some (File t NewFile)) \/
   (a = Some (File tpub (Mode 292)) /\ exists m, (m = NewFile \/ m = Mode 256) /\ b = Some (File tpri m))).
Ltac map_all := right; eexists; split; [apply prefix_refl|reflexivity].
Lemma tail_exec l tpub tpri f' r : exec (tail l tpub tpri) f f' r -> outcome l tpub tpri f'.
Proof.
  intro X. unfold tail in X.
  (* each step: it is done, or partly done and the rest is not *)
  assert (Step : forall o (k : unit -> prog unit) g, exec (pbind (act o) k) g f' r -> (exists x, does o g = (f', Ok x)) \/ partly o g f' \/ exists g1 x, does o g = (g1, Ok x) /\ exec (k tt) g1 f' r).
  { intros o k g Y. apply exec_bind in Y. destruct Y as [(g1 & [] & Y1 & Y2)|[(e & Y1 & _)|(Y1 & _)]]; apply exec_act in Y1.
    - destruct Y1 as [(x & D & _)|(_ & Q)]; [|exfalso; apply (Q tt); reflexivity]. right. right. exists g1, x. auto.
    - destruct Y1 as [(x & D & _)|(D & _)]; [left; exists x; exact D|right; left; exact D].
    - destruct Y1 as [(x & D & _)|(D & _)]; [left; exists x; exact D|right; left; exact D]. }
  pose proof view_0 as V.
  (* mapping *)
  assert (S3 : forall t, prefix_of t l -> view (put f p3 (m3 t)) None None (m3 t)) by (intros t _; eapply view_3, V).
  apply Step in X. destruct X as [(x & D)|[D|(g & x & D & X)]].
  { cbn in D. injection D as <- _. exists None, None, (m3 l). split; [apply S3, prefix_refl|]. split; [map_all|auto]. }
  { apply partly_append in D. destruct D as [-> |(t' & Pt & ->)]; [exists None, None, (f p3); auto|]. exists None, None, (m3 t'). split; [apply S3, Pt|]. split; [right; eauto|auto]. }
  cbn in D. injection D as <- <-. apply (view_3 _ _ _ _ (m3 l)) in V. fold (m3 l) in X. revert X V. generalize (put f p3 (m3 l)) as g. clear S3. intros g X V.
  (* open the public key *)
  apply Step in X. destruct X as [(x & D)|[D|(g1 & x & D & X)]].
  { cbn in D. injection D as <- _. rewrite (mode_view_1n _ _ _ V). eexists _, _, _. split; [eapply view_1, V|]. split; [map_all|]. right. left. exists []. split; [apply prefix_nil|auto]. }
  { apply partly_open in D. subst. eexists _, _, _. split; [exact V|]. split; [map_all|auto]. }
  cbn in D. injection D as <- <-. rewrite (mode_view_1n _ _ _ V) in X. apply (view_1 _ _ _ _ (Some (File [] NewFile))) in V. revert X V. generalize (put g p1 (Some (File [] NewFile))). clear g. intros g X V.
  (* write it *)
  apply Step in X.  destruct X as [(x & D)|[D|(g1 & x & D & X)]].
  { cbn in D. injection D as <- _. rewrite (mode_view_1 _ _ _ _ V). eexists _, _, _. split; [eapply view_1, V|]. split; [map_all|]. right. left. exists tpub. split; [apply prefix_refl|auto]. }
  { apply partly_write in D. destruct D as [-> |(t' & Pt & ->)]; [eexists _, _, _; split; [exact V|]; split; [map_all|]; right; left; exists []; split; [apply prefix_nil|auto]|].
    rewrite (mode_view_1 _ _ _ _ V). eexists _, _, _. split; [eapply view_1, V|]. split; [map_all|]. right. left. exists t'. auto. }
  cbn in D. injection D as <- <-. rewrite (mode_view_1 _ _ _ _ V) in X. cbn [f_mode] in X. apply (view_1 _ _ _ _ (Some (File tpub NewFile))) in V. revert X V. generalize (put g p1 (Some (File tpub NewFile))). clear g. intros g X V.
  (* open the private key *)
  apply Step in X. destruct X as [(x & D)|[D|(g1 & x & D & X)]].
  { cbn in D. injection D as <- _. rewrite (mode_view_2n _ _ _ V). eexists _, _, _. split; [eapply view_2, V|]. split; [map_all|]. right. right. left. exists []. split; [apply prefix_nil|auto]. }
  { apply partly_open in D. subst. eexists _, _, _. split; [exact V|]. split; [map_all|]. right. left. exists tpub. split; [apply prefix_refl|auto]. }
  cbn in D. injection D as <- <-. rewrite (mode_view_2n _ _ _ V) in X. apply (view_2 _ _ _ _ (Some (File [] NewFile))) in V. revert X V. generalize (put g p2 (Some (File [] NewFile))). clear g. intros g X V.
  (* write it *)
  apply Step in X. destruct X as [(x & D)|[D|(g1 & x & D & X)]].
  { cbn in D. injection D as <- _. rewrite (mode_view_2 _ _ _ _ V). eexists _, _, _. split; [eapply view_2, V|]. split; [map_all|]. right. right. left. exists tpri. split; [apply prefix_refl|auto]. }
  { apply partly_write in D. destruct D as [-> |(t' & Pt & ->)]; [eexists _, _, _; split; [exact V|]; split; [map_all|]; right; right; left; exists []; split; [apply prefix_nil|auto]|].
    rewrite (mode_view_2 _ _ _ _ V). eexists _, _, _. split; [eapply view_2, V|]. split; [map_all|]. right. right. left. exists t'. auto. }
  cbn in D. injection D as <- <-. rewrite (mode_view_2 _ _ _ _ V) in X. cbn [f_mode] in X. apply (view_2 _ _ _ _ (Some (File tpri NewFile))) in V. revert X V. generalize (put g p2 (Some (File tpri NewFile))). clear g. intros g X V.
  (* the modes *)
  apply Step in X. destruct X as [(x & D)|[D|(g1 & x & D & X)]].
  { cbn in D. pose proof V as (V1 & _). rewrite V1 in D. injection D as <- _. eexists _, _, _. split; [eapply view_1, V|]. split; [map_all|]. right. right. right. split; [reflexivity|]. exists NewFile. auto. }
  { apply partly_chmod in D. subst. eexists _, _, _. split; [exact V|]. split; [map_all|]. right. right. left. exists tpri. split; [apply prefix_refl|auto]. }
  cbn in D. pose proof V as (V1 & _). rewrite V1 in D. injection D as <- <-. cbn [f_text] in X. apply (view_1 _ _ _ _ (Some (File tpub (Mode 292)))) in V. revert X V. generalize (put g p1 (Some (File tpub (Mode 292)))). clear g V1. intros g X V.
  apply exec_act in X. destruct X as [(x & D & _)|(D & _)].
  - cbn in D. pose proof V as (_ & V2 & _). rewrite V2 in D. injection D as <- _. eexists _, _, _. split; [eapply view_2, V|]. split; [map_all|]. right. right. right. split; [reflexivity|]. exists (Mode 256). auto.
  - apply partly_chmod in D. subst. eexists _, _, _. split; [exact V|]. split; [map_all|]. right. right. right. split; [reflexivity|]. exists NewFile. auto.
Qed.
End Gen.

(** ** The calls *)
Lemma exec_assoc {A B C} (p : prog A) (f : A -> prog B) (g : B -> prog C) : forall a b r, exec (pbind (pbind p f) g) a b r -> exec (pbind p (fun x => pbind (f x) g)) a b r.
Proof.
  induction p as [[x|e]|o k IH]; intros a b r X; [exact X|exact X|]. cbn in *. inversion X; subst; [constructor|eapply X_op; eauto|eapply X_fail; eauto|now constructor].
Qed.
Lemma perform_assoc {A B C} (p : prog A) (f : A -> prog B) (g : B -> prog C) a : perform (pbind (pbind p f) g) a = perform (pbind p (fun x => pbind (f x) g)) a.
Proof. rewrite !perform_bind. destruct (perform p a) as [a1 [x|e]]; [|reflexivity]. rewrite perform_bind. reflexivity. Qed.
Notation ktail n priv publ := (tail (np n pub) (np n pri) mp (line n) (base64Encode publ true) (base64Encode priv true)).
Definition gen_rest (n : name) (priv publ : bytes) : prog unit :=
  pbind (maintainMapping sha dir (FpkModel.uri n)) (fun p =>
  pbind (act (OOpen (p ++ pub))) (fun _ => pbind (act (OWrite (p ++ pub) (base64Encode publ true))) (fun _ =>
  pbind (act (OOpen (p ++ pri))) (fun _ => pbind (act (OWrite (p ++ pri) (base64Encode priv true))) (fun _ =>
  pbind (act (OChmod (p ++ pub) 292)) (fun _ => act (OChmod (p ++ pri) 256))))))).
Lemma rest_exec n priv publ f f' r : exec (gen_rest n priv publ) f f' r -> exec (ktail n priv publ) f f' r.
Proof. intro X. unfold gen_rest, maintainMapping in X. cbv zeta in X. apply exec_assoc in X. cbn [FpkModel.pbind give] in X. rewrite !(nt_ext _ pub), !(nt_ext _ pri) in X. exact X. Qed.
Lemma rest_perform n priv publ f : perform (gen_rest n priv publ) f = perform (ktail n priv publ) f.
Proof. unfold gen_rest, maintainMapping. cbv zeta. rewrite perform_assoc. cbn [FpkModel.pbind give]. rewrite !(nt_ext _ pub), !(nt_ext _ pri). reflexivity. Qed.
Lemma gen_eq n g : generateKeyPair n g = pbind (isfile (np n pub)) (fun b => if b then stop SecurityException else pbind (isfile (np n pri)) (fun b => if b then stop SecurityException else match material g with Err _ => stop SecurityException | Ok (a, b) => gen_rest n a b end)).
Proof. reflexivity. Qed.
Lemma perform_isfile p f : perform (isfile p) f = (f, Ok (there f p)). Proof. reflexivity. Qed.
Lemma there_none f p : there f p = false -> f p = None. Proof. unfold there. now destruct (f p). Qed.
Notation view_of n f := (view (np n pub) (np n pri) mp f).
Lemma gen_refused n g f : f (np n pub) <> None \/ f (np n pri) <> None \/ (exists e, material g = Err e) -> perform (generateKeyPair n g) f = (f, Err SecurityException).
Proof.
  intro H. rewrite gen_eq, perform_bind, perform_isfile. destruct (there f (np n pub)) eqn:E1; [reflexivity|]. rewrite perform_bind, perform_isfile. destruct (there f (np n pri)) eqn:E2; [reflexivity|]. apply there_none in E1, E2.
  destruct H as [H|[H|[e H]]]; [contradiction|contradiction|]. rewrite H. reflexivity.
Qed.
Lemma gen_done n g f priv publ : f (np n pub) = None -> f (np n pri) = None -> material g = Ok (priv, publ) ->
  exists f', perform (generateKeyPair n g) f = (f', Ok tt) /\
    view_of n f f' (Some (File (base64Encode publ true) (Mode 292))) (Some (File (base64Encode priv true) (Mode 256))) (m3 mp f (line n)).
Proof.
  intros E1 E2 M. rewrite gen_eq, perform_bind, perform_isfile. unfold there. rewrite E1. rewrite perform_bind, perform_isfile. unfold there. rewrite E2, M, rest_perform.
  apply tail_perform; auto using pub_pri, pub_map, pri_map.
Qed.
Lemma gen_exec n g f f' r : exec (generateKeyPair n g) f f' r -> f' = f \/
  (f (np n pub) = None /\ f (np n pri) = None /\ exists priv publ, material g = Ok (priv, publ) /\ outcome (np n pub) (np n pri) mp f (line n) (base64Encode publ true) (base64Encode priv true) f').
Proof.
  intro X. rewrite gen_eq in X. apply exec_bind in X. destruct X as [(f1 & b & X1 & X)|[(e & X1 & _)|(X1 & _)]]; apply exec_isfile in X1; destruct X1 as [-> Q]; [|auto|auto]. destruct Q as [Q|Q]; [|discriminate Q]. injection Q as ->.
  destruct (there f (np n pub)) eqn:E1; [left; apply exec_done in X; tauto|]. apply exec_bind in X. destruct X as [(f1 & b & X1 & X)|[(e & X1 & _)|(X1 & _)]]; apply exec_isfile in X1; destruct X1 as [-> Q]; [|auto|auto]. destruct Q as [Q|Q]; [|discriminate Q]. injection Q as ->.
  destruct (there f (np n pri)) eqn:E2; [left; apply exec_done in X; tauto|]. destruct (material g) as [[priv publ]|e]; [|left; apply exec_done in X; tauto].
  right. apply there_none in E1, E2. split; [exact E1|]. split; [exact E2|]. exists priv, publ. split; [reflexivity|]. apply rest_exec in X. apply tail_exec in X; auto using pub_pri, pub_map, pri_map.
Qed.
Lemma del_perform n f : exists f', perform (deleteKeyPair n) f = (f', Ok tt) /\ view_of n f f' None None (f mp).
Proof.
  pose proof (pub_pri (FpkModel.uri n) (FpkModel.uri n)) as N1. pose proof (pub_map (FpkModel.uri n)) as N2. pose proof (pri_map (FpkModel.uri n)) as N3.
  unfold FpkModel.deleteKeyPair, FpkModel.doesKeyExist. change (KC_PUBLIC =? KC_PUBLIC) with true. change (KC_PRIVATE =? KC_PUBLIC) with false. change (KC_PRIVATE =? KC_PRIVATE) with true. cbv iota.
  rewrite perform_bind, perform_isfile. rewrite perform_bind.
  assert (S1 : exists g, perform (if there f (np n pub) then act (ORemove (np n pub)) else give tt) f = (g, Ok tt) /\ view_of n f g None (f (np n pri)) (f mp)).
  { unfold there. destruct (f (np n pub)) eqn:E.
    - unfold act. cbn [FpkModel.perform does]. rewrite E. eexists. split; [reflexivity|]. eapply (view_1 _ _ _ f N1 N2); try eassumption. split; [exact E|]. split; [reflexivity|]. split; reflexivity.
    - eexists. split; [reflexivity|]. split; [exact E|]. split; [reflexivity|]. split; reflexivity. }
  destruct S1 as (g & -> & V). rewrite perform_bind, perform_isfile. unfold there. pose proof V as (_ & V2 & _). destruct (g (np n pri)) eqn:E.
  - unfold act. cbn [FpkModel.perform does]. rewrite E. eexists. split; [reflexivity|]. eapply (view_2 _ _ _ f); try eassumption.
  - eexists. split; [reflexivity|]. rewrite <- V2 in V. exact V.
Qed.
Lemma del_exec n f f' r : exec (deleteKeyPair n) f f' r -> (forall q, q <> np n pub -> q <> np n pri -> f' q = f q) /\ (f' (np n pub) = f (np n pub) \/ f' (np n pub) = None) /\ (f' (np n pri) = f (np n pri) \/ f' (np n pri) = None).
Proof.
  pose proof (pub_pri (FpkModel.uri n) (FpkModel.uri n)) as N1. intro X. unfold FpkModel.deleteKeyPair, FpkModel.doesKeyExist in X. change (KC_PUBLIC =? KC_PUBLIC) with true in X. change (KC_PRIVATE =? KC_PUBLIC) with false in X. change (KC_PRIVATE =? KC_PRIVATE) with true in X. cbv iota in X.
  set (G := fun g : fs => (forall q, q <> np n pub -> q <> np n pri -> g q = f q) /\ (g (np n pub) = f (np n pub) \/ g (np n pub) = None) /\ (g (np n pri) = f (np n pri) \/ g (np n pri) = None)).
  change (G f'). assert (G0 : G f) by (split; [intros; reflexivity|split; left; reflexivity]).
  assert (R1 : forall g g' r' p, p = np n pub \/ p = np n pri -> G g -> exec (if there g p then act (ORemove p) else give tt) g g' r' -> G g').
  { intros g g' r' p Hp (A & B & C) Y. destruct (there g p) eqn:T; [|apply exec_done in Y; destruct Y as [-> _]; split; auto]. apply exec_act in Y. destruct Y as [(x & D & _)|(D & _)]; [|apply partly_remove in D; subst; split; auto].
    cbn in D. unfold there in T. destruct (g p); [|discriminate T]. injection D as <- _. destruct Hp as [-> | ->].
    - split; [intros q Q1 Q2; rewrite put_other by congruence; auto|]. split; [right; apply put_same|rewrite put_other by exact N1; exact C].
    - split; [intros q Q1 Q2; rewrite put_other by congruence; auto|]. split; [rewrite put_other by congruence; exact B|right; apply put_same]. }
  apply exec_bind in X. destruct X as [(f1 & b & X1 & X)|[(e & X1 & _)|(X1 & _)]]; apply exec_isfile in X1; destruct X1 as [-> Q]; [|exact G0|exact G0]. destruct Q as [Q|Q]; [|discriminate Q]. injection Q as ->.
  apply exec_bind in X. destruct X as [(g & x & X1 & X)|[(e & X1 & _)|(X1 & _)]]; apply (R1 _ _ _ _ (or_introl eq_refl) G0) in X1; [|exact X1|exact X1].
  apply exec_bind in X. destruct X as [(f1 & b & X2 & X)|[(e & X2 & _)|(X2 & _)]]; apply exec_isfile in X2; destruct X2 as [-> Q]; [|exact X1|exact X1]. destruct Q as [Q|Q]; [|discriminate Q]. injection Q as ->.
  apply (R1 _ _ _ _ (or_intror eq_refl) X1) in X. exact X.
Qed.
Lemma det_call c : det (p_call c).
Proof.
  destruct c as [n g|n]; cbn [FpkModel.p_call].
  - rewrite gen_eq. apply det_bind; [apply det_isfile|]. intros [|]; [apply det_done|]. apply det_bind; [apply det_isfile|]. intros [|]; [apply det_done|]. destruct (material g) as [[a b]|e]; [|apply det_done]. unfold gen_rest, maintainMapping. cbv zeta.
    apply det_bind; [apply det_bind; [apply det_act|intro; apply det_done]|]. intro p. repeat (apply det_bind; [apply det_act|]; intro). apply det_act.
  - unfold FpkModel.deleteKeyPair, FpkModel.doesKeyExist. change (KC_PUBLIC =? KC_PUBLIC) with true. change (KC_PRIVATE =? KC_PUBLIC) with false. change (KC_PRIVATE =? KC_PRIVATE) with true. cbv iota. apply det_bind; [apply det_isfile|]. intro b. apply det_bind; [destruct b; [apply det_act|apply det_done]|]. intros _. apply det_bind; [apply det_isfile|]. intro b'. destruct b'; [apply det_act|apply det_done].
Qed.
Definition call_name (c : call) : name := match c with Generate _ n _ => n | Delete _ n => n end.
(** Other files *)
Lemma call_frame c f f' r q : exec (p_call c) f f' r -> q <> np (call_name c) pub -> q <> np (call_name c) pri -> q <> mp -> f' q = f q.
Proof.
  intros X Q1 Q2 Q3. destruct c as [n g|n]; cbn [FpkModel.p_call call_name] in *.
  - apply gen_exec in X. destruct X as [-> |(_ & _ & priv & publ & _ & a & b & c & (_ & _ & _ & V) & _)]; [reflexivity|]. now apply V.
  - apply del_exec in X. now apply X.
Qed.

(** ** The map *)
Section Map.
Variable U : name -> Prop.
Hypothesis NO : names_ok U.
Definition rep (f : fs) (m : keymap P) : Prop := forall n, U n ->
  match m n with
  | Some k => exists priv publ, to8 k = Ok priv /\ derive k = Ok publ /\ bytes_ok priv /\ bytes_ok publ /\ load8 priv = Ok k /\ f (np n pub) = Some (File (base64Encode publ true) (Mode 292)) /\ f (np n pri) = Some (File (base64Encode priv true) (Mode 256))
  | None => f (np n pub) = None /\ f (np n pri) = None
  end.
Lemma m_set_same m n k : m_set m n k n = k. Proof. unfold FpkSpec.m_set. destruct (name_dec n n); [reflexivity|contradiction]. Qed.
Lemma m_set_other m n k n' : n <> n' -> m_set m n k n' = m n'. Proof. unfold FpkSpec.m_set. destruct (name_dec n n'); [contradiction|reflexivity]. Qed.
Lemma good_material k : good_key k -> exists priv publ, to8 k = Ok priv /\ derive k = Ok publ /\ bytes_ok priv /\ bytes_ok publ /\ load8 priv = Ok k /\ material (Ok k) = Ok (priv, publ).
Proof. intros (priv & publ & A & B & C & D & E). exists priv, publ. unfold material. cbn [rbind]. rewrite A. cbn [rbind]. rewrite B. auto 7. Qed.
Lemma other_name n n' : U n -> U n' -> n' <> n -> np n' pub <> np n pub /\ np n' pri <> np n pri.
Proof. intros A B N. split; intro E; apply N; eapply (np_inj U); eauto. Qed.
Lemma rep_frame (f f' : fs) n n' : U n -> U n' -> n' <> n -> (forall q, q <> np n pub -> q <> np n pri -> q <> mp -> f' q = f q) -> f' (np n' pub) = f (np n' pub) /\ f' (np n' pri) = f (np n' pri).
Proof.
  intros A B N V. destruct (other_name n n' A B N) as [O1 O2]. split; apply V; auto using pub_pri, pub_map, pri_map; try (apply not_eq_sym; apply pub_pri); try apply pub_pri.
Qed.
Lemma rep_call f m c : rep f m -> call_ok U c -> rep (fst (perform (p_call c) f)) (m_call m c) /\
  match c with Generate _ n g => snd (perform (p_call c) f) = match m n, g with None, Ok _ => Ok tt | _, _ => Err SecurityException end | Delete _ _ => snd (perform (p_call c) f) = Ok tt end /\
  fst (perform (p_call c) f) mp = match c with Generate _ n g => match m n, g with None, Ok _ => m3 mp f (line n) | _, _ => f mp end | Delete _ _ => f mp end.
Proof.
  intros R O. destruct c as [n g|n]; cbn [FpkModel.p_call FpkSpec.m_call FpkSpec.call_ok] in *.
  - destruct O as [Un G]. pose proof (R n Un) as Rn. destruct (m n) as [k0|] eqn:M.
    + destruct Rn as (a & b & _ & _ & _ & _ & _ & E & _). rewrite gen_refused by (left; congruence). cbn [fst snd]. split; [|split; [destruct g; reflexivity|destruct g; reflexivity]]. destruct g; exact R.
    + destruct g as [k|e].
      * destruct (good_material k (G k eq_refl)) as (priv & publ & A & B & C & D & E & Mt). destruct Rn as [R1 R2]. destruct (gen_done n (Ok k) f priv publ R1 R2 Mt) as (f' & -> & V1 & V2 & V3 & V4). cbn [fst snd]. split; [|split; [reflexivity|exact V3]].
        intros n' Un'. destruct (name_dec n n') as [<- |N].
        -- rewrite m_set_same. exists priv, publ. auto 8.
        -- rewrite m_set_other by exact N. destruct (rep_frame f f' n n' Un Un' (not_eq_sym N) V4) as [-> ->]. apply R, Un'.
      * rewrite gen_refused by (right; right; exists e; reflexivity). cbn [fst snd]. split; [exact R|split; reflexivity].
  - destruct (del_perform n f) as (f' & -> & V1 & V2 & V3 & V4). cbn [fst snd]. split; [|split; [reflexivity|exact V3]]. intros n' Un'. destruct (name_dec n n') as [<- |N].
    + rewrite m_set_same. auto.
    + rewrite m_set_other by exact N. destruct (rep_frame f f' n n' O Un' (not_eq_sym N) V4) as [-> ->]. apply R, Un'.
Qed.
Lemma rep_start : rep no_files (fun _ => None). Proof. intros n _. split; reflexivity. Qed.
Lemma rep_run h : Forall (call_ok U) h -> rep (run h) (m_run h).
Proof.
  intro F. unfold FpkModel.run, FpkSpec.m_run. assert (X : forall f m, rep f m -> rep (fold_left (fun f c => fst (perform (p_call c) f)) h f) (fold_left m_call h m)); [|apply X, rep_start].
  induction F as [|c h O F IH]; intros f m R; [exact R|]. cbn [fold_left]. apply IH. apply rep_call; assumption.
Qed.
Definition lines (ns : list name) : list Z := concat (map line ns).
Lemma map_run h : Forall (call_ok U) h -> text_of (run h) mp = lines (generated P (fun _ => None) h).
Proof.
  intro F. unfold FpkModel.run. assert (X : forall f m, rep f m -> text_of (fold_left (fun f c => fst (perform (p_call c) f)) h f) mp = text_of f mp ++ lines (generated P m h)); [|apply (X _ _ rep_start)].
  induction F as [|c h O F IH]; intros f m R; [cbn; now rewrite app_nil_r|]. cbn [fold_left generated]. destruct (rep_call f m c R O) as (R' & _ & E). rewrite (IH _ _ R'). unfold text_of at 1. rewrite E. unfold lines. rewrite map_app, concat_app, app_assoc. f_equal.
  destruct c as [n g|n]; [|cbn [map concat]; now rewrite app_nil_r]. destruct (m n); [destruct g; cbn [map concat]; rewrite app_nil_r; reflexivity|]. destruct g; cbn [map concat]; rewrite !app_nil_r; reflexivity.
Qed.

(** ** With failures *)
Definition beginnings (h : list call) (f : fs) : Prop := forall n, U n ->
  (forall x, f (np n pri) = Some x -> exists k priv, In (Generate P n (Ok k)) h /\ to8 k = Ok priv /\ prefix_of (f_text x) (base64Encode priv true)) /\
  (forall x, f (np n pub) = Some x -> exists k publ, In (Generate P n (Ok k)) h /\ derive k = Ok publ /\ prefix_of (f_text x) (base64Encode publ true)).
Lemma material_ok g priv publ : material g = Ok (priv, publ) -> exists k, g = Ok k /\ to8 k = Ok priv /\ derive k = Ok publ.
Proof. unfold material. destruct g as [k|]; cbn [rbind]; [|intro E; discriminate E]. destruct (to8 k) eqn:A; cbn [rbind]; [|intro E; discriminate E]. destruct (derive k) eqn:B; cbn [rbind]; [|intro E; discriminate E]. intro E. injection E as <- <-. exists k. auto. Qed.
Lemma call_beginnings h c f f' r : beginnings h f -> call_ok U c -> exec (p_call c) f f' r -> beginnings (h ++ [c]) f'.
Proof.
  intros B O X n Un. assert (Un0 : U (call_name c)) by (destruct c; cbn in *; tauto).
  assert (Old : f' (np n pub) = f (np n pub) -> f' (np n pri) = f (np n pri) -> (forall x, f' (np n pri) = Some x -> exists k priv, In (Generate P n (Ok k)) (h ++ [c]) /\ to8 k = Ok priv /\ prefix_of (f_text x) (base64Encode priv true)) /\
    (forall x, f' (np n pub) = Some x -> exists k publ, In (Generate P n (Ok k)) (h ++ [c]) /\ derive k = Ok publ /\ prefix_of (f_text x) (base64Encode publ true))).
  { intros -> ->. destruct (B n Un) as [B1 B2]. split; intros x E; [destruct (B1 x E) as (k & y & I & J)|destruct (B2 x E) as (k & y & I & J)]; exists k, y; (split; [apply in_or_app; left; exact I|exact J]). }
  destruct (name_dec n (call_name c)) as [-> |N].
  2:{ apply Old; apply (rep_frame f f' (call_name c) n Un0 Un N); intros q Q1 Q2 Q3; eapply call_frame; eauto. }
  destruct c as [n g|n]; cbn [call_name FpkModel.p_call] in *.
  - apply gen_exec in X. destruct X as [-> |(E1 & E2 & priv & publ & Mt & a & b & c & (V1 & V2 & _) & _ & K)]; [apply Old; reflexivity|]. destruct (material_ok g priv publ Mt) as (k & -> & T8 & D8).
    assert (I : In (Generate P n (Ok k)) (h ++ [Generate P n (Ok k)])) by (apply in_or_app; right; left; reflexivity). rewrite V1, V2.
    destruct K as [(-> & ->)|[(t & Pt & -> & ->)|[(t & Pt & -> & ->)|(-> & m & _ & ->)]]]; (split; intros x E; [|]); try discriminate E; injection E as <-; cbn [f_text]; exists k; eexists; (split; [exact I|split; [eassumption|]]); try assumption; apply prefix_refl.
  - apply del_exec in X. destruct X as (_ & D1 & D2). destruct (B n Un) as [B1 B2]. split; intros x E.
    + destruct D2 as [D2|D2]; rewrite D2 in E; [|discriminate E]. destruct (B1 x E) as (k & y & I & J). exists k, y. split; [apply in_or_app; left; exact I|exact J].
    + destruct D1 as [D1|D1]; rewrite D1 in E; [|discriminate E]. destruct (B2 x E) as (k & y & I & J). exists k, y. split; [apply in_or_app; left; exact I|exact J].
Qed.
Lemma reach_beginnings h f : reach h f -> Forall (call_ok U) h -> beginnings h f.
Proof.
  intro R. induction R as [|h f c f' r R IH X]; intro F; [intros n _; split; intros x E; discriminate E|]. apply Forall_app in F. destruct F as [F1 F2]. inversion F2; subst. eapply call_beginnings; eauto.
Qed.
End Map.
End Fpk.
