(** * What one call of the constructor does *)
From Verif Require Import Base BaseLemmas NameModel UriModel UriProofs DictModel WireModel HierModel PibModel FrontModel BagModel ChainModel SqlModel SqlSpec SqlTable SqlProofs SqlProps LocModel LocSpec LocProofs.

(** ** The statements on the PIB *)
Definition loc (d : db) : str := match b_tpm d with [] => [] | x :: _ => x end.
Lemma perform_get : forall d, perform p_getTpmLocator d = (d, Ok (loc d)).
Proof. intros d. unfold p_getTpmLocator, one_row, give, loc. cbn [pbind perform read]. destruct (b_tpm d); reflexivity. Qed.
Lemma stored_loc : forall d x, stored d x <-> x = loc d.
Proof. intros d x. unfold stored, gives. rewrite perform_get. cbn [snd]. split; [intros H; injection H as H; auto|intros ->; reflexivity]. Qed.
Definition with_tpm (t : list str) (d : db) : db := Db t (b_ids d) (b_keys d) (b_certs d).
Definition set_rows (l : str) (t : list str) : list str := match t with [] => [l] | [] :: _ => t ++ [l] | _ => map (fun _ => l) t end.
Lemma perform_set : forall l d, perform (p_setTpmLocator l) d = (with_tpm (set_rows l (b_tpm d)) d, Ok tt).
Proof. intros l d. unfold p_setTpmLocator, p_getTpmLocator, one_row, give. cbn [pbind perform read]. unfold set_rows, with_tpm. destruct (b_tpm d) as [|[|z x] r] eqn:E; cbn [pbind perform give zlist_eqb]; unfold do, give; cbn [perform write]; rewrite ?E; reflexivity. Qed.
Definition cleared (d : db) : db := drop_ids (fun _ => true) d.
Definition rst (d : db) : db := with_tpm (set_rows [] (b_tpm d)) (cleared d).
Lemma cleared_tpm : forall d, b_tpm (cleared d) = b_tpm d. Proof. reflexivity. Qed.
Lemma perform_reset : forall d, perform p_reset d = (rst d, Ok tt).
Proof.
  intros d. change (perform p_reset d) with (perform (p_setTpmLocator []) (cleared d)). rewrite perform_set. reflexivity.
Qed.
Definition pset (l : str) (d : db) : db := if zlist_eqb l (loc d) then d else with_tpm (set_rows l (b_tpm d)) d.
Lemma perform_pset : forall l d, perform (p_pibSet l) d = (pset l d, Ok tt).
Proof.
  intros l d. unfold p_pibSet, p_getTpmLocator, one_row, give. cbn [pbind perform read]. unfold pset, loc. destruct (b_tpm d) as [|x r] eqn:E; cbn [pbind perform give].
  - destruct (zlist_eqb l []); [reflexivity|]. rewrite perform_set, E. reflexivity.
  - destruct (zlist_eqb l x); [reflexivity|]. rewrite perform_set, E. reflexivity.
Qed.
Lemma pset_same : forall l d, same_content d (pset l d).
Proof. intros. unfold pset. destruct (zlist_eqb l (loc d)); repeat split. Qed.
Lemma same_trans : forall a b c, same_content a b -> same_content b c -> same_content a c.
Proof. intros a b c (?&?&?) (?&?&?). repeat split; congruence. Qed.
Lemma same_refl : forall a, same_content a a. Proof. intros. repeat split. Qed.
Lemma filter_none : forall (A : Type) (f : A -> bool) l, (forall x, In x l -> f x = false) -> filter f l = [].
Proof. intros A f l. induction l as [|x l IH]; intros H; [reflexivity|]. cbn [filter]. rewrite (H x (or_introl eq_refl)). apply IH. intros y I. apply H. right. exact I. Qed.
Lemma filter_all : forall (A : Type) (f : A -> bool) l, (forall x, In x l -> f x = true) -> filter f l = l.
Proof. intros A f l. induction l as [|x l IH]; intros H; [reflexivity|]. cbn [filter]. rewrite (H x (or_introl eq_refl)). f_equal. apply IH. intros y I. apply H. right. exact I. Qed.
Lemma cleared_erased : forall d, linked d -> erased (cleared d).
Proof.
  intros d [Lk Lc]. unfold cleared, drop_ids, drop_keys, erased. cbn [b_ids b_keys b_certs b_tpm]. rewrite (filter_all _ (fun _ => true)) by reflexivity.
  assert (K : forall r, In r (b_keys d) -> has_id (map r_id (b_ids d)) (r_scope r) = true). { intros r I. destruct (Lk r I) as (i & Ii & E). apply existsb_exists. exists (r_id i). split; [apply in_map, Ii|]. lia. }
  split; [|split].
  - apply filter_none. reflexivity.
  - apply filter_none. intros r I. rewrite (K r I). reflexivity.
  - rewrite (filter_all _ (fun r => has_id (map r_id (b_ids d)) (r_scope r))) by exact K. apply filter_none. intros r I. destruct (Lc r I) as (k & Ik & E). apply negb_false_iff. apply existsb_exists. exists (r_id k). split; [apply in_map, Ik|]. lia.
Qed.
Lemma rst_erased : forall d, linked d -> erased (rst d). Proof. intros d L. exact (cleared_erased d L). Qed.
Lemma rst_loc : forall d, loc (rst d) = [].
Proof. intros d. unfold rst, loc, with_tpm, set_rows. cbn [b_tpm]. destruct (b_tpm d) as [|[|z x] r]; reflexivity. Qed.
Lemma good_linked : forall d, Good d -> linked d.
Proof.
  intros d G. split; intros r I.
  - pose proof (look_row _ _ (g_k d G) I) as L. destruct (g_key d G _ _ _ _ L) as (k & _ & _ & s' & x' & L2). apply (look_in _ _ _ _ _ (g_i d G)) in L2. destruct L2 as [df L2]. eexists. split; [exact L2|]. reflexivity.
  - pose proof (look_row _ _ (g_c d G) I) as L. destruct (g_cert d G _ _ _ _ L) as (k & _ & _ & _ & s' & x' & L2). apply (look_in _ _ _ _ _ (g_k d G)) in L2. destruct L2 as [df L2]. eexists. split; [exact L2|]. reflexivity.
Qed.
(** the hypothesis [linked] of the theorems: it holds whatever several processes did with the file (C77) *)
Lemma linked_always : forall s, y_reach sql_sane s -> linked (y_db s).
Proof. intros s R. apply good_linked. apply (reach_good s R). Qed.

(** ** Locators *)
Lemma parse_canonical : forall s l, ~ In 58 s -> parse_locator (canonical (s, l)) = (s, l).
Proof. intros s l N. unfold parse_locator, canonical. cbn [fst snd]. rewrite find_is by exact N. destruct (split_at s l 58) as [-> ->]. reflexivity. Qed.
Lemma parse_scheme : forall u s l, parse_locator u = (s, l) -> ~ In 58 s.
Proof. intros u s l H. unfold parse_locator in H. destruct (find_idx 58 u) as [i|] eqn:F; injection H as <- <-; [apply (find_first _ _ _ F)|apply (find_no _ _ F)]. Qed.
Lemma check_in : forall d known u s l, check d known u = inl (s, l) -> existsb (zlist_eqb s) known = true /\ (snd (parse_locator u) = l).
Proof. intros d known u s l H. unfold check in H. destruct (parse_locator u) as [s' l']. match type of H with (if ?b then _ else _) = _ => destruct b eqn:E end; [|discriminate H]. injection H as <- <-. auto. Qed.
Lemma check_canonical : forall d known u sl, ~ In 58 d -> existsb (zlist_eqb []) known = false -> check d known u = inl sl -> check d known (canonical sl) = inl sl.
Proof.
  intros d known u [s l] Nd Ne H. destruct (check_in _ _ _ _ _ H) as [I _]. unfold check in H |- *.
  assert (N : ~ In 58 s). { destruct (parse_locator u) as [s' l'] eqn:P. match type of H with (if ?b then _ else _) = _ => destruct b end; [|discriminate H]. injection H as <- <-. destruct s' as [|c s']; [exact Nd|]. eapply parse_scheme, P. }
  rewrite (parse_canonical s l N). destruct s as [|c s]; [congruence|]. rewrite I. reflexivity.
Qed.
Lemma pib_canonical : forall u sl, check_pib u = inl sl -> check_pib (canonical sl) = inl sl.
Proof. intros u sl H. eapply check_canonical; [| |exact H]; [intros I; cbn in I; lia|reflexivity]. Qed.
Lemma tpm_canonical : forall u sl, check_tpm u = inl sl -> check_tpm (canonical sl) = inl sl.
Proof. intros u sl H. eapply check_canonical; [| |exact H]; [intros I; cbn in I; lia|reflexivity]. Qed.

(** ** The constructor *)
Section Step.
Variable dir : str.
Notation k_init := (k_init dir).
Notation place_of := (place_of dir).
Definition resolve_pib (e : env) : str := let l := first_choice (e_pib e) (e_conf e) s_pib s_sqlite in match check_pib l with inl sl => canonical sl | inr _ => l end.
Definition resolve_tpm (e : env) : str := let l := first_choice (e_tpm e) (e_conf e) s_tpm s_file in match check_tpm l with inl sl => canonical sl | inr _ => l end.
(** the default locators that the process has, or would find *)
Definition dpib (e : env) (w : world) : str := match w_pibdef w with Some l => l | None => resolve_pib e end.
Definition dtpm (e : env) (w : world) : str := match w_tpmdef w with Some l => l | None => resolve_tpm e end.
Definition okp (e : env) (w : world) : bool := match w_pibdef w with Some _ => true | None => match check_pib (first_choice (e_pib e) (e_conf e) s_pib s_sqlite) with inl _ => true | inr _ => false end end.
Definition okt (e : env) (w : world) : bool := match w_tpmdef w with Some _ => true | None => match check_tpm (first_choice (e_tpm e) (e_conf e) s_tpm s_file) with inl _ => true | inr _ => false end end.
Lemma check_err : forall d k u x, check d k u = inr x -> x = NotSupported.
Proof. intros d k u x H. unfold check in H. destruct (parse_locator u). match type of H with (if ?b then _ else _) = _ => destruct b end; congruence. Qed.
Lemma gdp : forall e w, get_default_pib e w = (World (Some (dpib e w)) (w_tpmdef w) (w_files w) (w_mem w), if okp e w then inl (dpib e w) else inr NotSupported).
Proof.
  intros e [[l|] t f mm]; unfold get_default_pib, dpib, okp; cbn [w_pibdef w_tpmdef w_files w_mem]; [reflexivity|]. unfold resolve_pib. cbv zeta.
  destruct (check_pib _) as [sl|x] eqn:E; [reflexivity|]. apply check_err in E. subst. reflexivity.
Qed.
Lemma gdt : forall e w, get_default_tpm e w = (World (w_pibdef w) (Some (dtpm e w)) (w_files w) (w_mem w), if okt e w then inl (dtpm e w) else inr NotSupported).
Proof.
  intros e [l [t|] f mm]; unfold get_default_tpm, dtpm, okt; cbn [w_pibdef w_tpmdef w_files w_mem]; [reflexivity|]. unfold resolve_tpm. cbv zeta.
  destruct (check_tpm _) as [sl|x] eqn:E; [reflexivity|]. apply check_err in E. subst. reflexivity.
Qed.
Lemma put_same : forall f p d, put_file f p d p = Some d. Proof. intros. unfold put_file. rewrite zle_refl. reflexivity. Qed.
Lemma put_other : forall f p d q, q <> p -> put_file f p d q = f q. Proof. intros. unfold put_file. rewrite zle_neq by congruence. reflexivity. Qed.

(** [tail] is what k_init does after the locators were found (lines 145-188) *)
Definition tail (e : env) (pl : str) (tl : option str) (allow : bool) : m keychain :=
  mb (lift (check_pib pl)) (fun sl =>
  mb (create_pib dir (canonical sl)) (fun pib =>
  mb (on pib p_getTpmLocator) (fun old =>
  mb (match tl with None => fail NoTpmLocator | Some t => lift (check_tpm t) end) (fun tsl =>
  mb (get_default_pib e) (fun dp =>
  mb (if zlist_eqb (canonical sl) dp then
       if emptyb old then ret (canonical tsl)
       else mb (get_default_tpm e) (fun dt => if zlist_eqb old dt then ret (canonical tsl) else mb (on pib p_reset) (fun _ => get_default_tpm e))
     else
       if emptyb old || zlist_eqb old (canonical tsl) then ret (canonical tsl)
       else if allow then mb (on pib p_reset) (fun _ => ret (canonical tsl)) else fail Mismatch) (fun tpm =>
  mb (create_tpm tpm) (fun t => mb (on pib (p_pibSet tpm)) (fun _ => ret (KC pib t))))))))).
Definition the_pib (e : env) (w : world) (pl : str) : str := if emptyb pl then dpib e w else pl.
Definition the_tpm (e : env) (w : world) (tl : option str) : option str := match tl with Some [] => Some (dtpm e w) | _ => tl end.
(** the process after the locators were found *)
Definition w_found (e : env) (w : world) (pl : str) (tl : option str) : world :=
  World (if emptyb pl then Some (dpib e w) else w_pibdef w) (match tl with Some [] => Some (dtpm e w) | _ => w_tpmdef w end) (w_files w) (w_mem w).
Lemma init_tail : forall e pl tl allow w,
  (exists w', k_init e pl tl allow w = (w', inr NotSupported) /\ w_files w' = w_files w /\ (okp e w = false \/ okt e w = false) /\ (w_pibdef w' = Some (dpib e w) \/ w_pibdef w' = w_pibdef w) /\ (w_tpmdef w' = Some (dtpm e w) \/ w_tpmdef w' = w_tpmdef w)) \/
  k_init e pl tl allow w = tail e (the_pib e w pl) (the_tpm e w tl) allow (w_found e w pl tl).
Proof.
  intros e pl tl allow w.
  change (k_init e pl tl allow) with (mb (if emptyb pl then get_default_pib e else ret pl) (fun pl => mb (match tl with Some [] => mb (get_default_tpm e) (fun t => ret (Some t)) | _ => ret tl end) (fun tl => tail e pl tl allow))).
  generalize (fun pl tl => tail e pl tl allow). intros tl_. unfold the_pib, the_tpm, w_found. destruct w as [wp wt wf wm]. destruct (emptyb pl) eqn:Ep; cbv beta iota delta [mb].
  - rewrite gdp. destruct (okp e _) eqn:Ok1; cbn [w_pibdef w_tpmdef w_files w_mem].
    + destruct tl as [[|c t]|]; try (right; reflexivity). rewrite gdt. change (okt e (World (Some (dpib e (World wp wt wf wm))) wt wf wm)) with (okt e (World wp wt wf wm)). destruct (okt e _) eqn:Ok2.
      { right. reflexivity. } { left. eexists. split; [reflexivity|]. cbn [w_pibdef w_tpmdef w_files w_mem]. auto 8. }
    + left. eexists. split; [reflexivity|]. cbn [w_pibdef w_tpmdef w_files w_mem]. auto 8.
  - cbn [ret]. unfold ret. destruct tl as [[|c t]|]; try (right; reflexivity). rewrite gdt. destruct (okt e _) eqn:Ok2.
    { right. reflexivity. } { left. eexists. split; [reflexivity|]. cbn [w_pibdef w_tpmdef w_files w_mem]. auto 8. }
Qed.

Lemma mb_ok : forall A B (p : m A) (f : A -> m B) w w1 a, p w = (w1, inl a) -> mb p f w = f a w1.
Proof. intros A B p f w w1 a H. unfold mb. rewrite H. reflexivity. Qed.
Lemma mb_err : forall A B (p : m A) (f : A -> m B) w w1 x, p w = (w1, inr x) -> mb p f w = (w1, inr x).
Proof. intros A B p f w w1 x H. unfold mb. rewrite H. reflexivity. Qed.
Lemma at_put : forall pl d w, db_at pl (put_db pl d w) = d.
Proof. intros [p|] d w; cbn; [rewrite put_same|]; reflexivity. Qed.
(** [R pl w d a b]: the PIB has the database d, the class variables are a and b, and the other files are those of w *)
Definition R (pl : place) (w : world) (d : db) (a b : option str) (w1 : world) : Prop :=
  db_at pl w1 = d /\ w_pibdef w1 = a /\ w_tpmdef w1 = b /\ (forall q, InFile q <> pl -> w_files w1 q = w_files w q) /\ (forall q, InFile q = pl -> w_files w1 q = Some d).
Lemma R_put : forall pl w d a b w1 d', R pl w d a b w1 -> R pl w d' a b (put_db pl d' w1).
Proof.
  intros pl w d a b w1 d' (A & B & C & D & E). split; [apply at_put|]. destruct pl as [p|]; cbn.
  - do 2 (split; [assumption|]). split; intros q Q; [rewrite put_other by congruence; apply D, Q|]. injection Q as ->. apply put_same.
  - do 2 (split; [assumption|]). split; [exact D|]. intros q Q. discriminate Q.
Qed.
Lemma R_on : forall pl w d a b w1 A (p : prog A) d' x, R pl w d a b w1 -> perform p d = (d', Ok x) -> on pl p w1 = (put_db pl d' w1, inl x) /\ R pl w d' a b (put_db pl d' w1).
Proof. intros pl w d a b w1 A p d' x H P. split; [|eapply R_put, H]. destruct H as (E & _). unfold on. rewrite E, P. reflexivity. Qed.
Lemma R_gdp : forall pl w d a b w1 e, R pl w d a b w1 -> exists w2, get_default_pib e w1 = (w2, if okp e w1 then inl (dpib e w1) else inr NotSupported) /\ R pl w d (Some (dpib e w1)) b w2.
Proof. intros pl w d a b w1 e (A & B & C & D & E). rewrite gdp. eexists. split; [reflexivity|]. unfold R. cbn. repeat (split; [assumption || reflexivity|]). exact E. Qed.
Lemma R_gdt : forall pl w d a b w1 e, R pl w d a b w1 -> exists w2, get_default_tpm e w1 = (w2, if okt e w1 then inl (dtpm e w1) else inr NotSupported) /\ R pl w d a (Some (dtpm e w1)) w2.
Proof. intros pl w d a b w1 e (A & B & C & D & E). rewrite gdt. eexists. split; [reflexivity|]. unfold R. cbn. repeat (split; [assumption || reflexivity|]). exact E. Qed.

Definition old_db (sl : str * str) (w : world) : db := match place_of sl with InFile p => db_at (InFile p) w | InMemory => db_new end.
Inductive outcome (e : env) (w : world) (sl : str * str) (tl : option str) (allow : bool) (d : db) : db -> keychain + kerr -> Prop :=
  | ONone : tl = None -> outcome e w sl tl allow d d (inr NoTpmLocator)
  | OTpm : forall t, tl = Some t -> check_tpm t = inr NotSupported -> outcome e w sl tl allow d d (inr NotSupported)
  | ODefault : okp e w = false \/ okt e w = false -> outcome e w sl tl allow d d (inr NotSupported)
  | OKeep : forall t ts, tl = Some t -> check_tpm t = inl ts -> (loc d = [] \/ (canonical sl = dpib e w /\ loc d = dtpm e w) \/ (canonical sl <> dpib e w /\ loc d = canonical ts)) ->
      outcome e w sl tl allow d (pset (canonical ts) d) (inl (KC (place_of sl) (canonical ts)))
  | OReset : forall t ts, tl = Some t -> check_tpm t = inl ts -> loc d <> [] -> canonical sl <> dpib e w -> loc d <> canonical ts -> allow = true ->
      outcome e w sl tl allow d (pset (canonical ts) (rst d)) (inl (KC (place_of sl) (canonical ts)))
  | ORefuse : forall t ts, tl = Some t -> check_tpm t = inl ts -> loc d <> [] -> canonical sl <> dpib e w -> loc d <> canonical ts -> allow = false ->
      outcome e w sl tl allow d d (inr Mismatch)
  | OMust : forall t ts s2, tl = Some t -> check_tpm t = inl ts -> loc d <> [] -> canonical sl = dpib e w -> loc d <> dtpm e w -> check_tpm (dtpm e w) = inl s2 ->
      outcome e w sl tl allow d (pset (dtpm e w) (rst d)) (inl (KC (place_of sl) (canonical s2)))
  | OLost : forall t ts, tl = Some t -> check_tpm t = inl ts -> loc d <> [] -> canonical sl = dpib e w -> loc d <> dtpm e w -> check_tpm (dtpm e w) = inr NotSupported ->
      outcome e w sl tl allow d (rst d) (inr NotSupported).
Definition caches (e : env) (w w' : world) : Prop :=
  (w_pibdef w' = Some (dpib e w) \/ w_pibdef w' = w_pibdef w) /\ (w_tpmdef w' = Some (dtpm e w) \/ w_tpmdef w' = w_tpmdef w).
Lemma R_same : forall pl w d w1 e, R pl w d (w_pibdef w) (w_tpmdef w) w1 -> okp e w1 = okp e w /\ okt e w1 = okt e w /\ dpib e w1 = dpib e w /\ dtpm e w1 = dtpm e w.
Proof. intros pl w d w1 e (_ & B & C & _). unfold okp, okt, dpib, dtpm. rewrite B, C. auto. Qed.
Lemma tail_cases : forall e pl tl allow w w' r, tail e pl tl allow w = (w', r) -> caches e w w' /\
  ((check_pib pl = inr NotSupported /\ w' = w /\ r = inr NotSupported) \/
   exists sl d', check_pib pl = inl sl /\ (exists a b, R (place_of sl) w d' a b w') /\ outcome e w sl tl allow (old_db sl w) d' r).
Proof.
  intros e pl tl allow w w' r H. unfold tail in H. destruct (check_pib pl) as [sl|x] eqn:Cp.
  2:{ pose proof (check_err _ _ _ _ Cp) as ->. injection H as <- <-. split; [split; auto|]. left. auto. }
  rewrite (mb_ok _ _ _ _ w w sl eq_refl) in H.
  assert (exists w1, create_pib dir (canonical sl) w = (w1, inl (place_of sl)) /\ R (place_of sl) w (old_db sl w) (w_pibdef w) (w_tpmdef w) w1) as (w1 & E1 & R1).
  { unfold create_pib. rewrite (pib_canonical _ _ Cp). rewrite (mb_ok _ _ _ _ w w sl eq_refl). unfold old_db. destruct (place_of sl) as [p|]; eexists; (split; [reflexivity|]); split; try apply at_put; cbn; do 2 (split; [reflexivity|]); split; intros q Q; try reflexivity; try discriminate Q.
    - rewrite put_other by congruence. reflexivity. - injection Q as ->. apply put_same. }
  rewrite (mb_ok _ _ _ _ _ _ _ E1) in H. set (d := old_db sl w) in *. set (P := place_of sl) in *.
  destruct (R_on _ _ _ _ _ _ _ _ _ _ R1 (perform_get d)) as [E2 R2]. rewrite (mb_ok _ _ _ _ _ _ _ E2) in H. clear E1 E2 R1. set (w2 := put_db P d w1) in *. clearbody w2.
  destruct (R_same _ _ _ _ e R2) as (Q1 & Q2 & Q3 & Q4).
  assert (Cs : forall w3 d3 a b, R P w d3 a b w3 -> (a = Some (dpib e w) \/ a = w_pibdef w) -> (b = Some (dtpm e w) \/ b = w_tpmdef w) -> caches e w w3). { intros w3 d3 a b (_ & Ea & Eb & _) Ha Hb. unfold caches. rewrite Ea, Eb. split; assumption. }
  assert (Fin : forall w3 d3 a b r3, R P w d3 a b w3 -> (a = Some (dpib e w) \/ a = w_pibdef w) -> (b = Some (dtpm e w) \/ b = w_tpmdef w) -> (w3, r3) = (w', r) -> outcome e w sl tl allow d d3 r3 ->
    caches e w w' /\ (((inl sl : str * str + kerr) = inr NotSupported /\ w' = w /\ r = inr NotSupported) \/ exists sl0 d', (inl sl : str * str + kerr) = inl sl0 /\ (exists a b, R (place_of sl0) w d' a b w') /\ outcome e w sl0 tl allow (old_db sl0 w) d' r)).
  { intros w3 d3 a b r3 HR Ha Hb E O. injection E as <- <-. split; [eapply Cs; eassumption|]. right. exists sl, d3. split; [reflexivity|]. split; [eauto|exact O]. }
  destruct tl as [t|].
  2:{ unfold fail in H. rewrite (mb_err _ _ _ _ _ _ NoTpmLocator eq_refl) in H. eapply Fin; eauto. constructor. reflexivity. }
  destruct (check_tpm t) as [ts|x] eqn:Ct.
  2:{ pose proof (check_err _ _ _ _ Ct) as ->. rewrite (mb_err _ _ _ _ w2 w2 NotSupported eq_refl) in H. eapply Fin; eauto. eapply OTpm; eauto. }
  rewrite (mb_ok _ _ _ _ w2 w2 ts eq_refl) in H.
  destruct (R_gdp _ _ _ _ _ _ e R2) as (w3 & E3 & R3). rewrite Q1, Q3 in *. destruct (okp e w) eqn:Kp.
  2:{ rewrite (mb_err _ _ _ _ _ _ _ E3) in H. eapply Fin; eauto. apply ODefault. auto. }
  rewrite (mb_ok _ _ _ _ _ _ _ E3) in H. clear E3. change (dtpm e w2) with (dtpm e w2) in Q4.
  assert (Qt : okt e w3 = okt e w /\ dtpm e w3 = dtpm e w). { destruct R3 as (_ & _ & C & _). unfold okt, dtpm. rewrite C. auto. } destruct Qt as [Qa Qb].
  assert (Done : forall T w4 d4 b t2, R P w d4 (Some (dpib e w)) b w4 -> check_tpm T = inl t2 -> (b = Some (dtpm e w) \/ b = w_tpmdef w) -> mb (create_tpm T) (fun t0 => mb (on P (p_pibSet T)) (fun _ => ret (KC P t0))) w4 = (w', r) ->
     outcome e w sl (Some t) allow d (pset T d4) (inl (KC P (canonical t2))) ->
     caches e w w' /\ (((inl sl : str * str + kerr) = inr NotSupported /\ w' = w /\ r = inr NotSupported) \/ exists sl0 d', (inl sl : str * str + kerr) = inl sl0 /\ (exists a b, R (place_of sl0) w d' a b w') /\ outcome e w sl0 (Some t) allow (old_db sl0 w) d' r)).
  { intros T w4 d4 b t2 R4 Ck Hb E O. unfold create_tpm in E. rewrite Ck in E. rewrite (mb_ok _ _ _ _ w4 w4 (canonical t2) eq_refl) in E. destruct (R_on _ _ _ _ _ _ _ _ _ _ R4 (perform_pset T d4)) as [E5 R5]. rewrite (mb_ok _ _ _ _ _ _ _ E5) in E. eapply Fin; eauto. }
  pose proof (tpm_canonical _ _ Ct) as Ct2.
  destruct (zle_cases (canonical sl) (dpib e w)) as [[Ed Bd]|[Nd Bd]]; rewrite Bd in H.
  - destruct (loc d) as [|c lr] eqn:Ld.
    + rewrite (mb_ok _ _ _ _ w3 w3 (canonical ts) eq_refl) in H. eapply Done; eauto. eapply OKeep; eauto.
    + rewrite <- Ld in H. replace (emptyb (loc d)) with false in H by (rewrite Ld; reflexivity).
      destruct (R_gdt _ _ _ _ _ _ e R3) as (w4 & E4 & R4). rewrite Qa, Qb in *. destruct (okt e w) eqn:Kt.
      2:{ rewrite (mb_err _ _ _ _ w3 w4 NotSupported) in H by (apply mb_err, E4). eapply Fin; eauto. apply ODefault. auto. }
      destruct (zle_cases (loc d) (dtpm e w)) as [[Et Bt]|[Nt Bt]].
      * rewrite (mb_ok _ _ _ _ w3 w4 (canonical ts)) in H. 2:{ rewrite (mb_ok _ _ _ _ _ _ _ E4). rewrite Bt. reflexivity. } eapply Done; eauto. eapply OKeep; eauto.
      * destruct (R_on _ _ _ _ _ _ _ _ _ _ R4 (perform_reset d)) as [E5 R5]. destruct (R_gdt _ _ _ _ _ _ e R5) as (w6 & E6 & R6).
        assert (Qc : okt e (put_db P (rst d) w4) = true /\ dtpm e (put_db P (rst d) w4) = dtpm e w). { destruct R5 as (_ & _ & C & _). unfold okt, dtpm. rewrite C. auto. } destruct Qc as [Qc Qd]. rewrite Qc, Qd in *.
        rewrite (mb_ok _ _ _ _ w3 w6 (dtpm e w)) in H. 2:{ rewrite (mb_ok _ _ _ _ _ _ _ E4). rewrite Bt. rewrite (mb_ok _ _ _ _ _ _ _ E5). exact E6. }
        assert (NL : loc d <> []) by (rewrite Ld; discriminate).
        destruct (check_tpm (dtpm e w)) as [s2|x] eqn:C2.
        { eapply Done; eauto. eapply OMust; eauto. }
        { pose proof (check_err _ _ _ _ C2) as ->. unfold create_tpm in H. rewrite C2 in H. rewrite (mb_err _ _ _ _ w6 w6 NotSupported eq_refl) in H. eapply Fin; [exact R6|auto|auto|exact H|]. eapply OLost; eauto. }
  - destruct (loc d) as [|c lr] eqn:Ld.
    + rewrite (mb_ok _ _ _ _ w3 w3 (canonical ts) eq_refl) in H. eapply Done; eauto. eapply OKeep; eauto.
    + rewrite <- Ld in H. replace (emptyb (loc d)) with false in H by (rewrite Ld; reflexivity). cbn [orb] in H. assert (NL : loc d <> []) by (rewrite Ld; discriminate).
      destruct (zle_cases (loc d) (canonical ts)) as [[Et Bt]|[Nt Bt]]; rewrite Bt in H.
      * rewrite (mb_ok _ _ _ _ w3 w3 (canonical ts) eq_refl) in H. eapply Done; eauto. eapply OKeep; eauto.
      * destruct allow.
        { destruct (R_on _ _ _ _ _ _ _ _ _ _ R3 (perform_reset d)) as [E5 R5]. rewrite (mb_ok _ _ _ _ w3 (put_db P (rst d) w3) (canonical ts)) in H by (rewrite (mb_ok _ _ _ _ _ _ _ E5); reflexivity). eapply Done; eauto. eapply OReset; eauto. }
        { unfold fail in H. rewrite (mb_err _ _ _ _ w3 w3 Mismatch eq_refl) in H. eapply Fin; eauto. eapply ORefuse; eauto. }
Qed.

Lemma found_same : forall e w pl tl, dpib e (w_found e w pl tl) = dpib e w /\ dtpm e (w_found e w pl tl) = dtpm e w /\ (okp e (w_found e w pl tl) = false -> okp e w = false) /\ (okt e (w_found e w pl tl) = false -> okt e w = false).
Proof. intros e w pl tl. unfold w_found, dpib, dtpm, okp, okt. cbn [w_pibdef w_tpmdef]. split; [|split; [|split]]; try (destruct (emptyb pl); [try reflexivity; discriminate|auto]); destruct tl as [[|c t]|]; auto; discriminate. Qed.
Lemma init_cases : forall e pl tl allow w w' r, k_init e pl tl allow w = (w', r) -> caches e w w' /\
  ((w_files w' = w_files w /\ r = inr NotSupported /\ (okp e w = false \/ okt e w = false \/ check_pib (the_pib e w pl) = inr NotSupported)) \/
   exists sl d', check_pib (the_pib e w pl) = inl sl /\ (exists a b, R (place_of sl) w d' a b w') /\ outcome e w sl (the_tpm e w tl) allow (old_db sl w) d' r).
Proof.
  intros e pl tl allow w w' r H. destruct (init_tail e pl tl allow w) as [(w1 & E & F & K & C1 & C2)|E]; rewrite E in H.
  { injection H as <- <-. split; [split; assumption|]. left. split; [exact F|]. split; [reflexivity|]. tauto. }
  destruct (found_same e w pl tl) as (S1 & S2 & S3 & S4).
  assert (Fw : w_files (w_found e w pl tl) = w_files w) by reflexivity. assert (Mw : w_mem (w_found e w pl tl) = w_mem w) by reflexivity.
  assert (Pw : w_pibdef (w_found e w pl tl) = Some (dpib e w) \/ w_pibdef (w_found e w pl tl) = w_pibdef w) by (cbn; destruct (emptyb pl); auto).
  assert (Tw : w_tpmdef (w_found e w pl tl) = Some (dtpm e w) \/ w_tpmdef (w_found e w pl tl) = w_tpmdef w) by (cbn; destruct tl as [[|c t]|]; auto).
  set (wf := w_found e w pl tl) in *. clearbody wf.
  destruct (tail_cases _ _ _ _ _ _ _ H) as [[C1 C2] X]. rewrite S1 in C1. rewrite S2 in C2. split. { split; [destruct C1 as [C1|C1]; rewrite C1; auto|destruct C2 as [C2|C2]; rewrite C2; auto]. }
  destruct X as [(X1 & -> & ->)|(sl & d' & X1 & (a & b & X2) & X3)]; [left; auto|]. right. exists sl, d'. split; [exact X1|]. split.
  { exists a, b. destruct X2 as (A & B & C & D & E'). unfold R. rewrite Fw in D. auto 6. }
  replace (old_db sl w) with (old_db sl wf) by (unfold old_db, db_at; rewrite Fw; reflexivity).
  inversion X3; subst; rewrite ?S1, ?S2 in *.
  - constructor; assumption.
  - eapply OTpm; eassumption.
  - apply ODefault. tauto.
  - eapply OKeep; eassumption.
  - eapply OReset; eauto.
  - eapply ORefuse; eauto.
  - eapply OMust; eassumption.
  - eapply OLost; eassumption.
Qed.
End Step.
