(** * The consumer: invariants of histories *)
From Verif Require Import Base BaseLemmas NameModel DictModel WireModel CtlModel EncrModel ConsModel ConsSpec ConsProofs ConsProofs2.
From Coq Require Import Lia.

Lemma filter_snoc : forall A (f : A -> bool) l x, filter f (l ++ [x]) = filter f l ++ (if f x then [x] else []).
Proof. intros A f l x. rewrite filter_app. cbn [filter]. destruct (f x); reflexivity. Qed.
Lemma waiting_app : forall c a b, waiting c (a ++ b) = waiting c a + waiting c b.
Proof. intros c a b. unfold waiting. rewrite filter_app. apply zlen_app. Qed.
Lemma replies_app : forall c a b, replies c (a ++ b) = replies c a ++ replies c b.
Proof. intros c a b. unfold replies. apply flat_map_app. Qed.
Lemma losses_app : forall c a b, losses c (a ++ b) = losses c a + losses c b.
Proof. intros c a b. unfold losses. rewrite filter_app. apply zlen_app. Qed.
Lemma sent_app : forall c n a b, sent c n (a ++ b) = sent c n a ++ sent c n b.
Proof. intros c n a b. unfold sent. apply flat_map_app. Qed.
Lemma calls_app : forall a b, calls (a ++ b) = calls a ++ calls b.
Proof. intros a b. unfold calls. apply flat_map_app. Qed.
Lemma one_action : forall c a, waiting c (new_pends a) + zlen (replies c [a]) + losses c [a] = if call_of a =? c then 1 else 0.
Proof. intros c [i|i d|c' d m|c' n|c']; cbn [new_pends replies flat_map call_of]; unfold waiting, losses; cbn [filter pend_int]; destruct (_ =? c); reflexivity. Qed.
Lemma waiting_one : forall c x, waiting c [x] = if i_call (pend_int x) =? c then 1 else 0.
Proof. intros c x. unfold waiting. cbn [filter]. destruct (_ =? c); reflexivity. Qed.
Lemma waiting_nonneg : forall c o, 0 <= waiting c o.
Proof. intros c o. apply zlen_nonneg. Qed.
Lemma waiting_in : forall c o x, In x o -> i_call (pend_int x) = c -> 1 <= waiting c o.
Proof.
  intros c o x H E. apply in_split in H as (a & b & ->). rewrite waiting_app. change (x :: b) with ([x] ++ b). rewrite waiting_app, waiting_one, E, Z.eqb_refl.
  pose proof (waiting_nonneg c a). pose proof (waiting_nonneg c b). lia.
Qed.

Section Consumer.
Variable rsa_dec : bytes -> bytes -> res bytes.
Variable aes_dec : bytes -> bytes -> bytes -> res bytes.
Variable refuses : name -> option bytes -> bool.
Variable consumerName : name.
Variables cKeyLink dKeyLink : option bytes.
Variable group : name.
Variable db : dict bytes bytes.
Notation after := (cafter rsa_dec aes_dec refuses consumerName cKeyLink dKeyLink group db).
Notation step := (cstep rsa_dec aes_dec refuses consumerName cKeyLink dKeyLink).
Notation history := (history rsa_dec aes_dec refuses consumerName cKeyLink dKeyLink group db).
Notation just := (just rsa_dec aes_dec refuses consumerName cKeyLink dKeyLink group db).
Notation fine := (fine consumerName cKeyLink dKeyLink group).
Notation follows := (follows group).
Notation ready := (ready rsa_dec aes_dec refuses consumerName cKeyLink dKeyLink group db).
Hypothesis Hdb : NoDup (map fst db).

(** How a history grows *)
Definition ev_calls (e : cevent) : Z -> Z := fun c => match e with Consume c' _ _ => if c' =? c then 1 else 0 | _ => 0 end.
Definition times (c : Z) (l : list cevent) : Z := zlen (filter (fun c' => c' =? c) (calls l)).
Lemma times_snoc : forall c l e, times c (l ++ [e]) = times c l + ev_calls e c.
Proof.
  intros c l e. unfold times. rewrite calls_app, filter_app, zlen_app. f_equal. destruct e; cbn [calls flat_map app filter ev_calls]; try reflexivity. destruct (_ =? c); reflexivity.
Qed.
Definition good (l : list cevent) (o : list pend) (t : list cact) : Prop :=
  ready l /\ (forall x, In x o -> fine l (pend_int x)) /\ (forall a, In a t -> just l a) /\
  (forall c, waiting c o + zlen (replies c t) + losses c t = times c l) /\
  (forall c d m e, In (CComplete c d m) t -> holds d e -> din n_equals (cs_ckeys (after l)) (key_of e) = true).

Lemma fine_new : forall l e a x, In x (new_pends a) -> just (l ++ [e]) a -> follows l e a -> (forall i, ev_int e = Some i -> fine l i) -> fine (l ++ [e]) (pend_int x).
Proof.
  intros l e a x I J F Fi. destruct a as [j|j d|c d m|c n|c]; cbn [new_pends] in I; try (destruct I; fail); destruct I as [<-|[]]; cbn [pend_int].
  - split; [exact J|]. cbn [ConsProofs2.follows] in F. destruct e as [c n k|g|n k|n|i d v|i d b|i|i]; try (destruct F; fail).
    + subst j. left. reflexivity.
    + destruct v; try (destruct F; fail). left. tauto.
    + destruct b; [|destruct F]. left. tauto.
    + destruct F as [F1 ->]. destruct (Fi i eq_refl) as [_ [T|(i1 & E & T1 & _)]].
      * right. exists i. repeat split; [|exact T|apply in_or_app; right; left; reflexivity]. unfold again. rewrite T. reflexivity.
      * rewrite E in F1. cbn in F1. lia.
  - cbn [ConsProofs2.follows] in F. subst e. apply fine_mono. apply Fi. reflexivity.
Qed.
(** One more event, with the outstanding [o'] that are left *)
Lemma good_step : forall l o' t e, ready l -> (forall x, In x o' -> fine l (pend_int x)) -> (forall a, In a t -> just l a) -> (forall i, ev_int e = Some i -> fine l i) ->
  (forall c, waiting c o' + zlen (replies c t) + losses c t + (match ev_call e with Some c' => if c' =? c then 1 else 0 | None => 0 end) = times c (l ++ [e])) ->
  (forall c d m e, In (CComplete c d m) t -> holds d e -> din n_equals (cs_ckeys (after l)) (key_of e) = true) ->
  let a := cs_outs (fst (step (after l) e)) in good (l ++ [e]) (o' ++ flat_map new_pends a) (t ++ a).
Proof.
  intros l o' t e R Fo Jt Fe Ct Cp a. unfold a. destruct (step_ok _ _ _ _ _ _ _ _ l e R Fe) as (R' & Kp & H). unfold good. split; [exact R'|]. destruct (ev_call e) as [c0|].
  - destruct H as (x & E & J & Cx & Fx & Cm). rewrite E. cbn [flat_map]. rewrite app_nil_r. split; [|split; [|split]].
    + intros y I. apply in_app_or in I as [I|I]; [apply fine_mono, Fo, I|]. eapply fine_new; eauto.
    + intros y I. apply in_app_or in I as [I|[<-|[]]]; [apply just_mono, Jt, I|exact J].
    + intros c. rewrite waiting_app, replies_app, losses_app, zlen_app. specialize (Ct c). pose proof (one_action c x) as O. rewrite Cx in O. lia.
    + intros c d m y I Hd. apply in_app_or in I as [I|[I|[]]]; [apply Kp, (Cp _ _ _ _ I Hd)|]. subst x. apply Cm. exact Hd.
  - rewrite H. cbn [flat_map]. rewrite !app_nil_r. split; [|split; [|split]].
    + intros y I. apply fine_mono, Fo, I.
    + intros y I. apply just_mono, Jt, I.
    + intros c. specialize (Ct c). lia.
    + intros c d m y I Hd. apply Kp, (Cp _ _ _ _ I Hd).
Qed.
Lemma ready_start : ready [].
Proof.
  split; [|exact Hdb]. split; [reflexivity|]. split; [reflexivity|]. split; intros n k [].
Qed.
Theorem history_good : forall l o t, history l o t -> good l o t.
Proof.
  intros l o t H. induction H as [|l o t e H IH E a|l o1 i o2 t e H IH E a|l o1 i d o2 t b H IH e a].
  - split; [exact ready_start|]. split; [intros x []|]. split; [intros x []|]. split; [reflexivity|intros c d m e []].
  - destruct IH as (R & Fo & Jt & Ct & Cp). apply good_step; auto.
    + intros i Hi. destruct E as [(c & n & k & ->)|[(g & ->)|[(n & k & ->)|(n & ->)]]]; discriminate Hi.
    + intros c. rewrite times_snoc, <- Ct. destruct E as [(c' & n & k & ->)|[(g & ->)|[(n & k & ->)|(n & ->)]]]; reflexivity.
  - destruct IH as (R & Fo & Jt & Ct & Cp). unfold a. rewrite app_assoc. assert (Ei : ev_int e = Some i) by (destruct E as [(d & v & ->)|[->| ->]]; reflexivity).
    assert (Ec : ev_call e = Some (i_call i)) by (destruct E as [(d & v & ->)|[->| ->]]; reflexivity). apply good_step; auto.
    + intros x I. apply Fo. apply in_app_or in I as [I|I]; apply in_or_app; [left; exact I|right; right; exact I].
    + intros i' Hi. rewrite Ei in Hi. injection Hi as <-. apply (Fo (PInterest i)). apply in_or_app. right. left. reflexivity.
    + intros c. rewrite Ec, times_snoc, <- Ct. rewrite !waiting_app. change (PInterest i :: o2) with ([PInterest i] ++ o2). rewrite waiting_app, waiting_one. cbn [pend_int].
      replace (ev_calls e c) with 0 by (destruct E as [(d & v & ->)|[->| ->]]; reflexivity). lia.
  - destruct IH as (R & Fo & Jt & Ct & Cp). unfold a, e. rewrite app_assoc. apply good_step; auto.
    + intros x I. apply Fo. apply in_app_or in I as [I|I]; apply in_or_app; [left; exact I|right; right; exact I].
    + intros i' Hi. injection Hi as <-. apply (Fo (PCheck i d)). apply in_or_app. right. left. reflexivity.
    + intros c. rewrite times_snoc, <- Ct. cbn [ev_call ev_int option_map ev_calls]. rewrite !waiting_app. change (PCheck i d :: o2) with ([PCheck i d] ++ o2). rewrite waiting_app, waiting_one. cbn [pend_int]. lia.
Qed.

(** ** What was sent *)
Definition shape (l : list cevent) (s : list cint) : Prop := s = [] \/ exists i, i_trials i = 1 /\ (s = [i] \/ s = [i; again i] /\ In (TimedOut i) l).
Definition orderly (l : list cevent) (o : list pend) (t : list cact) : Prop :=
  (forall c n, ~ In c (calls l) -> sent c n t = []) /\
  (forall c n, shape l (sent c n t)) /\
  (forall x, In x o -> let i := pend_int x in (exists pre, sent (i_call i) (level (i_stage i)) t = pre ++ [i]) /\ forall n, level (i_stage i) < n -> sent (i_call i) n t = []).
Lemma shape_mono : forall l m s, shape l s -> shape (l ++ m) s.
Proof. intros l m s [H|(i & H1 & [H|[H H2]])]; [left; exact H|right; exists i; auto|right; exists i]. split; [exact H1|]. right. split; [exact H|]. apply in_or_app. auto. Qed.
Lemma times_in : forall c l, In c (calls l) -> 1 <= times c l.
Proof.
  intros c l H. unfold times. apply in_split in H as (a & b & ->). rewrite filter_app, zlen_app. cbn [filter]. rewrite Z.eqb_refl. rewrite zlen_cons.
  pose proof (zlen_nonneg _ (filter (fun c' => c' =? c) a)). pose proof (zlen_nonneg _ (filter (fun c' => c' =? c) b)). lia.
Qed.
Lemma times_out : forall c l, ~ In c (calls l) -> times c l = 0.
Proof.
  intros c l H. unfold times. induction (calls l) as [|x s IH]; [reflexivity|]. cbn [filter]. destruct (Z.eqb_spec x c) as [->|N]; [destruct H; left; reflexivity|]. apply IH. intros I. apply H. right. exact I.
Qed.
Lemma times_once : forall c l, NoDup (calls l) -> times c l <= 1.
Proof.
  intros c l. unfold times. induction (calls l) as [|x s IH]; intros N; [cbn; lia|]. apply NoDup_cons_iff in N as [N1 N2]. cbn [filter]. destruct (Z.eqb_spec x c) as [->|N]; [|apply IH; exact N2].
  rewrite zlen_cons. assert (E : filter (fun c' => c' =? c) s = []); [|rewrite E; cbn; lia]. clear - N1. induction s as [|y s IH]; [reflexivity|]. cbn [filter]. destruct (Z.eqb_spec y c) as [->|N]; [destruct N1; left; reflexivity|]. apply IH. intros I. apply N1. right. exact I.
Qed.
Lemma sent_one : forall c n a, sent c n [a] = match a with CExpress i => if (i_call i =? c) && (level (i_stage i) =? n) then [i] else [] | _ => [] end.
Proof. intros c n a. unfold sent. cbn [flat_map]. rewrite app_nil_r. reflexivity. Qed.
(** An Interest is sent, while no other of the call [c] is outstanding. *)
Lemma orderly_send : forall l o t e j,
  orderly l o t -> (forall x, In x o -> i_call (pend_int x) <> i_call j) -> In (i_call j) (calls (l ++ [e])) -> (forall c, In c (calls l) -> In c (calls (l ++ [e]))) ->
  (forall n, level (i_stage j) < n -> sent (i_call j) n t = []) ->
  shape (l ++ [e]) (sent (i_call j) (level (i_stage j)) t ++ [j]) ->
  orderly (l ++ [e]) (o ++ [PInterest j]) (t ++ [CExpress j]).
Proof.
  intros l o t e j (O1 & O2 & O3) No Ic Sub Up Sh. split; [|split].
  - intros c n Hc. rewrite sent_app, sent_one, O1 by (intros I; apply Hc, Sub, I). destruct (Z.eqb_spec (i_call j) c) as [<-|N]; [destruct (Hc Ic)|reflexivity].
  - intros c n. rewrite sent_app, sent_one. destruct (Z.eqb_spec (i_call j) c) as [<-|N]; cbn [andb]; [|rewrite app_nil_r; apply shape_mono, O2].
    destruct (Z.eqb_spec (level (i_stage j)) n) as [<-|N]; [exact Sh|]. rewrite app_nil_r. apply shape_mono, O2.
  - intros x I. cbv zeta. apply in_app_or in I as [I|[<-|[]]].
    + destruct (O3 x I) as ((pre & P1) & P2). specialize (No x I). split.
      * exists pre. rewrite sent_app, sent_one. destruct (Z.eqb_spec (i_call j) (i_call (pend_int x))) as [E|E]; [destruct (No (eq_sym E))|]. cbn [andb]. rewrite app_nil_r. exact P1.
      * intros n Hn. rewrite sent_app, sent_one, (P2 n Hn). destruct (Z.eqb_spec (i_call j) (i_call (pend_int x))) as [E|E]; [destruct (No (eq_sym E))|]. reflexivity.
    + cbn [pend_int]. split.
      * exists (sent (i_call j) (level (i_stage j)) t). rewrite sent_app, sent_one, !Z.eqb_refl. reflexivity.
      * intros n Hn. rewrite sent_app, sent_one, (Up n Hn). replace (level (i_stage j) =? n) with false by lia. rewrite Bool.andb_false_r. reflexivity.
Qed.
(** Nothing is sent. *)
Lemma orderly_quiet : forall l o o' t e a, orderly l o t -> (forall c, In c (calls l) -> In c (calls (l ++ [e]))) -> (forall x, In x o' -> exists y, In y o /\ pend_int x = pend_int y) ->
  (forall c n, sent c n a = []) -> orderly (l ++ [e]) o' (t ++ a).
Proof.
  intros l o o' t e a (O1 & O2 & O3) Sub Sb Q. split; [|split].
  - intros c n Hc. rewrite sent_app, Q, app_nil_r. apply O1. intros I. apply Hc, Sub, I.
  - intros c n. rewrite sent_app, Q, app_nil_r. apply shape_mono, O2.
  - intros x I. cbv zeta. destruct (Sb x I) as (y & Iy & ->). destruct (O3 y Iy) as (P1 & P2). split; [|intros n Hn]; rewrite sent_app, Q, app_nil_r; [exact P1|exact (P2 n Hn)].
Qed.
Lemma split_in : forall A (x y : A) o1 o2, In x (o1 ++ o2) -> In x (o1 ++ y :: o2).
Proof. intros A x y o1 o2 H. apply in_app_or in H as [H|H]; apply in_or_app; [left|right; right]; exact H. Qed.
(** A callback for the outstanding [x] *)
Lemma orderly_back : forall l o1 x o2 t e, good l (o1 ++ x :: o2) t -> NoDup (calls l) -> orderly l (o1 ++ x :: o2) t -> ev_int e = Some (pend_int x) ->
  let a := cs_outs (fst (step (after l) e)) in orderly (l ++ [e]) (o1 ++ o2 ++ flat_map new_pends a) (t ++ a).
Proof.
  intros l o1 x o2 t e (R & Fo & _ & Ct & _) Nd Or Ee a. unfold a. rewrite app_assoc.
  assert (Fx : fine l (pend_int x)) by (apply Fo; apply in_or_app; right; left; reflexivity).
  assert (Sub : forall c, In c (calls l) -> In c (calls (l ++ [e]))) by (intros c Hc; rewrite calls_app; apply in_or_app; left; exact Hc).
  assert (Fe : forall i, ev_int e = Some i -> fine l i) by (intros i Hi; rewrite Ee in Hi; injection Hi as <-; exact Fx).
  destruct (step_ok _ _ _ _ _ _ _ _ l e R Fe) as (_ & _ & H). assert (Ec : ev_call e = Some (i_call (pend_int x))) by (unfold ev_call; destruct e; try discriminate Ee; rewrite Ee; reflexivity). rewrite Ec in H.
  destruct H as (y & E & _ & Cy & Fy & _). rewrite E. cbn [flat_map]. rewrite app_nil_r. set (i := pend_int x) in *. set (c := i_call i) in *.
  assert (One : forall z, In z (o1 ++ o2) -> i_call (pend_int z) <> c).
  { intros z I Ez. specialize (Ct c). rewrite waiting_app in Ct. change (x :: o2) with ([x] ++ o2) in Ct. rewrite waiting_app, waiting_one in Ct. fold i in Ct. fold c in Ct. rewrite Z.eqb_refl in Ct.
    pose proof (waiting_in c _ z I Ez) as W. rewrite waiting_app in W. pose proof (times_once c l Nd). pose proof (zlen_nonneg _ (replies c t)). assert (0 <= losses c t) by apply zlen_nonneg. lia. }
  assert (Ic : In c (calls l)).
  { destruct (in_dec Z.eq_dec c (calls l)) as [I|N]; [exact I|]. specialize (Ct c). rewrite (times_out _ _ N) in Ct. pose proof (waiting_in c (o1 ++ x :: o2) x ltac:(apply in_or_app; right; left; reflexivity) eq_refl).
    pose proof (zlen_nonneg _ (replies c t)). assert (0 <= losses c t) by apply zlen_nonneg. lia. }
  pose proof Or as (O1 & O2 & O3). destruct (O3 x) as ((pre & P1) & P2); [apply in_or_app; right; left; reflexivity|]. cbv zeta in P1, P2. fold i in P1, P2. fold c in P1, P2.
  assert (Or' : orderly l (o1 ++ o2) t) by (split; [exact O1|split; [exact O2|]]; intros z I; apply O3, split_in, I).
  destruct y as [j|j d|c' d m|c' k|c']; cbn [new_pends call_of] in *.
  - assert (G : level (i_stage i) < level (i_stage j) /\ i_trials j = 1 \/ 0 < i_trials i /\ e = TimedOut i /\ j = CInt (i_call i) (i_name i) (i_link i) (i_trials i - 1) (i_stage i)).
    { destruct e as [| | | |i' d v|i' d b|i'|i']; try discriminate Ee; injection Ee as ->; cbn [ConsProofs2.follows] in Fy; [destruct v; try destruct Fy; tauto|destruct b; try destruct Fy; tauto| |destruct Fy]. right. tauto. }
    destruct G as [[L T]|(T & -> & Ej)].
    + apply orderly_send; [exact Or'| |rewrite Cy; apply Sub; exact Ic|exact Sub| |].
      * rewrite Cy. exact One.
      * rewrite Cy. intros n Hn. apply P2. lia.
      * rewrite Cy, P2 by exact L. right. exists j. auto.
    + assert (T1 : i_trials i = 1) by (destruct Fx as [_ [T1|(i1 & E1 & _ & _)]]; [exact T1|]; rewrite E1 in T; cbn in T; lia).
      assert (Ej' : j = again i) by (rewrite Ej, T1; reflexivity). clear Ej. subst j. apply orderly_send; [exact Or'|exact One|apply Sub; exact Ic|exact Sub|exact P2|].
      change (i_call (again i)) with c. change (i_stage (again i)) with (i_stage i). destruct (O2 c (level (i_stage i))) as [S|(i1 & S1 & [S|[S S2]])]; rewrite S in *.
      * destruct pre; discriminate P1.
      * assert (i1 = i) by (apply (f_equal (@rev cint)) in P1; rewrite rev_app_distr in P1; cbn in P1; congruence). subst i1. right. exists i. split; [exact T1|]. right. split; [reflexivity|]. apply in_or_app. right. left. reflexivity.
      * assert (again i1 = i) by (apply (f_equal (@rev cint)) in P1; rewrite rev_app_distr in P1; cbn in P1; congruence). rewrite <- H in T1. cbn in T1. lia.
  - apply (orderly_quiet l (o1 ++ x :: o2)); [exact Or|exact Sub| |intros; rewrite sent_one; reflexivity]. intros z I. apply in_app_or in I as [I|[<-|[]]]; [exists z; split; [apply split_in; exact I|reflexivity]|].
    exists x. split; [apply in_or_app; right; left; reflexivity|]. fold i. cbn [pend_int]. cbn [ConsProofs2.follows] in Fy. subst e. injection Ee as ->. reflexivity.
  - rewrite app_nil_r. apply (orderly_quiet l (o1 ++ o2)); [exact Or'|exact Sub|intros z I; exists z; auto|intros; rewrite sent_one; reflexivity].
  - rewrite app_nil_r. apply (orderly_quiet l (o1 ++ o2)); [exact Or'|exact Sub|intros z I; exists z; auto|intros; rewrite sent_one; reflexivity].
  - rewrite app_nil_r. apply (orderly_quiet l (o1 ++ o2)); [exact Or'|exact Sub|intros z I; exists z; auto|intros; rewrite sent_one; reflexivity].
Qed.
Lemma nodup_calls : forall l e, NoDup (calls (l ++ [e])) -> NoDup (calls l) /\ forall c n k, e = Consume c n k -> ~ In c (calls l).
Proof.
  intros l e H. rewrite calls_app in H. split.
  - clear - H. induction (calls l) as [|x s IH]; [constructor|]. cbn [app] in H. apply NoDup_cons_iff in H as [H1 H2]. constructor; [intros I; apply H1, in_or_app; left; exact I|exact (IH H2)].
  - intros c n k ->. cbn [calls flat_map app] in H. apply NoDup_remove_2 in H. rewrite app_nil_r in H. exact H.
Qed.
Theorem history_orderly : forall l o t, history l o t -> NoDup (calls l) -> orderly l o t.
Proof.
  intros l o t H. induction H as [|l o t e H IH E a|l o1 i o2 t e H IH E a|l o1 i d o2 t b H IH e a]; intros Nd.
  - split; [reflexivity|]. split; [left; reflexivity|intros x []].
  - destruct (nodup_calls _ _ Nd) as [Nd' Nc]. specialize (IH Nd'). pose proof (history_good _ _ _ H) as (R & Fo & _ & Ct & _).
    assert (Ne : ev_int e = None) by (destruct E as [(c & n & k & ->)|[(g & ->)|[(n & k & ->)|(n & ->)]]]; reflexivity).
    assert (Sub : forall c, In c (calls l) -> In c (calls (l ++ [e]))) by (intros c Hc; rewrite calls_app; apply in_or_app; left; exact Hc).
    destruct (step_ok _ _ _ _ _ _ _ _ l e R) as (_ & _ & Q); [intros i Hi; rewrite Ne in Hi; discriminate Hi|]. unfold a.
    destruct E as [(c & n & k & ->)|E].
    + cbn [ev_call] in Q. destruct Q as (y & Ey & _ & Cy & Fy & _). rewrite Ey. cbn [flat_map]. rewrite app_nil_r. specialize (Nc c n k eq_refl).
      destruct y as [j|j d|c' d m|c' v|c']; cbn [new_pends] in *.
      * cbn [ConsProofs2.follows] in Fy. subst j. apply orderly_send; [exact IH| | |exact Sub| |].
        -- cbn [i_call]. intros x I Ex. specialize (Ct c). rewrite (times_out _ _ Nc) in Ct. pose proof (waiting_in c o x I Ex). pose proof (zlen_nonneg _ (replies c t)). assert (0 <= losses c t) by apply zlen_nonneg. lia.
        -- rewrite calls_app. apply in_or_app. right. left. reflexivity.
        -- intros m Hm. apply (proj1 IH). exact Nc.
        -- cbn [i_call i_stage]. rewrite (proj1 IH) by exact Nc. right. eexists. split; [|left; reflexivity]. reflexivity.
      * cbn [ConsProofs2.follows] in Fy. discriminate Fy.
      * rewrite app_nil_r. apply (orderly_quiet l o); [exact IH|exact Sub|intros x I; exists x; auto|intros; rewrite sent_one; reflexivity].
      * rewrite app_nil_r. apply (orderly_quiet l o); [exact IH|exact Sub|intros x I; exists x; auto|intros; rewrite sent_one; reflexivity].
      * rewrite app_nil_r. apply (orderly_quiet l o); [exact IH|exact Sub|intros x I; exists x; auto|intros; rewrite sent_one; reflexivity].
    + assert (Nn : ev_call e = None) by (destruct E as [(g & ->)|[(n & k & ->)|(n & ->)]]; reflexivity). rewrite Nn in Q. rewrite Q. cbn [flat_map]. rewrite app_nil_r.
      apply (orderly_quiet l o); [exact IH|exact Sub|intros x I; exists x; auto|reflexivity].
  - destruct (nodup_calls _ _ Nd) as [Nd' _]. apply (orderly_back l o1 (PInterest i) o2 t e); [apply history_good; exact H|exact Nd'|exact (IH Nd')|]. destruct E as [(d & v & ->)|[->| ->]]; reflexivity.
  - destruct (nodup_calls _ _ Nd) as [Nd' _]. apply (orderly_back l o1 (PCheck i d) o2 t e); [apply history_good; exact H|exact Nd'|exact (IH Nd')|reflexivity].
Qed.
End Consumer.
