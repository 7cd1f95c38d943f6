(** * Invariants of the client node machine. *)
From Verif Require Import Base NodeModel NodeSpec.
From Coq Require Import Lia.

#[global] Arguments e_ser {I F}. #[global] Arguments e_id {I F}. #[global] Arguments e_int {I F}.
#[global] Arguments e_timeout {I F}. #[global] Arguments e_nack {I F}. #[global] Arguments e_owner {I F}.
#[global] Arguments Entry {I F}. #[global] Arguments User {F}. #[global] Arguments Reg {F}.
#[global] Arguments a_id {I F}. #[global] Arguments a_int {I F}. #[global] Arguments a_timeout {I F}.
#[global] Arguments a_nack {I F}. #[global] Arguments a_owner {I F}. #[global] Arguments Args {I F}.
#[global] Arguments f_id {F}. #[global] Arguments f_filter {F}. #[global] Arguments f_cb {F}. #[global] Arguments FEntry {F}.
#[global] Arguments c_seq {I F}. #[global] Arguments c_time {I F}. #[global] Arguments c_what {I F}. #[global] Arguments DCall {I F}.
#[global] Arguments CTimeout {I F}. #[global] Arguments CUser {I F}.
#[global] Arguments FrData {I D F}. #[global] Arguments FrNack {I D F}. #[global] Arguments FrInterest {I D F}. #[global] Arguments FrTimed {I D F}. #[global] Arguments FrConn {I D F}.
#[global] Arguments LAdd {I D F}. #[global] Arguments LData {I D F}. #[global] Arguments LNack {I D F}. #[global] Arguments LTimeout {I D F}.
#[global] Arguments LCall {I D F}. #[global] Arguments LInterest {I D F}. #[global] Arguments LRegOk {I D F}. #[global] Arguments LRegFail {I D F}.
#[global] Arguments LSend {I D F}. #[global] Arguments LRaise {I D F}. #[global] Arguments LId {I D F}.
#[global] Arguments s_table {I D F}. #[global] Arguments s_removeReq {I D F}. #[global] Arguments s_removed {I D F}. #[global] Arguments s_nextSer {I D F}.
#[global] Arguments s_delayed {I D F}. #[global] Arguments s_nextSeq {I D F}. #[global] Arguments s_conn {I D F}. #[global] Arguments s_async {I D F}.
#[global] Arguments s_queue {I D F}. #[global] Arguments s_filters {I D F}. #[global] Arguments s_regs {I D F}. #[global] Arguments s_regReq {I D F}.
#[global] Arguments s_lastId {I D F}. #[global] Arguments s_loopback {I D F}. #[global] Arguments s_frames {I D F}. #[global] Arguments s_log {I D F}.
#[global] Arguments State {I D F}. #[global] Arguments set_pit {I D F}. #[global] Arguments set_delayed {I D F}. #[global] Arguments set_conn {I D F}.
#[global] Arguments set_filters {I D F}. #[global] Arguments set_regs {I D F}. #[global] Arguments set_frames {I D F}. #[global] Arguments set_loopback {I D F}.
#[global] Arguments logs {I D F}. #[global] Arguments push {I D F}. #[global] Arguments nextId {I D F}. #[global] Arguments insert_back {I F}. #[global] Arguments callLater {I D F}.
#[global] Arguments pit_add {I D F}. #[global] Arguments extract {I F}. #[global] Arguments pit_extract {I D F}. #[global] Arguments nack_test {I F}.
#[global] Arguments pit_remove {I D F}. #[global] Arguments del_entry {I F}. #[global] Arguments pit_removeEntry {I D F}. #[global] Arguments matched {I F}.
#[global] Arguments unset {F}. #[global] Arguments dispatch {I D F}. #[global] Arguments reg_add {I D F}. #[global] Arguments reg_remove {I D F}.
#[global] Arguments expressHelper {I D F}. #[global] Arguments raised {I D F}. #[global] Arguments express {I D F}. #[global] Arguments registerOnData {I D F}.
#[global] Arguments callOnData {I D F}. #[global] Arguments callTimeout {I D F}. #[global] Arguments continue {I D F}. #[global] Arguments receiveData {I D F}. #[global] Arguments receiveNack {I D F}.
#[global] Arguments step {I D F}. #[global] Arguments run {I D F}. #[global] Arguments init {I D F}.
#[global] Arguments ONextId {I D F}. #[global] Arguments OExpress {I D F}. #[global] Arguments ORemovePending {I D F}. #[global] Arguments OReceiveData {I D F}.
#[global] Arguments OReceiveNack {I D F}. #[global] Arguments OReceiveInterest {I D F}. #[global] Arguments OConnected {I D F}. #[global] Arguments OCallLater {I D F}.
#[global] Arguments OProcess {I D F}. #[global] Arguments OContinue {I D F}. #[global] Arguments ORaise {I D F}. #[global] Arguments OSetFilter {I D F}. #[global] Arguments OUnsetFilter {I D F}.
#[global] Arguments ORegister {I D F}. #[global] Arguments ORemoveRegistered {I D F}. #[global] Arguments OSetLoopback {I D F}.

(** ** Lists *)
Definition cnt {A} (p : A -> bool) (l : list A) : nat := length (filter p l).
Lemma cnt_nil {A} (p : A -> bool) : cnt p [] = 0%nat. Proof. reflexivity. Qed.
Lemma cnt_cons {A} (p : A -> bool) x l : cnt p (x :: l) = ((if p x then 1 else 0) + cnt p l)%nat.
Proof. unfold cnt; cbn [filter]; destruct (p x); reflexivity. Qed.
Lemma cnt_app {A} (p : A -> bool) l1 l2 : cnt p (l1 ++ l2) = (cnt p l1 + cnt p l2)%nat.
Proof. unfold cnt. now rewrite filter_app, app_length. Qed.
Lemma cnt_rev {A} (p : A -> bool) l : cnt p (rev l) = cnt p l.
Proof. induction l as [|x l IH]; [reflexivity|]. cbn [rev]. rewrite cnt_app, IH, cnt_cons, cnt_cons, cnt_nil. lia. Qed.
Lemma cnt_pos {A} (p : A -> bool) l x : In x l -> p x = true -> (1 <= cnt p l)%nat.
Proof. induction l as [|y l IH]; intros [] Hp; rewrite cnt_cons; [subst; rewrite Hp; lia|]. specialize (IH H Hp); lia. Qed.
Lemma cnt_zero {A} (p : A -> bool) l : cnt p l = 0%nat -> forall x, In x l -> p x = false.
Proof. intros H x Hx. destruct (p x) eqn:E; [|reflexivity]. pose proof (cnt_pos p l x Hx E). lia. Qed.
Lemma cnt_zero_of {A} (p : A -> bool) l : (forall x, In x l -> p x = false) -> cnt p l = 0%nat.
Proof. induction l as [|y l IH]; intro H; [reflexivity|]. rewrite cnt_cons, (H y (or_introl eq_refl)), IH; [reflexivity|]. intros; apply H; now right. Qed.
Lemma cnt_ex {A} (p : A -> bool) l : (1 <= cnt p l)%nat -> exists x, In x l /\ p x = true.
Proof. induction l as [|y l IH]; rewrite ?cnt_nil, ?cnt_cons; [lia|]. destruct (p y) eqn:E; [exists y; split; [now left|exact E]|].
  intro H; destruct IH as (x & ? & ?); [lia|]. exists x; split; [now right|assumption]. Qed.
Lemma cnt_filter_split {A} (p q : A -> bool) l : (cnt p (filter q l) + cnt p (filter (fun x => negb (q x)) l) = cnt p l)%nat.
Proof. induction l as [|x l IH]; [reflexivity|]. cbn [filter]. destruct (q x); cbn [negb]; rewrite !cnt_cons; lia. Qed.

Lemma mem_in n l : mem n l = true <-> In n l.
Proof. unfold mem. rewrite existsb_exists. split; [intros (x & H & E); apply Z.eqb_eq in E; now subst|intro H; exists n; split; [exact H|apply Z.eqb_refl]]. Qed.
Lemma memn_in n l : memn n l = true <-> In n l.
Proof. unfold memn. rewrite existsb_exists. split; [intros (x & H & E); apply Nat.eqb_eq in E; now subst|intro H; exists n; split; [exact H|apply Nat.eqb_refl]]. Qed.
Lemma remove1_in n m l : n <> m -> In n (remove1 m l) <-> In n l.
Proof. intro Hn. induction l as [|x l IH]; cbn [remove1]; [tauto|]. destruct (Z.eqb_spec x m); subst; cbn [In]; rewrite ?IH; intuition congruence. Qed.

Section Node.
Context {I D F : Type}.
Variable matches : I -> D -> res bool.
Variable wire : I -> res bytes.
Variable lifetime : I -> option Z.
Variable isLocalTimeout : I -> bool.
Variable fmatch : F -> I -> res bool.
Variable status : D -> res Z.
Notation entry := (entry I F). Notation state := (state I D F). Notation event := (event I D F). Notation op := (op I D F).
Notation frame := (frame I D F). Notation args := (args I F).
Notation run := (run matches wire lifetime isLocalTimeout fmatch status).
Notation step := (step matches wire lifetime isLocalTimeout fmatch status).
Notation expressHelper := (expressHelper wire lifetime isLocalTimeout fmatch).
Notation express := (express wire lifetime isLocalTimeout fmatch).
Notation continue := (continue wire lifetime isLocalTimeout fmatch status).
Implicit Types (s : state) (e : entry).

Lemma run_app s os1 os2 : run s (os1 ++ os2) = run (run s os1) os2.
Proof. apply fold_left_app. Qed.
Lemma run_cons s o os : run s (o :: os) = run (step s o) os.
Proof. reflexivity. Qed.
Lemma run_ind (P : state -> Prop) async : P (init async) -> (forall s o, P s -> P (step s o)) -> forall os, P (run (init async) os).
Proof.
  intros H0 Hs os. revert H0. generalize (init async : state) as s. induction os as [|o os IH]; intros s H; [exact H|].
  rewrite run_cons. apply IH, Hs, H.
Qed.
Lemma run_ind2 (P : state -> Prop) (ok : op -> Prop) s : P s -> (forall s o, ok o -> P s -> P (step s o)) -> forall os, Forall ok os -> P (run s os).
Proof.
  intros H0 Hs os Hos. revert s H0. induction Hos as [|o os Ho Hos IH]; intros s H; [exact H|].
  rewrite run_cons. apply IH, Hs; assumption.
Qed.

(** *** What expressing does *)
Inductive expressed (s : state) (a : args) (now : Z) : state -> Prop :=
| ex_gone : mem (a_id a) (s_removeReq s) = true -> expressed s a now (set_pit s (s_table s) (remove1 (a_id a) (s_removeReq s)) (s_removed s) (s_nextSer s))
| ex_added e dl seq fr l :
    mem (a_id a) (s_removeReq s) = false ->
    e = Entry (s_nextSer s) (a_id a) (a_int a) (a_timeout a) (a_nack a) (a_owner a) ->
    (dl = s_delayed s /\ seq = s_nextSeq s /\ has_timer lifetime e = false \/
     has_timer lifetime e = true /\
     dl = rev (insert_back (rev (s_delayed s)) (DCall (s_nextSeq s) (now + timer lifetime e) (CTimeout e))) /\ seq = S (s_nextSeq s)) ->
    (fr = [] \/ exists fs, fr = [FrInterest fs (a_int a)] /\ matched fmatch (s_filters s) (a_int a) = Ok fs) ->
    (l = [] \/ exists b, l = [LSend b]) ->
    expressed s a now (State (s_table s ++ [e]) (s_removeReq s) (s_removed s) (S (s_nextSer s)) dl seq (s_conn s) (s_async s) (s_queue s)
      (s_filters s) (s_regs s) (s_regReq s) (s_lastId s) (s_loopback s) (fr ++ s_frames s) (s_log s ++ LAdd e now :: l)).

Lemma expressHelper_spec s a now : expressed s a now (fst (expressHelper s a now)).
Proof.
  unfold expressHelper, NodeModel.expressHelper, pit_add.
  destruct (mem (a_id a) (s_removeReq s)) eqn:Em; [now apply ex_gone|].
  set (e := Entry (s_nextSer s) (a_id a) (a_int a) (a_timeout a) (a_nack a) (a_owner a)).
  set (s1 := set_pit s _ _ _ _).
  assert (Ht : (a_timeout a || match lifetime (a_int a) with Some l => 0 <=? l | None => false end) = has_timer lifetime e) by reflexivity.
  rewrite Ht. change (match lifetime (a_int a) with Some l => if l <? 0 then 4000 else l | None => 4000 end) with (timer lifetime e).
  set (s2 := if has_timer lifetime e then _ else _).
  assert (H2 : exists dl seq, (dl = s_delayed s /\ seq = s_nextSeq s /\ has_timer lifetime e = false \/
     has_timer lifetime e = true /\
     dl = rev (insert_back (rev (s_delayed s)) (DCall (s_nextSeq s) (now + timer lifetime e) (CTimeout e))) /\ seq = S (s_nextSeq s)) /\
     s2 = set_delayed s1 dl seq).
  { destruct (has_timer lifetime e) eqn:E; subst s2.
    - eexists _, _; split; [right; split; [reflexivity|split; reflexivity]|]. reflexivity.
    - eexists _, _; split; [left; split; [reflexivity|split; reflexivity]|]. reflexivity. }
  destruct H2 as (dl & seq & Hd & ->). clear Ht.
  destruct (isLocalTimeout (a_int a)); cbn [fst].
  { apply (ex_added s a now e dl seq [] [] Em eq_refl Hd); now left. }
  destruct (wire (a_int a)) as [b|x]; cbn [fst].
  2: { apply (ex_added s a now e dl seq [] [] Em eq_refl Hd); now left. }
  destruct (maxPacketSize <? zlen b); cbn [fst].
  { apply (ex_added s a now e dl seq [] [] Em eq_refl Hd); now left. }
  assert (Hl : logs (logs (set_delayed s1 dl seq) [LAdd e now]) [LSend b] = logs (set_delayed s1 dl seq) (LAdd e now :: [LSend b])).
  { unfold logs; cbn. now rewrite <- app_assoc. }
  rewrite Hl. clear Hl.
  destruct (s_loopback _); cbn [fst].
  2: { apply (ex_added s a now e dl seq [] [LSend b] Em eq_refl Hd); [now left|right; now exists b]. }
  unfold dispatch. destruct (matched _ _ _) as [fs|x] eqn:Ef; cbn [fst].
  - apply (ex_added s a now e dl seq [FrInterest fs (a_int a)] [LSend b] Em eq_refl Hd).
    + right; exists fs; split; [reflexivity|exact Ef].
    + right; now exists b.
  - apply (ex_added s a now e dl seq [] [LSend b] Em eq_refl Hd); [now left|right; now exists b].
Qed.

(** *** At most one terminal callback *)
Definition has_ser (n : nat) (e : entry) : bool := Nat.eqb (e_ser e) n.
Definition term_ser (n : nat) (l : event) : bool := match terminal l with Some e => Nat.eqb (e_ser e) n | None => false end.
Definition occ (n : nat) s : nat := (cnt (has_ser n) (s_table s) + cnt (has_ser n) (in_dispatch s) + cnt (term_ser n) (s_log s))%nat.
Definition inv_once s : Prop := forall n, (occ n s <= 1)%nat /\ ((s_nextSer s <= n)%nat -> occ n s = 0%nat).

Lemma extract_cnt p (q : entry -> bool) l stay out x : extract p l = (stay, out, x) -> (cnt q stay + cnt q out = cnt q l)%nat.
Proof.
  revert stay out x. induction l as [|e l IH]; intros stay out x; cbn [extract].
  - intro H; injection H as <- <- <-; reflexivity.
  - destruct (p e) as [b|ex]; [|intro H; injection H as <- <- <-; rewrite cnt_nil; lia].
    destruct (extract p l) as [[st ou] xx] eqn:E. specialize (IH _ _ _ eq_refl).
    destruct b; intro H; injection H as <- <- <-; rewrite !cnt_cons; lia.
Qed.
Lemma extract_incl p l stay out x e : extract p l = (stay, out, x) -> In e stay \/ In e out -> In e l.
Proof.
  revert stay out x. induction l as [|e0 l IH]; intros stay out x; cbn [extract].
  - intro H; injection H as <- <- <-; tauto.
  - destruct (p e0) as [b|ex]; [|intro H; injection H as <- <- <-; cbn [In]; tauto].
    destruct (extract p l) as [[st ou] xx] eqn:E. specialize (IH _ _ _ eq_refl).
    destruct b; intro H; injection H as <- <- <-; cbn [In]; tauto.
Qed.
Lemma extract_out p l stay out x e : extract p l = (stay, out, x) -> In e out -> p e = Ok true.
Proof.
  revert stay out x. induction l as [|e0 l IH]; intros stay out x; cbn [extract].
  - intro H; injection H as <- <- <-; intros [].
  - destruct (p e0) as [b|ex] eqn:Ep; [|intro H; injection H as <- <- <-; intros []].
    destruct (extract p l) as [[st ou] xx] eqn:E. specialize (IH _ _ _ eq_refl).
    destruct b; intro H; injection H as <- <- <-; cbn [In]; [intros [->|Hi]; auto|auto].
Qed.
Lemma del_entry_cnt n (q : entry -> bool) t t' : del_entry n t = Some t' -> exists e, In e t /\ e_ser e = n /\ cnt q t = ((if q e then 1 else 0) + cnt q t')%nat.
Proof.
  revert t'. induction t as [|e t IH]; intro t'; cbn [del_entry]; [discriminate|].
  destruct (Nat.eqb_spec (e_ser e) n) as [E|E].
  - intro H; injection H as <-. exists e. rewrite cnt_cons. split; [now left|split; [exact E|reflexivity]].
  - destruct (del_entry n t) as [r|] eqn:Ed; [|discriminate]. intro H; injection H as <-.
    destruct (IH _ eq_refl) as (e0 & Hi & Hs & Hc). exists e0. rewrite !cnt_cons. split; [now right|split; [exact Hs|lia]].
Qed.
Lemma del_entry_incl n t t' e : del_entry n t = Some t' -> In e t' -> In e t.
Proof.
  revert t'. induction t as [|e0 t IH]; intro t'; cbn [del_entry]; [discriminate|].
  destruct (Nat.eqb_spec (e_ser e0) n) as [E|E]; [intro H; injection H as <-; now right|].
  destruct (del_entry n t) as [r|] eqn:Ed; [|discriminate]. intro H; injection H as <-. intros [->|Hi]; [now left|right; now apply (IH r)].
Qed.

(** A registration response changes only the filters, registrations, last id and log. *)
Definition regev (l : event) : Prop := match l with LRegOk _ | LRegFail _ => True | _ => False end.
Record same_but_regs (s s' : state) : Prop := {
  sb_table : s_table s' = s_table s; sb_req : s_removeReq s' = s_removeReq s; sb_rem : s_removed s' = s_removed s; sb_ser : s_nextSer s' = s_nextSer s;
  sb_del : s_delayed s' = s_delayed s; sb_seq : s_nextSeq s' = s_nextSeq s; sb_conn : s_conn s' = s_conn s; sb_async : s_async s' = s_async s;
  sb_queue : s_queue s' = s_queue s; sb_fr : s_frames s' = s_frames s;
  sb_log : exists l, s_log s' = s_log s ++ l /\ Forall regev l }.
Lemma registerOnData_same s rid p b d : same_but_regs s (registerOnData status s rid p b d).
Proof.
  unfold registerOnData.
  assert (Hl : forall x, regev x -> same_but_regs s (logs s [x])).
  { intros x Hx; constructor; try reflexivity. exists [x]; split; [reflexivity|]. constructor; [exact Hx|constructor]. }
  assert (H0 : same_but_regs s s) by (constructor; try reflexivity; exists []; split; [now rewrite app_nil_r|constructor]).
  destruct (status d) as [code|x].
  2: { destruct x; try exact H0. apply Hl; exact Logic.I. }
  destruct (negb (code =? 200)); [apply Hl; exact Logic.I|].
  destruct (rid =? 0); [apply Hl; exact Logic.I|].
  unfold reg_add.
  destruct b; cbn [s_regReq set_filters nextId]; destruct (mem rid (s_regReq s)).
  - destruct (0 <? _); constructor; try reflexivity; exists []; (split; [symmetry; apply app_nil_r|constructor]).
  - constructor; try reflexivity. exists [LRegOk rid]; split; [reflexivity|]. constructor; [exact Logic.I|constructor].
  - cbn. constructor; try reflexivity. exists []; (split; [symmetry; apply app_nil_r|constructor]).
  - constructor; try reflexivity. exists [LRegOk rid]; split; [reflexivity|]. constructor; [exact Logic.I|constructor].
Qed.

(** *** All transitions, in a form for case analysis *)
Definition quiet (l : event) : Prop := match l with LRaise _ | LSend _ | LId _ | LRegFail _ | LRegOk _ => True | _ => False end.
Lemma regev_quiet l : Forall regev l -> Forall quiet l.
Proof. intro H; eapply Forall_impl; [|exact H]. intros []; cbn; tauto. Qed.
Record shape (s' : state) t rq rm sr dl sq cn qu fr lg : Prop := Shape {
  sh_t : s_table s' = t; sh_rq : s_removeReq s' = rq; sh_rm : s_removed s' = rm; sh_sr : s_nextSer s' = sr;
  sh_dl : s_delayed s' = dl; sh_sq : s_nextSeq s' = sq; sh_cn : s_conn s' = cn; sh_qu : s_queue s' = qu; sh_fr : s_frames s' = fr; sh_lg : s_log s' = lg }.
Definition asks s (o : op) (a : args) : Prop :=
  match o with
  | OExpress id i t n _ => a = Args id i t n User
  | ORegister rid p b i _ => a = Args (s_lastId s + 1) i true false (Reg rid p b)
  | _ => False
  end.
(** where the arguments of an expressed interest come from, and what is left *)
Inductive source s (o : op) (a : args) : conn -> list frame -> Prop :=
| so_op c : asks s o a -> s_async s = false \/ s_conn s = Complete -> c = s_conn s \/ c = Complete -> source s o a c (s_frames s)
| so_queue k fr fr' now : o = OContinue now -> s_frames s = FrConn k :: fr -> nth_error (s_queue s) k = Some a -> fr' = FrConn (S k) :: fr \/ fr' = fr -> source s o a (s_conn s) fr'.

Inductive trans s (o : op) (s' : state) : Prop :=
| T_quiet l : Forall quiet l -> shape s' (s_table s) (s_removeReq s) (s_removed s) (s_nextSer s) (s_delayed s) (s_nextSeq s) (s_conn s) (s_queue s) (s_frames s) (s_log s ++ l) -> trans s o s'
| T_gone a c fr l : source s o a c fr -> mem (a_id a) (s_removeReq s) = true -> Forall quiet l ->
    shape s' (s_table s) (remove1 (a_id a) (s_removeReq s)) (s_removed s) (s_nextSer s) (s_delayed s) (s_nextSeq s) c (s_queue s) fr (s_log s ++ l) -> trans s o s'
| T_add a c fr now e dl sq fr' l : source s o a c fr -> mem (a_id a) (s_removeReq s) = false ->
    e = Entry (s_nextSer s) (a_id a) (a_int a) (a_timeout a) (a_nack a) (a_owner a) ->
    (dl = s_delayed s /\ sq = s_nextSeq s /\ has_timer lifetime e = false \/
     has_timer lifetime e = true /\
     dl = rev (insert_back (rev (s_delayed s)) (DCall (s_nextSeq s) (now + timer lifetime e) (CTimeout e))) /\ sq = S (s_nextSeq s)) ->
    (fr' = [] \/ exists fs, fr' = [FrInterest fs (a_int a)] /\ matched fmatch (s_filters s) (a_int a) = Ok fs) ->
    Forall quiet l ->
    shape s' (s_table s ++ [e]) (s_removeReq s) (s_removed s) (S (s_nextSer s)) dl sq c (s_queue s) (fr' ++ fr) (s_log s ++ LAdd e now :: l) -> trans s o s'
| T_queue a c : asks s o a -> s_async s = true ->
    (s_conn s = Unconnected /\ c = Requested false \/ (exists b, s_conn s = Requested b) /\ c = s_conn s) ->
    shape s' (s_table s) (s_removeReq s) (s_removed s) (s_nextSer s) (s_delayed s) (s_nextSeq s) c (s_queue s ++ [a]) (s_frames s) (s_log s) -> trans s o s'
| T_connected : s_conn s = Requested false ->
    shape s' (s_table s) (s_removeReq s) (s_removed s) (s_nextSer s) (s_delayed s) (s_nextSeq s) (Requested true) (s_queue s) (FrConn 0 :: s_frames s) (s_log s) -> trans s o s'
| T_connDone k fr : s_frames s = FrConn k :: fr -> nth_error (s_queue s) k = None ->
    shape s' (s_table s) (s_removeReq s) (s_removed s) (s_nextSer s) (s_delayed s) (s_nextSeq s) Complete [] fr (s_log s) -> trans s o s'
| T_remove id rq : o = ORemovePending id ->
    rq = (match filter (fun e => e_id e =? id) (s_table s) with
             | [] => if mem id (s_removeReq s) then s_removeReq s else s_removeReq s ++ [id]
             | _ => s_removeReq s
             end) ->
    shape s' (filter (fun e => negb (e_id e =? id)) (s_table s)) rq (map e_ser (filter (fun e => e_id e =? id) (s_table s)) ++ s_removed s) (s_nextSer s)
      (s_delayed s) (s_nextSeq s) (s_conn s) (s_queue s) (s_frames s) (s_log s) -> trans s o s'
| T_extract p stay out x fr l : extract p (rev (s_table s)) = (stay, out, x) ->
    ((exists d, o = OReceiveData d /\ p = (fun e => matches (e_int e) d) /\ (x = None -> fr = [FrData out d])) \/
     (exists i b, o = OReceiveNack i /\ wire i = Ok b /\ p = nack_test wire b /\ (x = None -> fr = [FrNack out]))) ->
    (x <> None -> fr = []) -> Forall quiet l ->
    shape s' (rev stay) (s_removeReq s) (map e_ser out ++ s_removed s) (s_nextSer s) (s_delayed s) (s_nextSeq s) (s_conn s) (s_queue s) (fr ++ s_frames s) (s_log s ++ l) -> trans s o s'
| T_push f : fr_entries f = [] /\ (match f with FrData _ _ | FrNack _ => False | _ => True end) -> (forall k, f <> FrConn k) -> (forall fs i, f = FrInterest fs i -> matched fmatch (s_filters s) i = Ok fs) ->
    shape s' (s_table s) (s_removeReq s) (s_removed s) (s_nextSer s) (s_delayed s) (s_nextSeq s) (s_conn s) (s_queue s) (f :: s_frames s) (s_log s) -> trans s o s'
| T_pop f fr : s_frames s = f :: fr -> fr_entries f = [] /\ fr_filters f = [] -> (forall k, f <> FrConn k) ->
    shape s' (s_table s) (s_removeReq s) (s_removed s) (s_nextSer s) (s_delayed s) (s_nextSeq s) (s_conn s) (s_queue s) fr (s_log s) -> trans s o s'
| T_data e es d fr l : s_frames s = FrData (e :: es) d :: fr -> Forall quiet l ->
    shape s' (s_table s) (s_removeReq s) (s_removed s) (s_nextSer s) (s_delayed s) (s_nextSeq s) (s_conn s) (s_queue s) (FrData es d :: fr) (s_log s ++ LData e d :: l) -> trans s o s'
| T_nack e es fr : s_frames s = FrNack (e :: es) :: fr ->
    shape s' (s_table s) (s_removeReq s) (s_removed s) (s_nextSer s) (s_delayed s) (s_nextSeq s) (s_conn s) (s_queue s) (FrNack es :: fr) (s_log s ++ [LNack e]) -> trans s o s'
| T_interest f fs i fr : s_frames s = FrInterest (f :: fs) i :: fr ->
    shape s' (s_table s) (s_removeReq s) (s_removed s) (s_nextSer s) (s_delayed s) (s_nextSeq s) (s_conn s) (s_queue s) (FrInterest fs i :: fr) (s_log s ++ [LInterest f i]) -> trans s o s'
| T_later delay cid now : o = OCallLater delay cid now ->
    shape s' (s_table s) (s_removeReq s) (s_removed s) (s_nextSer s) (rev (insert_back (rev (s_delayed s)) (DCall (s_nextSeq s) (now + delay) (CUser cid)))) (S (s_nextSeq s))
      (s_conn s) (s_queue s) (s_frames s) (s_log s) -> trans s o s'
| T_call t fr c cs cid : s_frames s = FrTimed t :: fr -> s_delayed s = c :: cs -> c_time c <= t -> c_what c = CUser cid ->
    shape s' (s_table s) (s_removeReq s) (s_removed s) (s_nextSer s) cs (s_nextSeq s) (s_conn s) (s_queue s) (s_frames s) (s_log s ++ [LCall (c_seq c) cid t]) -> trans s o s'
| T_stale t fr c cs e : s_frames s = FrTimed t :: fr -> s_delayed s = c :: cs -> c_time c <= t -> c_what c = CTimeout e ->
    memn (e_ser e) (s_removed s) = true \/ del_entry (e_ser e) (s_table s) = None ->
    shape s' (s_table s) (s_removeReq s) (s_removed s) (s_nextSer s) cs (s_nextSeq s) (s_conn s) (s_queue s) (s_frames s) (s_log s) -> trans s o s'
| T_timeout t fr c cs e t' l : s_frames s = FrTimed t :: fr -> s_delayed s = c :: cs -> c_time c <= t -> c_what c = CTimeout e ->
    memn (e_ser e) (s_removed s) = false -> del_entry (e_ser e) (s_table s) = Some t' ->
    (e_timeout e = false /\ l = [] \/ e_timeout e = true /\ exists l', l = LTimeout e t :: l' /\ Forall quiet l') ->
    shape s' t' (s_removeReq s) (e_ser e :: s_removed s) (s_nextSer s) cs (s_nextSeq s) (s_conn s) (s_queue s) (s_frames s) (s_log s ++ l) -> trans s o s'.

Lemma shape_set s : shape s (s_table s) (s_removeReq s) (s_removed s) (s_nextSer s) (s_delayed s) (s_nextSeq s) (s_conn s) (s_queue s) (s_frames s) (s_log s).
Proof. constructor; reflexivity. Qed.
Lemma quiet_same s o : trans s o s.
Proof. apply (T_quiet _ _ _ []); [constructor|rewrite app_nil_r; apply shape_set]. Qed.
Lemma quiet1 x : quiet x -> Forall quiet [x].
Proof. intro; constructor; [assumption|constructor]. Qed.

(** expressing, from a state [s0] that differs from [s] in the ids only *)
Lemma express_trans s o s0 a now :
  shape s0 (s_table s) (s_removeReq s) (s_removed s) (s_nextSer s) (s_delayed s) (s_nextSeq s) (s_conn s) (s_queue s) (s_frames s) (s_log s) ->
  s_filters s0 = s_filters s -> s_async s0 = s_async s -> asks s o a -> trans s o (express s0 a now).
Proof.
  intros [Ht Hrq Hrm Hsr Hdl Hsq Hcn Hqu Hfr Hlg] Hfi Has Ha.
  assert (Hnow : (s_async s = false \/ s_conn s = Complete) -> forall c q l, Forall quiet l -> c = s_conn s \/ c = Complete ->
     q = s_queue s -> trans s o (logs (set_conn (fst (expressHelper s0 a now)) c q) l)).
  { intros Hs c q l Hl Hc ->. destruct (expressHelper_spec s0 a now) as [Hm|e dl seq fr l' Hm He Hd Hf Hl'];
      rewrite ?Ht, ?Hrq, ?Hrm, ?Hsr, ?Hdl, ?Hsq, ?Hqu, ?Hfr, ?Hlg, ?Hfi in *.
    - apply (T_gone _ _ _ a c (s_frames s) l); [now constructor|assumption|assumption|].
      constructor; cbn; rewrite ?Ht, ?Hrq, ?Hrm, ?Hsr, ?Hdl, ?Hsq, ?Hqu, ?Hfr, ?Hlg; reflexivity.
    - apply (T_add _ _ _ a c (s_frames s) now e dl seq fr (l' ++ l)); [now constructor|assumption|assumption|exact Hd|exact Hf| |].
      + apply Forall_app; split; [|assumption]. destruct Hl' as [->|[b ->]]; [constructor|apply quiet1; exact Logic.I].
      + constructor; cbn; rewrite ?app_nil_r, <- ?app_assoc; reflexivity. }
  assert (Hsame : forall st : state, set_conn st (s_conn st) (s_queue st) = st) by (intros []; reflexivity).
  assert (Hpr : s_conn (fst (expressHelper s0 a now)) = s_conn s /\ s_queue (fst (expressHelper s0 a now)) = s_queue s).
  { destruct (expressHelper_spec s0 a now); cbn; rewrite Hcn, Hqu; auto. }
  destruct Hpr as [Hpc Hpq].
  assert (Hraise : (s_async s = false \/ s_conn s = Complete) -> trans s o (raised (expressHelper s0 a now))).
  { intro Hs. unfold raised. rewrite <- (Hsame (fst (expressHelper s0 a now))), Hpc, Hpq.
    destruct (snd (expressHelper s0 a now)) as [x|].
    - apply Hnow; [exact Hs|apply quiet1; exact Logic.I|now left|reflexivity].
    - assert (Hn : forall st : state, st = logs st []) by (intros []; unfold logs; cbn; now rewrite app_nil_r).
      rewrite (Hn (set_conn _ _ _)). apply Hnow; [exact Hs|constructor|now left|reflexivity]. }
  unfold express, NodeModel.express. rewrite Hcn.
  assert (Hsync : s_async s = false -> trans s o match snd (expressHelper s0 a now) with Some _ => raised (expressHelper s0 a now) | None => set_conn (fst (expressHelper s0 a now)) Complete (s_queue s0) end).
  { intro Hs. destruct (snd (expressHelper s0 a now)); [apply Hraise; now left|].
    assert (Hn : forall st : state, st = logs st []) by (intros []; unfold logs; cbn; now rewrite app_nil_r).
    rewrite (Hn (set_conn _ _ _)). apply Hnow; [now left|constructor|now right|exact Hqu]. }
  destruct (s_conn s) as [|b|] eqn:Ec; rewrite ?Has; [| |apply Hraise; now right];
    (destruct (s_async s) eqn:Ea; cbn [negb]; [|now apply Hsync]).
  - apply (T_queue _ _ _ a (Requested false)); [assumption|assumption|left; split; [assumption|reflexivity]|].
    constructor; cbn; rewrite ?Hqu; auto.
  - apply (T_queue _ _ _ a (Requested b)); [assumption|assumption|right; split; [now exists b|now rewrite Ec]|].
    constructor; cbn; rewrite ?Hqu; auto.
Qed.

Lemma extract_dis (x : option exn) : x <> None -> exists y, x = Some y.
Proof. destruct x; [eauto|congruence]. Qed.

Lemma step_trans s o : trans s o (step s o).
Proof.
  destruct o as [|id i t n now|id|d|i|i| |delay cid now|now|now| |id f|id|rid p b i now|rid|b]; cbn [step NodeModel.step].
  - apply (T_quiet _ _ _ [LId (s_lastId s + 1)]); [apply quiet1; exact Logic.I|constructor; reflexivity].
  - apply express_trans; [apply shape_set|reflexivity|reflexivity|reflexivity].
  - eapply (T_remove _ _ _ id); [reflexivity|reflexivity|constructor; reflexivity].
  - unfold receiveData, pit_extract. destruct (extract _ _) as [[stay out] x] eqn:E. destruct x as [x|].
    + apply (T_extract _ _ _ _ stay out (Some x) [] [LRaise x] E); [left; exists d; split; [reflexivity|split; [reflexivity|discriminate]]|reflexivity|apply quiet1; exact Logic.I|].
      constructor; reflexivity.
    + apply (T_extract _ _ _ _ stay out None [FrData out d] [] E); [left; exists d; split; [reflexivity|split; reflexivity]|congruence|constructor|].
      constructor; try reflexivity. symmetry; apply app_nil_r.
  - unfold receiveNack. destruct (wire i) as [bb|x] eqn:Ew.
    2: { apply (T_quiet _ _ _ [LRaise x]); [apply quiet1; exact Logic.I|constructor; reflexivity]. }
    unfold pit_extract. destruct (extract _ _) as [[stay out] x] eqn:E. destruct x as [x|].
    + apply (T_extract _ _ _ _ stay out (Some x) [] [LRaise x] E); [right; exists i, bb; split; [reflexivity|split; [assumption|split; [reflexivity|discriminate]]]|reflexivity|apply quiet1; exact Logic.I|].
      constructor; reflexivity.
    + apply (T_extract _ _ _ _ stay out None [FrNack out] [] E); [right; exists i, bb; split; [reflexivity|split; [assumption|split; reflexivity]]|congruence|constructor|].
      constructor; try reflexivity. symmetry; apply app_nil_r.
  - unfold raised, dispatch. destruct (matched _ _ _) as [fs|x] eqn:E; cbn [fst snd].
    + apply (T_push _ _ _ (FrInterest fs i)); [split; [reflexivity|exact Logic.I]|discriminate| |constructor; reflexivity].
      intros fs' i' H; injection H as <- <-; exact E.
    + apply (T_quiet _ _ _ [LRaise x]); [apply quiet1; exact Logic.I|constructor; reflexivity].
  - destruct (s_conn s) as [|[|]|] eqn:Ec; try apply quiet_same. apply T_connected; [exact Ec|constructor; reflexivity].
  - apply (T_later _ _ _ delay cid now); [reflexivity|constructor; reflexivity].
  - apply (T_push _ _ _ (FrTimed now)); [split; [reflexivity|exact Logic.I]|discriminate|discriminate|constructor; reflexivity].
  - unfold continue, NodeModel.continue. destruct (s_frames s) as [|[es d|es|fs i|t|k] fr] eqn:Ef; [apply quiet_same| | | | |].
    + destruct es as [|e es].
      * apply (T_pop _ _ _ (FrData [] d) fr); [exact Ef|now split|discriminate|constructor; reflexivity].
      * unfold callOnData. set (s1 := logs _ _).
        destruct (e_owner e) as [|rid p b].
        -- apply (T_data _ _ _ e es d fr []); [exact Ef|constructor|constructor; reflexivity].
        -- destruct (registerOnData_same s1 rid p b d) as [Ht Hrq Hrm Hsr Hdl Hsq Hcn Has Hqu Hfr (l & Hl & Hq)].
           apply (T_data _ _ _ e es d fr l); [exact Ef|now apply regev_quiet|].
           constructor; try assumption. rewrite Hl. unfold s1. cbn. now rewrite <- app_assoc.
    + destruct es as [|e es].
      * apply (T_pop _ _ _ (FrNack []) fr); [exact Ef|now split|discriminate|constructor; reflexivity].
      * apply (T_nack _ _ _ e es fr); [exact Ef|constructor; reflexivity].
    + destruct fs as [|f fs].
      * apply (T_pop _ _ _ (FrInterest [] i) fr); [exact Ef|now split|discriminate|constructor; reflexivity].
      * apply (T_interest _ _ _ f fs i fr); [exact Ef|constructor; reflexivity].
    + destruct (s_delayed s) as [|c cs] eqn:Ed.
      { apply (T_pop _ _ _ (FrTimed t) fr); [exact Ef|now split|discriminate|constructor; cbn; auto]. }
      destruct (Z.leb_spec (c_time c) t) as [Hle|Hgt].
      2: { apply (T_pop _ _ _ (FrTimed t) fr); [exact Ef|now split|discriminate|constructor; cbn; auto]. }
      destruct (c_what c) as [e|cid] eqn:Ew.
      2: { apply (T_call _ _ _ t fr c cs cid Ef Ed Hle Ew). constructor; reflexivity. }
      unfold pit_removeEntry. cbn [s_removed s_table set_delayed].
      destruct (memn (e_ser e) (s_removed s)) eqn:Em.
      { apply (T_stale _ _ _ t fr c cs e Ef Ed Hle Ew); [now left|constructor; reflexivity]. }
      destruct (del_entry (e_ser e) (s_table s)) as [t'|] eqn:Ex.
      2: { apply (T_stale _ _ _ t fr c cs e Ef Ed Hle Ew); [now right|constructor; reflexivity]. }
      unfold callTimeout. destruct (e_timeout e) eqn:Et.
      2: { apply (T_timeout _ _ _ t fr c cs e t' [] Ef Ed Hle Ew Em Ex); [now left|constructor; try reflexivity; symmetry; apply app_nil_r]. }
      destruct (e_owner e) as [|rid p b].
      * apply (T_timeout _ _ _ t fr c cs e t' [LTimeout e t] Ef Ed Hle Ew Em Ex); [right; split; [exact Et|exists []; split; [reflexivity|constructor]]|constructor; reflexivity].
      * apply (T_timeout _ _ _ t fr c cs e t' [LTimeout e t; LRegFail rid] Ef Ed Hle Ew Em Ex).
        { right; split; [exact Et|exists [LRegFail rid]; split; [reflexivity|apply quiet1; exact Logic.I]]. }
        constructor; try reflexivity. cbn. now rewrite <- app_assoc.
    + destruct (nth_error (s_queue s) k) as [a|] eqn:En.
      2: { apply (T_connDone _ _ _ k fr); [exact Ef|exact En|constructor; reflexivity]. }
      set (s0 := set_frames s (FrConn (S k) :: fr)).
      destruct (expressHelper_spec s0 a now) as [Hm|e dl seq fr' l' Hm He Hd Hf Hl'];
        destruct (snd (expressHelper s0 a now)) as [x|] eqn:Es.
      * apply (T_gone _ _ _ a (s_conn s) fr [LRaise x]); [eapply so_queue; [reflexivity|eassumption|eassumption|now right]|exact Hm|apply quiet1; exact Logic.I|constructor; reflexivity].
      * apply (T_gone _ _ _ a (s_conn s) (FrConn (S k) :: fr) []); [eapply so_queue; [reflexivity|eassumption|eassumption|now left]|exact Hm|constructor|constructor; try reflexivity; symmetry; apply app_nil_r].
      * apply (T_add _ _ _ a (s_conn s) fr now e dl seq [] (l' ++ [LRaise x])); [eapply so_queue; [reflexivity|eassumption|eassumption|now right]|exact Hm|exact He|exact Hd|now left| |].
        -- apply Forall_app; split; [|apply quiet1; exact Logic.I]. destruct Hl' as [->|[b ->]]; [constructor|apply quiet1; exact Logic.I].
        -- constructor; try reflexivity. cbn. now rewrite <- app_assoc.
      * apply (T_add _ _ _ a (s_conn s) (FrConn (S k) :: fr) now e dl seq fr' l'); [eapply so_queue; [reflexivity|eassumption|eassumption|now left]|exact Hm|exact He|exact Hd|exact Hf| |].
        -- destruct Hl' as [->|[b ->]]; [constructor|apply quiet1; exact Logic.I].
        -- constructor; reflexivity.
  - destruct (s_frames s) as [|[es d|es|fs i|t|k] fr] eqn:Ef; try apply quiet_same.
    apply (T_pop _ _ _ (FrTimed t) fr); [exact Ef|now split|discriminate|constructor; reflexivity].
  - apply (T_quiet _ _ _ []); [constructor|rewrite app_nil_r; constructor; reflexivity].
  - apply (T_quiet _ _ _ []); [constructor|rewrite app_nil_r; constructor; reflexivity].
  - apply express_trans; [constructor; reflexivity|reflexivity|reflexivity|reflexivity].
  - apply (T_quiet _ _ _ []); [constructor|rewrite app_nil_r; constructor; reflexivity].
  - apply (T_quiet _ _ _ []); [constructor|rewrite app_nil_r; constructor; reflexivity].
Qed.
End Node.
