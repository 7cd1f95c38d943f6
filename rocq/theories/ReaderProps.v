(** * Properties C06, C07: stream reassembly *)
From Verif Require Import Base BaseLemmas TlvModel TlvSpec TlvProofs ReaderModel ReaderSpec ReaderProofs.
From Coq Require Import ZifyBool.

Lemma I_new : I er_new [].
Proof. left. split; [split; reflexivity|reflexivity]. Qed.

(** ** C06 *)

(** A stream of elements (each at most MAX_NDN_PACKET_SIZE) and an unfinished one,
    cut into chunks in any way: exactly the elements, in order, no exception. *)
Theorem C06_delivers_every_element : forall listen es t chunks,
  (forall e, listen e = None) -> Forall bytes_ok chunks ->
  Forall element es -> Forall (fun e => zlen e <= 8800) es -> incomplete t -> zlen t <= 8800 ->
  concat chunks = concat es ++ t ->
  exists st, er_run listen er_new chunks = (st, es, map (fun _ => None) chunks).
Proof.
  intros listen es t chunks Q B He Hm Ht Hl E.
  destruct (er_run_quiet listen Q chunks er_new [] es t B I_new He Hm Ht Hl E) as (st & H & _). eauto.
Qed.

(** Whatever the bytes: if no call raised, the elements delivered are exactly the
    elements at the front of the stream and what is left is unfinished. *)
Theorem C06_delivered_is_the_parse : forall listen chunks st es xs,
  (forall e, listen e = None) -> Forall bytes_ok chunks ->
  er_run listen er_new chunks = (st, es, xs) -> Forall (fun x => x = None) xs ->
  exists p, concat chunks = concat es ++ p /\ Forall element es /\ incomplete p.
Proof.
  intros listen chunks st es xs Q B H X.
  destruct (er_run_parse listen Q chunks er_new [] st es xs B I_new H X) as (p & E & He & Hp & _). exists p. auto.
Qed.

(** That parse is unique ... *)
Theorem C06_parse_unique : forall es es' p p',
  Forall element es -> Forall element es' -> incomplete p -> incomplete p' ->
  concat es ++ p = concat es' ++ p' -> es = es' /\ p = p'.
Proof. exact concat_unique. Qed.

(** ... so two divisions of the same bytes deliver the same elements. *)
Corollary C06_chunking_independent : forall listen chunks1 chunks2 st1 st2 es1 es2 xs1 xs2,
  (forall e, listen e = None) -> Forall bytes_ok chunks1 -> Forall bytes_ok chunks2 ->
  concat chunks1 = concat chunks2 ->
  er_run listen er_new chunks1 = (st1, es1, xs1) -> Forall (fun x => x = None) xs1 ->
  er_run listen er_new chunks2 = (st2, es2, xs2) -> Forall (fun x => x = None) xs2 ->
  es1 = es2.
Proof.
  intros listen chunks1 chunks2 st1 st2 es1 es2 xs1 xs2 Q B1 B2 E H1 X1 H2 X2.
  destruct (C06_delivered_is_the_parse _ _ _ _ _ Q B1 H1 X1) as (p1 & E1 & He1 & Hp1).
  destruct (C06_delivered_is_the_parse _ _ _ _ _ Q B2 H2 X2) as (p2 & E2 & He2 & Hp2).
  apply (concat_unique es1 es2 p1 p2); auto. congruence.
Qed.

(** If the listener raises, the rest of that chunk is lost: the same bytes in
    another division deliver more. *)
Theorem C06_raising_listener_refuted : exists listen c1 c2 c3,
  c1 = c2 ++ c3 /\
  snd (fst (er_run listen er_new [c1])) = [[5;0]] /\
  snd (fst (er_run listen er_new [c2; c3])) = [[5;0]; [6;0]].
Proof. exists (fun _ => Some RuntimeError), [5;0;6;0], [5;0], [6;0]. split; [reflexivity|]. split; reflexivity. Qed.

(** ** C07 *)
Definition bounded (st : er) : Prop := er_use st = true -> er_len st <= 8800.

Lemma er_loop_bounded : forall listen fuel st data, bounded st -> bounded (fst (fst (er_loop listen fuel st data))).
Proof.
  intros listen. induction fuel as [|fuel IH]; intros st data H; [exact H|]. cbn [er_loop].
  destruct (negb (er_use st) && (zlen data <=? 0)); [exact H|].
  destruct (sd_findElementEnd data (sd_setOffset 0 (er_sd st))) as [[[|] sd]|[]]; try exact H.
  - set (pr := if er_use st then _ else _). assert (U : er_use (snd pr) = false) by (unfold pr; destruct (er_use st); reflexivity).
    destruct pr as [el st1]. cbn [snd] in U. assert (H1 : bounded st1) by (intros K; congruence).
    destruct (listen el); [exact H1|]. destruct (zlen _ =? 0); [exact H1|].
    specialize (IH st1 (zslice data (sd_offset sd) (zlen data)) H1).
    unfold er_deliver. destruct (er_loop listen fuel st1 (zslice data (sd_offset sd) (zlen data))) as [[a b] c]. exact IH.
  - cbn zeta. destruct (MAX_NDN_PACKET_SIZE <? _) eqn:E.
    + intros K. discriminate.
    + intros _. cbn [fst er_len]. unfold MAX_NDN_PACKET_SIZE in E. lia.
  - intros K. discriminate.
Qed.

(** After every history of calls (any bytes, any listener, exceptions included)
    at most 8800 bytes are held. *)
Theorem C07_buffer_bounded : forall listen chunks, bounded (fst (fst (er_run listen er_new chunks))).
Proof.
  intros listen chunks. assert (H : bounded er_new) by (intros K; discriminate). revert H. generalize er_new.
  induction chunks as [|c cs IH]; intros st H; [exact H|]. cbn [er_run].
  pose proof (er_loop_bounded listen (S (length c)) st c H) as H1. unfold er_onReceivedData.
  destruct (er_loop listen (S (length c)) st c) as [[st1 es1] x]. cbn [fst] in H1. specialize (IH st1 H1).
  destruct (er_run listen st1 cs) as [[st2 es2] xs]. exact IH.
Qed.

(** A call raises exactly when the unfinished element would exceed 8800 bytes,
    after delivering the finished ones; it raises ValueError. *)
Theorem C07_rejects_exactly_oversized_partial : forall listen chunks c st es xs st' es' x,
  (forall e, listen e = None) -> Forall bytes_ok chunks -> bytes_ok c ->
  er_run listen er_new chunks = (st, es, xs) -> Forall (fun x => x = None) xs ->
  er_onReceivedData listen st c = (st', es', x) ->
  exists p, concat chunks ++ c = concat (es ++ es') ++ p /\ Forall element (es ++ es') /\ incomplete p /\
    x = if 8800 <? zlen p then Some ValueError else None.
Proof.
  intros listen chunks c st es xs st' es' x Q B Bc H X Hc.
  destruct (er_run_parse listen Q chunks er_new [] st es xs B I_new H X) as (p & E & He & Hp & HI).
  destruct (er_call listen Q (S (length c)) st p c Bc HI ltac:(lia)) as (es1 & p1 & st1 & E1 & He1 & Hp1 & El & _).
  unfold er_onReceivedData in Hc. rewrite El in Hc. inversion Hc; subst. exists p1.
  split; [|split; [apply Forall_app; auto|split; [assumption|reflexivity]]].
  cbn [app] in E. rewrite E, <- app_assoc, E1, concat_app, <- app_assoc. reflexivity.
Qed.

Lemma er_run_same : forall listen, (forall e, listen e = None) -> forall chunks st1 st2 p, Forall bytes_ok chunks ->
  I st1 p -> I st2 p ->
  snd (fst (er_run listen st1 chunks)) = snd (fst (er_run listen st2 chunks)) /\
  snd (er_run listen st1 chunks) = snd (er_run listen st2 chunks).
Proof.
  intros listen Q. induction chunks as [|c cs IH]; intros st1 st2 p B H1 H2; [split; reflexivity|].
  inversion B as [|? ? Bc Bcs]; subst. cbn [er_run]. unfold er_onReceivedData.
  destruct (er_call listen Q (S (length c)) st1 p c Bc H1 ltac:(lia)) as (es1 & p1 & t1 & E1 & He1 & Hp1 & El1 & HI1).
  destruct (er_call listen Q (S (length c)) st2 p c Bc H2 ltac:(lia)) as (es2 & p2 & t2 & E2 & He2 & Hp2 & El2 & HI2).
  rewrite El1, El2. rewrite E1 in E2. destruct (concat_unique es1 es2 p1 p2 He1 He2 Hp1 Hp2 E2) as [-> ->].
  assert (K : exists q, I t1 q /\ I t2 q).
  { destruct (MAX_NDN_PACKET_SIZE <? zlen p2); [exists []; split; left; auto|exists p2; auto]. }
  destruct K as (q & K1 & K2). destruct (IH t1 t2 q Bcs K1 K2) as [A1 A2].
  destruct (er_run listen t1 cs) as [[u1 a1] b1]. destruct (er_run listen t2 cs) as [[u2 a2] b2]. cbn [fst snd] in *. subst. auto.
Qed.

(** After a rejection the reader behaves as a new one, for every later history. *)
Theorem C07_reset_after_reject : forall listen chunks c st es xs st' es' x later,
  (forall e, listen e = None) -> Forall bytes_ok chunks -> bytes_ok c -> Forall bytes_ok later ->
  er_run listen er_new chunks = (st, es, xs) -> Forall (fun x => x = None) xs ->
  er_onReceivedData listen st c = (st', es', Some x) ->
  snd (fst (er_run listen st' later)) = snd (fst (er_run listen er_new later)) /\
  snd (er_run listen st' later) = snd (er_run listen er_new later).
Proof.
  intros listen chunks c st es xs st' es' x later Q B Bc Bl H X Hc.
  destruct (er_run_parse listen Q chunks er_new [] st es xs B I_new H X) as (p & E & He & Hp & HI).
  destruct (er_call listen Q (S (length c)) st p c Bc HI ltac:(lia)) as (es1 & p1 & st1 & E1 & He1 & Hp1 & El & HF).
  unfold er_onReceivedData in Hc. rewrite El in Hc. inversion Hc; subst.
  destruct (MAX_NDN_PACKET_SIZE <? zlen p1); [|discriminate].
  apply (er_run_same listen Q later st' er_new []); [assumption|left; auto|apply I_new].
Qed.

(** The limit is on the unfinished part only: a whole element of any size in one chunk is delivered. *)
Theorem C07_whole_element_not_limited_refuted : exists e, element e /\ 8800 < zlen e /\ bytes_ok e /\
  snd (fst (er_run (fun _ => None) er_new [e])) = [e].
Proof.
  set (e := [6; 253; 35; 40] ++ repeat 0 (Z.to_nat 9000)). exists e. split; [|split; [|split]].
  - exists 6, [6], [253;35;40], (repeat 0 (Z.to_nat 9000)). split; [constructor; unfold is_byte; lia|]. split; [|reflexivity].
    rewrite zlen_repeat. change (Z.of_nat (Z.to_nat 9000)) with (be_value [35;40]). constructor; [apply bytes_okb_ok; reflexivity|reflexivity].
  - unfold e. zl. rewrite zlen_repeat. lia.
  - apply bytes_okb_ok. vm_compute. reflexivity.
  - vm_compute. reflexivity.
Qed.

(** Examples: hypotheses are met; a header cut in the middle of its bytes. *)
Example ex_C06_elements : Forall element [[6;3;1;2;3]; [253;3;32;253;0;1;9]] /\ incomplete [254;1].
Proof.
  split.
  - constructor; [|constructor; [|constructor]].
    + exists 6, [6], [3], [1;2;3]. split; [constructor; unfold is_byte; lia|]. split; [|reflexivity]. constructor; unfold is_byte; cbn; lia.
    + exists (be_value [3;32]), [253;3;32], [253;0;1], [9]. split; [constructor; [apply bytes_okb_ok|]; reflexivity|]. split; [|reflexivity].
      change (zlen [9]) with (be_value [0;1]). constructor; [apply bytes_okb_ok|]; reflexivity.
  - exists [2;3;4;0]. split; [discriminate|]. exists (be_value [1;2;3;4]), [254;1;2;3;4], [0], [].
    split; [constructor; [apply bytes_okb_ok|]; reflexivity|]. split; [|reflexivity]. constructor; unfold is_byte; cbn; lia.
Qed.
Example ex_C06_cut : snd (fst (er_run (fun _ => None) er_new [[6]; [3;1]; [2;3;253;3]; []; [32;253]; [0]; [1]; [9;254;1]]))
  = [[6;3;1;2;3]; [253;3;32;253;0;1;9]].
Proof. reflexivity. Qed.
Example ex_C07_reject : let r := er_run (fun _ => None) er_new [[6; 253; 255; 255] ++ repeat 0 (Z.to_nat 8000); repeat 0 (Z.to_nat 1000); [5;0]] in
  snd (fst r) = [[5;0]] /\ snd r = [None; Some ValueError; None].
Proof. vm_compute. auto. Qed.

Print Assumptions C06_delivers_every_element.
Print Assumptions C06_delivered_is_the_parse.
Print Assumptions C06_chunking_independent.
Print Assumptions C06_raising_listener_refuted.
Print Assumptions C07_buffer_bounded.
Print Assumptions C07_rejects_exactly_oversized_partial.
Print Assumptions C07_reset_after_reject.
Print Assumptions C07_whole_element_not_limited_refuted.
