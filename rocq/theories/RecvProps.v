(** * C87: packets between nodes over a byte stream. *)
From Verif Require Import Base BaseLemmas TlvModel TlvSpec TlvProofs TlvDecProofs NameModel NameSpec CalModel WireModel WireSpec WireProofs WireProofs2 WireProofs3 WireProofs4 WireProofs5 WireProps.
From Verif Require Import BlobModel BlobProps CtlModel CtlSpec CtlProofs CtlProps MatchModel ReaderModel ReaderSpec ReaderProofs ReaderProps SafetyProps BagModel.
From Verif Require Import NodeModel NodeProofs NodeProps RecvModel RecvSpec.
From Coq Require Import Lia ZifyBool.

(** ** Decoding *)
Lemma tlv_element t v : u64 t -> zlen (tlv t v) < 2 ^ 64 -> element (tlv t v).
Proof.
  intros U L. pose proof (tlv_len_ge t v). pose proof (zlen_nonneg _ v). exists t, (varnum t), (varnum (zlen v)), v. split; [now apply varnum_form|]. split; [apply varnum_form; unfold u64; lia|reflexivity].
Qed.
Lemma peek_tlv t v t' : u64 t -> zlen (tlv t v) < 2 ^ 64 -> d_peekType t' (zlen (tlv t v)) (tlv t v) 0 = Ok (t =? t', 0).
Proof. intros U L. exact (At_peek _ _ _ _ t' (At_top t v U L)). Qed.
Lemma packet_tlv rnd p : exists t v, packet_bytes rnd p = tlv t v /\ t = match p with PInterest _ => 5 | PData _ => 6 end.
Proof. destruct p as [i|d]; cbn [packet_bytes]; [destruct (blob_size (i_params i) =? 0)|]; eexists; eexists; split; reflexivity. Qed.

Definition seen_inner (p : packet) : interest + data := match p with PInterest i => inl i | PData d => inr d end.
Lemma inner_ok rnd p : packet_ok p -> zlen (packet_bytes rnd p) < 2 ^ 64 -> decodeInner (packet_bytes rnd p) = Ok (Some (seen_inner (packet_seen rnd p))).
Proof.
  intros Hp L. unfold decodeInner. assert (P : forall t', d_peekType t' (zlen (packet_bytes rnd p)) (packet_bytes rnd p) 0 = Ok (match p with PInterest _ => 5 | PData _ => 6 end =? t', 0)).
  { destruct (packet_tlv rnd p) as (t & v & E & Et). rewrite E in *. assert (U : u64 t) by (rewrite Et; destruct p; unfold u64; lia).
    intro t'. rewrite (peek_tlv t v t') by assumption. rewrite Et. reflexivity. }
  rewrite !P. cbn [rbind fst]. clear P.
  destruct p as [i|d]; cbn [packet_bytes packet_seen seen_inner packet_ok] in *; cbn [Z.eqb Pos.eqb].
  - destruct Hp as [Hi Hc]. destruct (blob_size (i_params i) =? 0) eqn:E.
    + destruct (C16_interest_round_trip rnd i_empty i Hi ltac:(lia) eq_refl L) as (b & e & _ & -> & _). reflexivity.
    + destruct Hc as [Hc|[H0 Hc]]; [lia|]. destruct (C17_v03_round_trip rnd i_empty i Hi H0 Hc L) as (b & e & _ & -> & _). reflexivity.
  - destruct (C18_data_round_trip data_new d Hp L) as (o & _ & ->). reflexivity.
Qed.
Lemma firstNack_app a b : lp_firstNack (a ++ b) = match lp_firstNack a with Some n => Some n | None => lp_firstNack b end.
Proof. induction a as [|[] a IH]; cbn; auto. Qed.
Lemma firstNack_fields hs : lp_firstNack (flat_map header_field hs) = nack_in (Some hs).
Proof.
  unfold nack_in. induction hs as [|h hs IH]; [reflexivity|]. cbn [flat_map]. rewrite firstNack_app, IH. destruct h as [[]|]; reflexivity.
Qed.
Lemma lp_bytes_len hs w : zlen (w : bytes) <= zlen (lp_bytes hs (Some w)).
Proof.
  unfold lp_bytes. cbn [opt_el]. pose proof (tlv_len_ge 100 (elems (map header_el hs ++ [(80, w)]))) as A. rewrite elems_app, elems_one, zlen_app in A.
  pose proof (tlv_len_ge 80 w). pose proof (zlen_nonneg _ (elems (map header_el hs))). rewrite elems_app, elems_one. lia.
Qed.
Lemma framed_len fr w : zlen (w : bytes) <= zlen (framed fr w).
Proof. destruct fr; cbn [framed]; [apply lp_bytes_len|lia]. Qed.
Lemma framed_tlv rnd p fr : exists t v, framed fr (packet_bytes rnd p) = tlv t v /\ u64 t /\ t = match fr with Some _ => 100 | None => match p with PInterest _ => 5 | PData _ => 6 end end.
Proof.
  destruct fr as [hs|]; cbn [framed]; [eexists; eexists; split; [reflexivity|split; [unfold u64; lia|reflexivity]]|].
  destruct (packet_tlv rnd p) as (t & v & E & Et). exists t, v. split; [exact E|]. split; [rewrite Et; destruct p; unfold u64; lia|exact Et].
Qed.
Lemma receive_ok rnd p fr : packet_ok p -> framing_ok fr -> zlen (framed fr (packet_bytes rnd p)) < 2 ^ 64 ->
  receive (framed fr (packet_bytes rnd p)) = Ok (arrival (packet_seen rnd p) fr).
Proof.
  intros Hp Hf L. pose proof (framed_len fr (packet_bytes rnd p)) as L'. pose proof (inner_ok rnd p Hp ltac:(lia)) as D.
  destruct (framed_tlv rnd p fr) as (t & v & E & U & Et). unfold receive.
  assert (H0 : exists r, framed fr (packet_bytes rnd p) = t :: r). { rewrite E. unfold tlv, varnum. replace (t <? 253) with true by (rewrite Et; destruct fr, p; reflexivity). eexists. reflexivity. }
  destruct H0 as [r Hr]. rewrite Hr. destruct fr as [hs|]; rewrite Et; cbn [Z.eqb Pos.eqb].
  - rewrite <- Et, <- Hr. cbn [framed framing_ok] in *. rewrite (C21_decode hs _ Hf L). cbn [rbind lp_fragment lp_fields]. rewrite D. cbn [rbind].
    rewrite firstNack_fields. unfold arrival. destruct p; cbn [packet_seen seen_inner fields_seen option_map]; destruct (nack_in (Some hs)); reflexivity.
  - destruct p; cbn [Z.eqb Pos.eqb]; rewrite <- Et, <- Hr; cbn [framed]; rewrite D; reflexivity.
Qed.

(** ** The reader with a listener that may raise, but not for these elements *)
Lemma er_loop_ext l l' : forall fuel st data st' es x, er_loop l fuel st data = (st', es, x) -> (forall e, l e = None) -> (forall e, In e es -> l' e = None) ->
  er_loop l' fuel st data = (st', es, x).
Proof.
  induction fuel as [|fuel IH]; intros st data st' es x H Q Hl; cbn [er_loop] in *; [exact H|].
  destruct (negb (er_use st) && (zlen data <=? 0)); [exact H|].
  destruct (sd_findElementEnd data (sd_setOffset 0 (er_sd st))) as [[[|] sd]|[]]; try exact H.
  set (pr := if er_use st then _ else _) in *. destruct pr as [el st1]. rewrite Q in H. destruct (zlen (zslice data (sd_offset sd) (zlen data)) =? 0).
  - injection H as <- <- <-. rewrite (Hl el (or_introl eq_refl)). reflexivity.
  - destruct (er_loop l fuel st1 (zslice data (sd_offset sd) (zlen data))) as [[a b] c] eqn:E. cbn [er_deliver] in H. injection H as <- <- <-.
    rewrite (Hl el (or_introl eq_refl)). rewrite (IH _ _ _ _ _ E Q (fun e He => Hl e (or_intror He))). reflexivity.
Qed.
Lemma er_run_ext l l' : forall chunks st st' es xs, er_run l st chunks = (st', es, xs) -> (forall e, l e = None) -> (forall e, In e es -> l' e = None) ->
  er_run l' st chunks = (st', es, xs).
Proof.
  induction chunks as [|c cs IH]; intros st st' es xs H Q Hl; cbn [er_run] in *; [exact H|]. unfold er_onReceivedData in *.
  destruct (er_loop l (S (length c)) st c) as [[st1 es1] x] eqn:E. destruct (er_run l st1 cs) as [[st2 es2] xs2] eqn:E2. injection H as <- <- <-.
  rewrite (er_loop_ext l l' _ _ _ _ _ _ E Q) by (intros; apply Hl, in_or_app; now left). rewrite (IH _ _ _ _ E2 Q) by (intros; apply Hl, in_or_app; now right). reflexivity.
Qed.

(** ** C87 *)
(** The bytes that the library writes for a packet. *)
Definition packet_wire (rnd : bytes) (p : packet) : res bytes :=
  match p with PInterest i => rbind (encodeInterest rnd i) (fun w => Ok (fst w)) | PData d => rbind (encodeData d) (fun w => Ok (fst w)) end.
Lemma wire_ok rnd p : packet_ok p -> zlen (packet_bytes rnd p) < 2 ^ 64 -> packet_wire rnd p = Ok (packet_bytes rnd p).
Proof.
  intros Hp L. destruct p as [i|d]; cbn [packet_wire packet_bytes packet_ok] in *.
  - destruct Hp as [Hi Hc]. destruct (blob_size (i_params i) =? 0) eqn:E.
    + destruct (C16_interest_round_trip rnd i_empty i Hi ltac:(lia) eq_refl L) as (b & e & -> & _). reflexivity.
    + destruct Hc as [Hc|[H0 Hc]]; [lia|]. destruct (C17_v03_round_trip rnd i_empty i Hi H0 Hc L) as (b & e & -> & _). reflexivity.
  - destruct (C18_data_round_trip data_new d Hp L) as (o & -> & _). reflexivity.
Qed.

(** Packets, each possibly passed on in an LpPacket with header fields, of at most 8800 bytes
    and followed by an unfinished element, arriving in chunks cut in any way: no exception, and
    exactly these packets are processed, in order. *)
Theorem C87_stream : forall rnd (items : list (packet * framing)) t chunks,
  let bs := map (fun it => framed (snd it) (packet_bytes rnd (fst it))) items in
  Forall (fun it => packet_ok (fst it) /\ framing_ok (snd it)) items -> Forall (fun b => zlen b <= 8800) bs ->
  incomplete t -> zlen t <= 8800 -> Forall bytes_ok chunks -> concat chunks = concat bs ++ t ->
  Forall (fun it => packet_wire rnd (fst it) = Ok (packet_bytes rnd (fst it))) items /\
  (exists st, er_run listener er_new chunks = (st, bs, map (fun _ => None) chunks)) /\
  map receive bs = map (fun it => Ok (arrival (packet_seen rnd (fst it)) (snd it))) items.
Proof.
  intros rnd items t chunks bs Ho Hs Ht Htl Hb E.
  assert (L : forall it, In it items -> zlen (framed (snd it) (packet_bytes rnd (fst it))) < 2 ^ 64).
  { intros it Hi. rewrite Forall_forall in Hs. specialize (Hs _ (in_map (fun it => framed (snd it) (packet_bytes rnd (fst it))) _ _ Hi)). cbn beta in Hs. lia. }
  rewrite Forall_forall in Ho. assert (R : map receive bs = map (fun it => Ok (arrival (packet_seen rnd (fst it)) (snd it))) items).
  { unfold bs. rewrite map_map. apply map_ext_in. intros it Hi. destruct (Ho _ Hi). apply receive_ok; auto. }
  split; [|split; [|exact R]].
  - apply Forall_forall. intros it Hi. apply wire_ok; [apply (Ho _ Hi)|]. pose proof (framed_len (snd it) (packet_bytes rnd (fst it))). specialize (L _ Hi). lia.
  - destruct (C06_delivers_every_element (fun _ => None) bs t chunks (fun _ => eq_refl) Hb) as [st H]; auto.
    + apply Forall_forall. intros b Hi. apply in_map_iff in Hi. destruct Hi as (it & <- & Hi). destruct (framed_tlv rnd (fst it) (snd it)) as (t' & v & E' & U & _).
      specialize (L _ Hi). rewrite E' in *. now apply tlv_element.
    + exists st. apply (er_run_ext _ listener _ _ _ _ _ H (fun _ => eq_refl)). intros e Hi. apply in_map_iff in Hi. destruct Hi as (it & <- & Hi).
      destruct (Ho _ Hi). unfold listener. rewrite receive_ok by auto. reflexivity.
Qed.

(** What the application of a node does not see: an element that does not decode, whatever it
    is, changes nothing but raises one of these exceptions. *)
Lemma bytes_ok_zslice inp a b : bytes_ok inp -> bytes_ok (zslice inp a b).
Proof.
  unfold bytes_ok. rewrite !Forall_forall. intros B x Hx. apply B. unfold zslice in Hx. revert Hx. generalize (Z.to_nat (Z.min a (zlen inp))). intros n Hx.
  match type of Hx with In x (firstn ?m ?l) => rewrite <- (firstn_skipn n inp); apply in_or_app; right; rewrite <- (firstn_skipn m (skipn n inp)); apply in_or_app; left; exact Hx end.
Qed.
Lemma lp_fragment_ok : forall fuel en acc inp off p o, bytes_ok inp -> dec_lp_loop fuel en acc inp off = Ok (p, o) ->
  forall f, lp_fragment p = Some f -> bytes_ok f.
Proof.
  induction fuel as [|fuel IH]; intros en acc inp off p o B H f Hf; cbn [dec_lp_loop] in H; unfold dbind at 1, d_getOffset in H.
  - destruct (off <? en); [discriminate H|]. injection H as <- <-. discriminate Hf.
  - destruct (off <? en); [|injection H as <- <-; discriminate Hf]. unfold dbind at 1 in H.
    destruct (d_readVarNumber inp off) as [[t o1]|x]; [|discriminate H]. unfold dbind at 1 in H.
    destruct (d_readVarNumber inp o1) as [[n o2]|x]; [|discriminate H]. unfold dbind at 1 in H. unfold dbind at 1 in H. unfold d_inputLength in H.
    destruct (zlen inp <? o2 + n); [discriminate H|]. destruct (t =? 80).
    { unfold dbind, d_getSlice, d_seek, dret in H. injection H as <- <-. injection Hf as <-. apply bytes_ok_zslice. exact B. }
    unfold dbind at 1 in H. match type of H with (match ?m inp o2 with _ => _ end) = _ => destruct (m inp o2) as [[acc' o3]|x] eqn:E end; [|discriminate H].
    unfold dbind at 1 in H. destruct (d_finishNestedTlvs (o2 + n) false inp o3) as [[u o4]|x]; [|discriminate H]. exact (IH _ _ _ _ _ _ B H f Hf).
Qed.
Lemma inner_safe e : bytes_ok e -> match decodeInner e with Ok _ => True | Err x => x = ValueError \/ x = RuntimeError end.
Proof.
  intro B. unfold decodeInner. pose proof (zlen_nonneg _ e) as N. pose proof (dsafe_peek 5 (zlen e) e 0 B ltac:(lia)) as P.
  destruct (d_peekType 5 (zlen e) e 0) as [[b o]|x]; cbn [rbind fst]; [|exact P]. destruct b.
  - destruct (C04_decodeInterest i_empty e B) as [[r ->]|[-> | ->]]; cbn; auto.
  - pose proof (dsafe_peek 6 (zlen e) e 0 B ltac:(lia)) as P2. destruct (d_peekType 6 (zlen e) e 0) as [[b o']|x]; cbn [rbind fst]; [|exact P2]. destruct b; [|exact Logic.I].
    unfold decodeData. pose proof (C04_data data_new e B) as Q. destruct (dec_data data_new e 0) as [[r o2]|x]; cbn [rbind]; auto.
Qed.
Theorem C87_undecodable : forall e, bytes_ok e ->
  match receive e with
  | Ok _ => True
  | Err x => x = ValueError \/ x = RuntimeError \/ (x = IndexError /\ e = []) \/ (x = TypeError /\ exists r, e = 100 :: r)
  end.
Proof.
  intros e B. unfold receive. destruct e as [|b r]; [right; right; left; auto|]. destruct (b =? 100) eqn:Eb.
  - assert (b = 100) by lia. subst b. set (e := 100 :: r) in *. unfold decodeLpPacket. pose proof (C04_lpPacket e B) as P.
    destruct (dec_lp e 0) as [[p o]|x] eqn:Ed; cbn [rbind fst].
    + destruct (lp_fragment p) as [f|] eqn:Ef; [|right; right; right; split; [reflexivity|exists r; reflexivity]].
      assert (Bf : bytes_ok f).
      { unfold dec_lp, dbind, dfuel in Ed. destruct (d_readNestedTlvsStart 100 e 0) as [[en o1]|x]; [|discriminate Ed].
        destruct (dec_lp_loop (S (length e)) en [] e o1) as [[p' o2]|x] eqn:El; [|discriminate Ed].
        destruct (d_finishNestedTlvs en false e o2) as [[u o3]|x]; [|discriminate Ed]. injection Ed as <- _. exact (lp_fragment_ok _ _ _ _ _ _ _ B El f Ef). }
      pose proof (inner_safe f Bf) as Q. destruct (decodeInner f) as [r'|x]; cbn [rbind]; [destruct (lp_firstNack (lp_fields p)); exact Logic.I|]. destruct Q; auto.
    + destruct P as [->|[-> | ->]]; auto. right; right; right. split; [reflexivity|exists r; reflexivity].
  - pose proof (inner_safe _ B) as Q. destruct (decodeInner (b :: r)) as [r'|x]; cbn [rbind]; [exact Logic.I|]. destruct Q; auto.
Qed.

Lemma nack_bytes w n : nack_ok n -> zlen w < 2 ^ 63 -> encodeLpNack w n = Ok (lp_bytes [HField (LpNack n)] (Some w)).
Proof.
  intros H L. unfold encodeLpNack. rewrite e_blobTlv_tlv by lia. rewrite app_nil_r.
  assert (R : (if (nk_reason n =? 0) || (nk_reason n =? 50) || (nk_reason n =? 100) || (nk_reason n =? 150) then Ok (nk_reason n)
             else if nk_reason n =? 32767 then Ok (nk_other n) else Err RuntimeError) = Ok (nack_code n)).
  { unfold nack_ok, nack_code in *. destruct H as [([->|[->|[->| ->]]] & _)|(-> & _)]; reflexivity. }
  rewrite R. cbn [rbind]. destruct (nack_of_ok n H) as [U _]. rewrite e_nnTlv_tlv by (unfold u64 in U; lia). cbn [rbind]. f_equal.
  unfold lp_bytes. cbn [map header_el opt_el app]. rewrite elems_cons, !elems_one.
  rewrite (e_TL_tlv' 800 (tlv 801 (nonneg (nack_code n))) (tlv 80 w)) by (lia || reflexivity).
  pose proof (e_TL_tlv 100 (tlv 800 (tlv 801 (nonneg (nack_code n))) ++ tlv 80 w) [] ltac:(lia)) as Q. rewrite !app_nil_r in Q. exact Q.
Qed.
(** ** Between two nodes *)
Section Exchange.
Variable sha256 : bytes -> bytes.
Variable F : Type.
Variable fmatch : F -> name -> res bool.
Variable rnd : bytes.
Notation state := (state interest data F). Notation op := (op interest data F). Notation entry := (entry interest F).
Notation run := (RecvModel.run sha256 F fmatch rnd). Notation step := (RecvModel.step sha256 F fmatch rnd).
Notation onReceivedElement := (onReceivedElement sha256 F fmatch rnd). Notation putData := (putData sha256 F). Notation putNack := (putNack F rnd).

(** An Interest that can be represented, of which the receiver sees everything, and the bytes of it. *)
Definition sendable (i : interest) (w : bytes) : Prop :=
  packet_ok (PInterest i) /\ packet_seen rnd (PInterest i) = PInterest i /\ w = packet_bytes rnd (PInterest i) /\ zlen w <= 8800.

(** A: expressInterest on a connected face sends these bytes and the interest is pending. *)
Theorem C87_express : forall (s : state) id i w hasTimeout hasNack now, sendable i w ->
  s_conn s = Complete -> ~ In id (s_removeReq s) -> n_match timeoutPrefix (i_name i) = false -> s_loopback s = false ->
  exists e, e_id e = id /\ e_int e = i /\ e_timeout e = hasTimeout /\ e_nack e = hasNack /\ e_owner e = User /\
    s_table (step s (OExpress id i hasTimeout hasNack now)) = s_table s ++ [e] /\
    s_log (step s (OExpress id i hasTimeout hasNack now)) = s_log s ++ [LAdd e now; LSend w].
Proof.
  intros s id i w ht hn now (Hp & Hs & -> & L) Hc Hr Hn Hl. exists (Entry (s_nextSer s) id i ht hn User). repeat (split; [reflexivity|]).
  unfold RecvModel.step. cbn [NodeModel.step]. unfold express. rewrite Hc. unfold expressHelper, pit_add. cbn [a_id a_int a_timeout a_nack a_owner].
  assert (Hm : mem id (s_removeReq s) = false). { destruct (mem id (s_removeReq s)) eqn:E; [|reflexivity]. exfalso. apply Hr. unfold mem in E. apply existsb_exists in E. destruct E as (x & Hx & E). assert (id = x) by lia. now subst. }
  rewrite Hm. unfold isLocalTimeout. rewrite Hn. unfold wire. pose proof (wire_ok rnd (PInterest i) Hp ltac:(lia)) as W. cbn [packet_wire] in W.
  revert W L. generalize (packet_bytes rnd (PInterest i)). intros w W L.
  destruct (encodeInterest rnd i) as [[w' o]|x]; cbn [rbind fst] in *; [|discriminate W]. injection W as ->. unfold maxPacketSize. replace (8800 <? zlen w) with false by lia.
  set (e := Entry (s_nextSer s) id i ht hn User). set (s1 := set_pit s _ _ _ _). set (s2 := if ht || _ then _ else s1).
  assert (H2 : s_table s2 = s_table s ++ [e] /\ s_log s2 = s_log s /\ s_loopback s2 = false) by (unfold s2; destruct (ht || _); repeat split; exact Hl).
  clearbody s2. destruct H2 as (T2 & L2 & B2). cbn [logs s_loopback]. rewrite B2. unfold raised. cbn [snd fst logs s_table s_log]. rewrite T2, L2. split; [reflexivity|]. rewrite <- app_assoc. reflexivity.
Qed.
(** B: the bytes arrive, as they are or in an LpPacket without a Nack; every filter of B that
    matches the name is called with the same interest. *)
Theorem C87_interest_arrives : forall (s : state) i w fr os f, sendable i w -> framing_ok fr -> nack_in fr = None -> zlen (framed fr w) < 2 ^ 64 ->
  (forall f, In f (s_filters s) -> exists b, fmatch (f_filter f) (i_name i) = Ok b) ->
  s_frames (run (onReceivedElement s (framed fr w)) os) = [] ->
  In f (s_filters s) -> fmatch (f_filter f) (i_name i) = Ok true ->
  In (LInterest f i) (s_log (run (onReceivedElement s (framed fr w)) os)).
Proof.
  intros s i w fr os f (Hp & Hs & -> & L) Hf Hn Hl Ha Hd Hi Hm.
  assert (E : onReceivedElement s (framed fr (packet_bytes rnd (PInterest i))) = step s (OReceiveInterest i)).
  { unfold RecvModel.onReceivedElement. rewrite receive_ok by assumption. rewrite Hs. unfold arrival. rewrite Hn. reflexivity. }
  rewrite E in *. exact (C30_called (i_matchesData sha256) (wire rnd) i_lifetime isLocalTimeout (fun f i => fmatch f (i_name i)) status s i os f Ha Hd Hi Hm).
Qed.
(** B: putData sends the bytes of the Data packet. *)
Theorem C87_put_data : forall (s : state) d, data_ok d -> zlen (data_bytes d) <= 8800 -> s_loopback s = false ->
  putData s d = logs s [LSend (data_bytes d)].
Proof.
  intros s d Hd L Hl. unfold RecvModel.putData. rewrite Hl. destruct (C18_data_round_trip data_new d Hd ltac:(lia)) as (o & -> & _).
  unfold send, maxPacketSize. replace (8800 <? zlen (data_bytes d)) with false by lia. reflexivity.
Qed.
(** A: the Data packet arrives; onData of every pending interest that it matches is called. *)
Theorem C87_data_arrives : forall (s : state) d fr os e, data_ok d -> data_seen data_new d = d -> framing_ok fr -> nack_in fr = None -> zlen (framed fr (data_bytes d)) < 2 ^ 64 ->
  (forall e, In e (s_table s) -> exists b, i_matchesData sha256 (e_int e) d = Ok b) ->
  s_frames (run (onReceivedElement s (framed fr (data_bytes d))) os) = [] ->
  In e (s_table s) -> i_matchesData sha256 (e_int e) d = Ok true ->
  In (LData e d) (s_log (run (onReceivedElement s (framed fr (data_bytes d))) os)).
Proof.
  intros s d fr os e Hd Hs Hf Hn Hl Ha Hfr Hi Hm.
  assert (E : onReceivedElement s (framed fr (data_bytes d)) = step s (OReceiveData d)).
  { unfold RecvModel.onReceivedElement. pose proof (receive_ok rnd (PData d) fr Hd Hf Hl) as R. cbn [packet_bytes packet_seen] in R. rewrite R, Hs. unfold arrival. rewrite Hn. reflexivity. }
  rewrite E in *. exact (C28_data_called (i_matchesData sha256) (wire rnd) i_lifetime isLocalTimeout (fun f i => fmatch f (i_name i)) status s d os e Ha Hfr Hi Hm).
Qed.
(** B: putNack for an interest sends a Nack with the reason; A: it arrives, with the same reason,
    and onNetworkNack of every pending interest with the same encoding is called. *)
Theorem C87_put_nack : forall (s : state) i w n, sendable i w -> nack_ok n -> exists p,
  p = lp_bytes [HField (LpNack n)] (Some w) /\ receive p = Ok (RNack i n) /\
  (zlen p <= 8800 -> putNack s i n = logs s [LSend p]) /\ (8800 < zlen p -> putNack s i n = logs s [LRaise RuntimeError]).
Proof.
  intros s i w n (Hp & Hs & -> & L) Hn. eexists. split; [reflexivity|].
  assert (Hsz : zlen (lp_bytes [HField (LpNack n)] (Some (packet_bytes rnd (PInterest i)))) < 2 ^ 64).
  { unfold lp_bytes. cbn [map header_el opt_el app]. destruct (nack_of_ok n Hn) as [U _]. pose proof (nonneg_len (nack_code n) ltac:(unfold u64 in U; lia)) as Nl.
    rewrite elems_cons, !elems_one. assert (V : forall t v, 0 <= t -> zlen (tlv t v) <= zlen v + 18).
    { intros t v Ht. unfold tlv. pose proof (zlen_nonneg _ v). rewrite !zlen_app, !varnum_len by lia. repeat (destruct (_ <? _)); lia. }
    match goal with |- zlen (tlv 100 ?b) < _ => pose proof (V 100 b ltac:(lia)) as A end. rewrite zlen_app in *.
    pose proof (V 800 (tlv 801 (nonneg (nack_code n))) ltac:(lia)). pose proof (V 801 (nonneg (nack_code n)) ltac:(lia)). pose proof (V 80 (packet_bytes rnd (PInterest i)) ltac:(lia)). lia. }
  split.
  - pose proof (receive_ok rnd (PInterest i) (Some [HField (LpNack n)]) Hp ltac:(apply Forall_cons; [exact Hn|apply Forall_nil]) Hsz) as R. cbn [framed] in R. rewrite R, Hs. reflexivity.
  - unfold RecvModel.putNack, wire. pose proof (wire_ok rnd (PInterest i) Hp ltac:(lia)) as W. cbn [packet_wire] in W.
    revert W L. generalize (packet_bytes rnd (PInterest i)). intros w W L.
    destruct (encodeInterest rnd i) as [[w' o]|x]; cbn [rbind fst] in *; [|discriminate W]. injection W as ->.
    rewrite (nack_bytes w n Hn ltac:(lia)). unfold send, maxPacketSize.
    split; intro H; match goal with |- context [8800 <? ?k] => change k with (zlen (lp_bytes [HField (LpNack n)] (Some w))); destruct (8800 <? zlen (lp_bytes [HField (LpNack n)] (Some w))) eqn:Ek end;
      try reflexivity; exfalso; lia.
Qed.
Theorem C87_nack_arrives : forall (s : state) i w n os e, sendable i w -> nack_ok n ->
  let p := lp_bytes [HField (LpNack n)] (Some w) in
  (forall e, In e (s_table s) -> exists b o, encodeInterest rnd (e_int e) = Ok (b, o)) ->
  s_frames (run (onReceivedElement s p) os) = [] -> In e (s_table s) -> e_nack e = true -> e_int e = i ->
  In (LNack e) (s_log (run (onReceivedElement s p) os)).
Proof.
  intros s i w n os e Hi0 Hn p Ha Hd Hi Hnk He. destruct (C87_put_nack s i w n Hi0 Hn) as (p' & -> & R & _). fold p in R.
  assert (E : onReceivedElement s p = step s (OReceiveNack i)) by (unfold RecvModel.onReceivedElement; rewrite R; reflexivity). rewrite E in *.
  destruct Hi0 as (Hp & _ & Ew & L). assert (W : wire rnd i = Ok w). { unfold wire. rewrite Ew in *. exact (wire_ok rnd (PInterest i) Hp ltac:(lia)). }
  apply (C28_nack_called (i_matchesData sha256) (wire rnd) i_lifetime isLocalTimeout (fun f i => fmatch f (i_name i)) status s i w os e W); auto.
  - intros e' He'. destruct (Ha e' He') as (b & o & Eb). exists b. unfold wire. rewrite Eb. reflexivity.
  - rewrite He. exact W.
Qed.
(** An element that does not decode: only an exception, no callback, no change. *)
Theorem C87_undecodable_ignored : forall (s : state) e x, receive e = Err x -> onReceivedElement s e = logs s [LRaise x].
Proof. intros s e x H. unfold RecvModel.onReceivedElement. rewrite H. reflexivity. Qed.
(** With the loopback of interests, Data for a pending interest of the same application is given
    to it and not sent. *)
Theorem C87_loopback : forall (s : state) d e, s_loopback s = true ->
  (forall e, In e (s_table s) -> exists b, i_matchesData sha256 (e_int e) d = Ok b) -> In e (s_table s) -> i_matchesData sha256 (e_int e) d = Ok true ->
  putData s d = step s (OReceiveData d).
Proof.
  intros s d e Hl Ha Hi Hm. unfold RecvModel.putData. rewrite Hl. unfold RecvModel.step. cbn [NodeModel.step]. unfold receiveData.
  destruct (C28_data (i_matchesData sha256) (wire rnd) i_lifetime isLocalTimeout (fun f i => fmatch f (i_name i)) status s d Ha) as [_ Hfr].
  cbn [NodeModel.step] in Hfr. unfold receiveData in Hfr. destruct (pit_extract s _) as [[s1 es] [x|]] eqn:E; [reflexivity|].
  destruct es as [|e1 es]; [|reflexivity]. exfalso. cbn [push set_frames s_frames] in Hfr. injection Hfr as Hfr _.
  assert (K : In e (rev (filter (fun e => match i_matchesData sha256 (e_int e) d with Ok b => b | Err _ => false end) (s_table s)))).
  { apply in_rev. rewrite rev_involutive. apply filter_In. rewrite Hm. auto. }
  rewrite <- Hfr in K. exact K.
Qed.
End Exchange.
(** An LpPacket without a fragment (an IDLE packet, which NDNLPv2 allows) raises TypeError, and
    what follows it in the same chunk is lost: the stream is not processed as in C87_stream. *)
Theorem C87_idle_refuted : exists idle w i, idle = lp_bytes [] None /\ w = packet_bytes [] (PInterest i) /\ packet_ok (PInterest i) /\
  receive idle = Err TypeError /\ receive w = Ok (RInterest i None) /\
  er_run listener er_new [idle ++ w] = (er_new, [idle], [Some TypeError]) /\
  er_run listener er_new [idle; w] = (er_new, [idle; w], [Some TypeError; None]).
Proof.
  eexists. eexists. exists (ex_params None). split; [reflexivity|]. split; [reflexivity|].
  split; [split; [apply ex_params_ok; exact Logic.I|right; split; [reflexivity|left; reflexivity]]|]. vm_compute. repeat split; reflexivity.
Qed.

(** ** A concrete exchange *)
Definition ex_fmatch (f n : name) : res bool := Ok (n_match f n).
Notation ex_step := (RecvModel.step (fun _ => repeat 0 32) name ex_fmatch []).
Notation ex_receive := (RecvModel.onReceivedElement (fun _ => repeat 0 32) name ex_fmatch []).
Definition ex_w := packet_bytes [] (PInterest (ex_params None)).
Example C87_sendable_ex : sendable [] (ex_params None) ex_w.
Proof.
  split; [split; [apply ex_params_ok; exact Logic.I|right; split; [reflexivity|left; reflexivity]]|]. split; [reflexivity|]. split; [reflexivity|]. vm_compute. discriminate.
Qed.
Example C87_data_ex : data_ok ex_data /\ data_seen data_new ex_data = ex_data.
Proof. split; [apply ex_data_ok|reflexivity]. Qed.
(** Two packets, one in an LpPacket, and the beginning of a third, cut in the middle. *)
Example C87_stream_ex :
  let items := [(PInterest (ex_params None), None); (PData ex_data, Some [HField (LpCongestion 1); HUnknown 804 [1; 2]])] in
  let bytes := concat (map (fun it => framed (snd it) (packet_bytes [] (fst it))) items) ++ [5] in
  let chunks := [firstn 3 bytes; firstn 30 (skipn 3 bytes); skipn 33 bytes] in
  Forall (fun it => packet_ok (fst it) /\ framing_ok (snd it)) items /\ concat chunks = bytes /\ incomplete [5] /\
  map receive (snd (fst (er_run listener er_new chunks))) = [Ok (RInterest (ex_params None) None); Ok (RData ex_data (Some [LpCongestion 1]))].
Proof.
  cbv zeta. split.
  - apply Forall_cons; [split; [apply C87_sendable_ex|exact Logic.I]|]. apply Forall_cons; [split; [apply ex_data_ok|]|apply Forall_nil].
    apply Forall_cons; [unfold header_ok, u64; lia|]. apply Forall_cons; [|apply Forall_nil]. split; [split; [lia|reflexivity]|unfold lp_known; lia].
  - split; [vm_compute; reflexivity|]. split; [exists [0]; split; [discriminate|]; apply (tlv_element 5 []); [unfold u64; lia|vm_compute; reflexivity]|]. vm_compute. reflexivity.
Qed.
(** A expresses, B has a filter /A and answers with Data, A gets it; then the same with a Nack. *)
Example C87_exchange_ex :
  let sA := ex_step (init false) (OExpress 1 (ex_params None) true true 0) in
  let e := Entry 0 1 (ex_params None) true true User in
  let f := FEntry 7 [c_generic [65]] UserCb in
  let sB := ex_step (ex_step (ex_receive (ex_step (init false) (OSetFilter 7 [c_generic [65]])) ex_w) (OContinue 0)) (OContinue 0) in
  let sB1 := RecvModel.putData (fun _ => repeat 0 32) name sB ex_data in
  let sB2 := RecvModel.putNack name [] sB (ex_params None) (Nack 150 (-1)) in
  s_log sA = [LAdd e 0; LSend ex_w] /\ s_log sB = [LInterest f (ex_params None)] /\ s_frames sB = [] /\
  s_log sB1 = [LInterest f (ex_params None); LSend (data_bytes ex_data)] /\
  s_log (ex_step (ex_receive sA (framed (Some [HField (LpFaceId 3)]) (data_bytes ex_data))) (OContinue 5)) = [LAdd e 0; LSend ex_w; LData e ex_data] /\
  let p := lp_bytes [HField (LpNack (Nack 150 (-1)))] (Some ex_w) in
  s_log sB2 = [LInterest f (ex_params None); LSend p] /\ s_log (ex_step (ex_receive sA p) (OContinue 5)) = [LAdd e 0; LSend ex_w; LNack e].
Proof. vm_compute. repeat (split; [reflexivity|]). reflexivity. Qed.
Print Assumptions C87_stream.
Print Assumptions C87_undecodable.
Print Assumptions C87_express.
Print Assumptions C87_interest_arrives.
Print Assumptions C87_put_data.
Print Assumptions C87_data_arrives.
Print Assumptions C87_put_nack.
Print Assumptions C87_nack_arrives.
Print Assumptions C87_undecodable_ignored.
Print Assumptions C87_loopback.
Print Assumptions C87_idle_refuted.
