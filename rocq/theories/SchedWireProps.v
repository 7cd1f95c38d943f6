(** * Property C48: the wire form of a Schedule *)
From Verif Require Import Base BaseLemmas TlvModel TlvSpec TlvProofs TlvDecProofs UriModel UriProofs CalModel CalProofs BlobModel BlobProps
  WireModel WireSafety SchedModel SchedSpec SchedProps.
From Coq Require Import ZifyBool Sorted.
Local Open Scope res_scope.

(** ** The grammar *)
(** Elements of one interval whose start and end dates have the given texts *)
Definition ri_fields (r : ri) (sd ed : bytes) : list (Z * bytes) :=
  [(134, sd); (135, ed); (136, nonneg (ri_startHour r)); (137, nonneg (ri_endHour r)); (138, nonneg (ri_n r)); (139, nonneg (ri_unit r))].
(** [body l es]: [es] is the list of elements of the intervals [l] *)
Inductive body : list ri -> list (Z * bytes) -> Prop :=
| body_nil : body [] []
| body_cons : forall r l sd ed es, toIsoString (ri_startDate r) = Ok sd -> toIsoString (ri_endDate r) = Ok ed -> body l es ->
    body (r :: l) ((140, elems (ri_fields r sd ed)) :: es).

(** What can be written: dates from year 1000, and 64-bit numbers *)
Definition writable (r : ri) : Prop :=
  made r /\ iso_range (ri_startDate r / 1000) /\ iso_range (ri_endDate r / 1000) /\ u64 (ri_n r) /\ u64 (ri_unit r).

Lemma ascii_encode : forall l, Forall (fun c => c < 128) l -> utf8_encode l = Ok l.
Proof.
  induction l as [|c l IH]; intros H; [reflexivity|]. inversion H as [|? ? H1 H2]; subst. cbn [utf8_encode]. rewrite IH by assumption. cbn [rbind].
  replace (c <? 128) with true by lia. reflexivity.
Qed.
Lemma ascii_decode : forall l, Forall (fun c => c < 128) l -> utf8_decode l = Ok l.
Proof.
  induction l as [|c l IH]; intros H; [reflexivity|]. inversion H as [|? ? H1 H2]; subst. cbn [utf8_decode].
  replace (c <? 128) with true by lia. rewrite IH by assumption. reflexivity.
Qed.
Lemma date_text : forall d, iso_range (d / 1000) -> d mod 1000 = 0 -> exists str, toIsoString d = Ok str /\ fromIsoString str = Ok d /\
  blob_of_str str = Ok (Some str) /\ blob_to_str (Some str) = Ok str /\ zlen str = 15 /\ bytes_ok str.
Proof.
  intros d R M. destruct (iso_round_trip _ R) as (str & A & B & C & D & E). exists str.
  replace (d / 1000 * 1000) with d in A, B by (Z.div_mod_to_equations; lia).
  split; [exact A|]. split; [exact B|]. unfold blob_of_str, blob_to_str. rewrite ascii_encode, ascii_decode by assumption. tauto.
Qed.
Lemma made_mod : forall r, made r -> ri_startDate r mod 1000 = 0 /\ ri_endDate r mod 1000 = 0.
Proof.
  intros r M. destruct (made_facts r M) as (S & E & -> & -> & _). unfold DAY.
  split; [replace (S * (24 * 3600 * 1000)) with (S * 86400 * 1000) by lia|replace (E * (24 * 3600 * 1000)) with (E * 86400 * 1000) by lia]; apply Z.mod_mul; lia.
Qed.
Lemma enc_ri_ok : forall r out, writable r -> exists sd ed, toIsoString (ri_startDate r) = Ok sd /\ toIsoString (ri_endDate r) = Ok ed /\
  fromIsoString sd = Ok (ri_startDate r) /\ fromIsoString ed = Ok (ri_endDate r) /\ blob_to_str (Some sd) = Ok sd /\ blob_to_str (Some ed) = Ok ed /\
  zlen sd = 15 /\ zlen ed = 15 /\ bytes_ok sd /\ bytes_ok ed /\
  enc_ri r out = Ok (tlv 140 (elems (ri_fields r sd ed)) ++ out).
Proof.
  intros r out (M & R1 & R2 & N & U). destruct (made_mod r M) as [M1 M2].
  destruct (date_text _ R1 M1) as (sd & A1 & A2 & A3 & A4 & A5 & A6). destruct (date_text _ R2 M2) as (ed & B1 & B2 & B3 & B4 & B5 & B6).
  exists sd, ed. repeat (split; [assumption|]).
  destruct (made_facts r M) as (_ & _ & _ & _ & _ & _ & _ & H & _ & _). unfold u64 in *.
  unfold enc_ri. rewrite e_nnTlv_tlv by lia. cbn [rbind]. rewrite e_nnTlv_tlv by lia. cbn [rbind]. rewrite e_nnTlv_tlv by lia. cbn [rbind]. rewrite e_nnTlv_tlv by lia. cbn [rbind].
  rewrite B1. cbn [rbind]. rewrite B3. cbn [rbind]. rewrite A1. cbn [rbind]. rewrite A3. cbn [rbind]. rewrite !e_blobTlv_tlv by lia.
  f_equal. unfold ri_fields. rewrite !elems_cons, elems_nil.
  set (v := tlv 134 sd ++ tlv 135 ed ++ tlv 136 (nonneg (ri_startHour r)) ++ tlv 137 (nonneg (ri_endHour r)) ++ tlv 138 (nonneg (ri_n r)) ++ tlv 139 (nonneg (ri_unit r)) ++ []).
  replace (tlv 134 sd ++ tlv 135 ed ++ tlv 136 (nonneg (ri_startHour r)) ++ tlv 137 (nonneg (ri_endHour r)) ++ tlv 138 (nonneg (ri_n r)) ++ tlv 139 (nonneg (ri_unit r)) ++ out) with (v ++ out)
    by (unfold v; rewrite <- !app_assoc; reflexivity).
  apply e_TL_tlv'; [lia|reflexivity].
Qed.
Lemma enc_ris_ok : forall l out, Forall writable l -> exists es, body l es /\ enc_ris l out = Ok (elems es ++ out).
Proof.
  induction l as [|r l IH]; intros out H; [exists []; split; [constructor|reflexivity]|].
  inversion H as [|? ? H1 H2]; subst. destruct (IH out H2) as (es & B & E). cbn [enc_ris]. rewrite E. cbn [rbind].
  destruct (enc_ri_ok r (elems es ++ out) H1) as (sd & ed & A1 & A2 & _ & _ & _ & _ & _ & _ & _ & _ & A3).
  exists ((140, elems (ri_fields r sd ed)) :: es). split; [constructor; assumption|]. rewrite A3, elems_cons, <- app_assoc. reflexivity.
Qed.

(** wireEncode writes Schedule { WhiteIntervalList { ... } BlackIntervalList { ... } }, the
    intervals in order. *)
Theorem C48_grammar : forall s, Forall writable (sc_white s) -> Forall writable (sc_black s) ->
  exists we be, body (sc_white s) we /\ body (sc_black s) be /\
    sc_wireEncode s = Ok (tlv 143 (tlv 141 (elems we) ++ tlv 142 (elems be))).
Proof.
  intros s HW HB. unfold sc_wireEncode. destruct (enc_ris_ok (sc_black s) [] HB) as (be & B1 & B2). rewrite B2. cbn [rbind]. rewrite app_nil_r.
  replace (e_writeTypeAndLength 142 (zlen (elems be)) (elems be)) with (tlv 142 (elems be)).
  2: { rewrite <- (app_nil_r (elems be)) at 3. rewrite e_TL_tlv by lia. rewrite app_nil_r. reflexivity. }
  destruct (enc_ris_ok (sc_white s) (tlv 142 (elems be)) HW) as (we & A1 & A2). rewrite A2. cbn [rbind].
  exists we, be. split; [exact A1|]. split; [exact B1|]. f_equal. rewrite e_TL_tlv' by (try lia; reflexivity).
  set (v := tlv 141 (elems we) ++ tlv 142 (elems be)). rewrite <- (app_nil_r v) at 2. rewrite e_TL_tlv by lia. apply app_nil_r.
Qed.

(** ** Decoding *)
Lemma At_dec_ri : forall inp off end_ r sd ed es, writable r -> toIsoString (ri_startDate r) = Ok sd -> toIsoString (ri_endDate r) = Ok ed ->
  At inp off end_ ((140, elems (ri_fields r sd ed)) :: es) ->
  dec_ri inp off = Ok (r, off + zlen (tlv 140 (elems (ri_fields r sd ed)))).
Proof.
  intros inp off end_ r sd ed es W T1 T2 A. destruct (enc_ri_ok r [] W) as (sd' & ed' & E1 & E2 & F1 & F2 & G1 & G2 & L1 & L2 & _ & _ & _).
  assert (sd' = sd) by congruence. assert (ed' = ed) by congruence. subst sd' ed'. clear E1 E2.
  pose proof W as (M & _ & _ & N & U). destruct (made_facts r M) as (_ & _ & _ & _ & _ & _ & _ & H1 & H2 & _).
  assert (UH : u64 (ri_startHour r) /\ u64 (ri_endHour r)) by (unfold u64; lia). destruct UH as [US UE].
  assert (SM : small (ri_fields r sd ed)).
  { unfold ri_fields, small. repeat (apply Forall_cons; [cbn [fst snd]; split; [unfold u64; lia|]|]); [| | | | | |apply Forall_nil];
    try lia; match goal with |- zlen (nonneg ?n) < _ => pose proof (nonneg_len n ltac:(unfold u64 in *; lia)); lia end. }
  destruct (At_nested _ _ _ _ _ _ A SM) as [R1 A1]. unfold dec_ri, dbind at 1. rewrite R1.
  set (e := off + zlen (tlv 140 (elems (ri_fields r sd ed)))) in *. clearbody e. set (o := off + hdr 140 (elems (ri_fields r sd ed))) in *. clearbody o. clear R1 A.
  unfold ri_fields in A1. unfold dbind, dlift. unfold blob_to_str in *.
  rewrite (At_blob _ _ _ _ _ _ A1). cbv beta iota. rewrite G1. cbv beta iota. rewrite F1. apply At_next in A1.
  rewrite (At_blob _ _ _ _ _ _ A1). cbv beta iota. rewrite G2. cbv beta iota. rewrite F2. apply At_next in A1.
  rewrite (At_nnTlv _ _ _ _ _ _ US A1). apply At_next in A1. rewrite (At_nnTlv _ _ _ _ _ _ UE A1). apply At_next in A1.
  rewrite (At_nnTlv _ _ _ _ _ _ N A1). apply At_next in A1. rewrite (At_nnTlv _ _ _ _ _ _ U A1). apply At_next in A1.
  rewrite (At_finish _ _ _ false A1).
  destruct M as (a & b & c & d & n & u & M'). destruct (made_facts r ltac:(do 6 eexists; exact M')) as (S & E & E1 & E2 & L & D1 & D2 & _ & _ & NN).
  destruct (C38_constructor (ri_startDate r) (ri_endDate r) (ri_startHour r) (ri_endHour r) (Some (ri_n r)) (Some (ri_unit r))) as [K _].
  rewrite K by (rewrite D1, D2; repeat (split; [lia|]); exact NN). rewrite D1, D2, <- E1, <- E2. destruct r. reflexivity.
Qed.
Lemma add_last : forall acc r, Forall (fun x => ri_lt x r) acc -> sortedSetAdd acc r = acc ++ [r].
Proof.
  induction acc as [|x acc IH]; intros r H; [reflexivity|]. inversion H as [|? ? H1 H2]; subst. cbn [sortedSetAdd app].
  pose proof (compare_spec x r) as (C1 & C2 & C3). apply C1 in H1. replace (ri_compare x r =? 0) with false by lia.
  replace (ri_compare x r <? 0) with true by lia. cbn [negb]. rewrite IH by assumption. reflexivity.
Qed.
Lemma dec_ris_ok : forall l es fuel inp off end_ acc, Forall writable l -> body l es -> At inp off end_ es -> (length l < fuel)%nat ->
  StronglySorted ri_lt (acc ++ l) -> dec_ris fuel end_ acc inp off = Ok (acc ++ l, end_).
Proof.
  induction l as [|r l IH]; intros es fuel inp off end_ acc W B A F S.
  - inversion B; subst. apply At_nil in A. subst end_. destruct fuel; cbn [dec_ris]; unfold dbind, d_getOffset; rewrite Z.ltb_irrefl; unfold dret; rewrite app_nil_r; reflexivity.
  - inversion B as [|? ? sd ed es' T1 T2 B']; subst. inversion W as [|? ? W1 W2]; subst.
    destruct fuel as [|fuel]; [cbn [length] in F; lia|]. cbn [dec_ris]. unfold dbind, d_getOffset.
    assert (L : off < end_).
    { destruct A as (_ & pre & post & _ & _ & E). rewrite elems_cons in E. pose proof (tlv_len_ge 140 (elems (ri_fields r sd ed))). rewrite zlen_app in E. pose proof (zlen_nonneg _ (elems es')). pose proof (zlen_nonneg _ (elems (ri_fields r sd ed))). lia. }
    replace (off <? end_) with true by lia. rewrite (At_dec_ri _ _ _ _ _ _ _ W1 T1 T2 A). apply At_next in A.
    rewrite add_last.
    2: { clear -S. induction acc as [|x acc IHa]; [constructor|]. cbn [app] in S. inversion S as [|? ? S1 S2]; subst. constructor; [|auto].
         rewrite Forall_forall in S2. apply S2. apply in_or_app. right. left. reflexivity. }
    replace (acc ++ r :: l) with ((acc ++ [r]) ++ l) in * by (rewrite <- app_assoc; reflexivity).
    apply (IH es' fuel); auto. cbn [length] in F. lia.
Qed.
Lemma body_len : forall l es, body l es -> length es = length l.
Proof. induction 1; cbn [length]; congruence. Qed.
Lemma elems_count : forall es, Z.of_nat (length es) <= zlen (elems es).
Proof.
  induction es as [|[t v] es IH]; [cbn; lia|]. rewrite elems_cons, zlen_app. pose proof (tlv_len_ge t v). pose proof (zlen_nonneg _ v). cbn [length]. lia.
Qed.
Lemma body_types : forall l es, body l es -> Forall (fun e => u64 (fst e)) es.
Proof. induction 1; constructor; [cbn [fst]; unfold u64; lia|assumption]. Qed.

(** Decoding what was encoded gives an equal schedule, for every schedule the API can
    build of writable intervals. *)
Theorem C48_round_trip : forall ops, (forall r, In (AddWhite r) ops \/ In (AddBlack r) ops -> writable r) ->
  exists w, sc_wireEncode (sc_run ops) = Ok w /\ (zlen w < 2 ^ 64 -> sc_wireDecode w = Ok (sc_run ops)).
Proof.
  intros ops H. pose proof (C39_sets ops) as Sets. destruct (Sets ri_default) as (_ & _ & SW & SB).
  assert (HW : Forall writable (sc_white (sc_run ops))) by (apply Forall_forall; intros r Hr; apply H; left; apply Sets; exact Hr).
  assert (HB : Forall writable (sc_black (sc_run ops))) by (apply Forall_forall; intros r Hr; apply H; right; apply Sets; exact Hr).
  destruct (sc_run ops) as [wl bl]. cbn [sc_white sc_black] in *. clear Sets H ops.
  destruct (C48_grammar (Sched wl bl) HW HB) as (we & be & B1 & B2 & E). cbn [sc_white sc_black] in B1, B2. eexists. split; [exact E|]. clear E.
  intros L. set (lists := [(141, elems we); (142, elems be)]).
  assert (EL : tlv 141 (elems we) ++ tlv 142 (elems be) = elems lists) by (unfold lists; rewrite !elems_cons, elems_nil, app_nil_r; reflexivity).
  rewrite EL in *. replace (tlv 143 (elems lists)) with (elems [(143, elems lists)]) in * by (rewrite elems_cons, elems_nil, app_nil_r; reflexivity).
  assert (S0 : small [(143, elems lists)]) by (apply small_of_len; [constructor; [cbn [fst]; unfold u64; lia|constructor]|exact L]).
  assert (L1 : zlen (elems lists) < 2 ^ 64) by (inversion S0 as [|? ? [_ K] _]; exact K).
  assert (S1 : small lists) by (apply small_of_len; [unfold lists; repeat (constructor; [cbn [fst]; unfold u64; lia|]); constructor|exact L1]).
  assert (L2 : zlen (elems we) < 2 ^ 64 /\ zlen (elems be) < 2 ^ 64).
  { unfold lists in S1. inversion S1 as [|? ? [_ K] S1']; subst. inversion S1' as [|? ? [_ K'] _]; subst. cbn [snd] in *. tauto. }
  assert (S2 : small we) by (apply small_of_len; [eapply body_types; eassumption|tauto]).
  assert (S3 : small be) by (apply small_of_len; [eapply body_types; eassumption|tauto]).
  pose proof (elems_len_le [(143, elems lists)] _ (or_introl eq_refl)) as G1. cbn [snd] in G1.
  pose proof (elems_len_le lists (141, elems we) (or_introl eq_refl)) as G2. cbn [snd] in G2.
  pose proof (elems_len_le lists (142, elems be) (or_intror (or_introl eq_refl))) as G3. cbn [snd] in G3.
  pose proof (At_whole _ S0) as A. unfold sc_wireDecode, dec_schedule. set (inp := elems [(143, elems lists)]) in *. clearbody inp.
  destruct (At_nested _ _ _ _ _ _ A S1) as [R1 A1]. unfold dbind at 1. rewrite R1. clear R1.
  set (e1 := 0 + zlen (tlv 143 (elems lists))) in *. set (o1 := 0 + hdr 143 (elems lists)) in *. clearbody e1 o1.
  unfold lists in A1. destruct (At_nested _ _ _ _ _ _ A1 S2) as [R2 A2]. unfold dbind at 1. rewrite R2. clear R2.
  apply At_next in A1. set (e2 := o1 + zlen (tlv 141 (elems we))) in *. set (o2 := o1 + hdr 141 (elems we)) in *. clearbody e2 o2.
  unfold dbind at 1, dfuel at 1.
  rewrite (dec_ris_ok wl we (S (length inp)) inp o2 e2 []); [|exact HW|exact B1|exact A2| |exact SW].
  2: { apply body_len in B1. pose proof (elems_count we). unfold zlen in *. lia. }
  cbn [app]. unfold dbind at 1. rewrite finish_at_end.
  destruct (At_nested _ _ _ _ _ _ A1 S3) as [R3 A3]. unfold dbind at 1. rewrite R3. clear R3.
  apply At_next in A1. set (e3 := e2 + zlen (tlv 142 (elems be))) in *. set (o3 := e2 + hdr 142 (elems be)) in *. clearbody e3 o3.
  unfold dbind at 1, dfuel at 1.
  rewrite (dec_ris_ok bl be (S (length inp)) inp o3 e3 []); [|exact HB|exact B2|exact A3| |exact SB].
  2: { apply body_len in B2. pose proof (elems_count be). unfold zlen in *. lia. }
  cbn [app]. unfold dbind at 1. rewrite finish_at_end. unfold dbind. rewrite (At_finish _ _ _ false A1). reflexivity.
Qed.
(** In particular the decoded schedule gives the same decisions. *)
Corollary C48_same_decisions : forall ops w us, (forall r, In (AddWhite r) ops \/ In (AddBlack r) ops -> writable r) ->
  sc_wireEncode (sc_run ops) = Ok w -> zlen w < 2 ^ 64 ->
  exists s, sc_wireDecode w = Ok s /\ sc_getCoveringInterval s us = sc_getCoveringInterval (sc_run ops) us.
Proof.
  intros ops w us H E L. destruct (C48_round_trip ops H) as (w' & E' & D). assert (w' = w) by congruence. subst w'.
  exists (sc_run ops). split; [auto|reflexivity].
Qed.

(** ** Arbitrary input *)
Lemma utf8_decode_err : forall fuel l e, (length l <= fuel)%nat -> utf8_decode l = Err e -> e = ValueError.
Proof.
  induction fuel as [|fuel IH]; intros l e F H; destruct l as [|b0 l]; cbn [utf8_decode] in H; try discriminate; [cbn [length] in F; lia|].
  cbn [length] in F.
  repeat match type of H with
  | (if ?c then _ else _) = _ => destruct c
  | match ?l with [] => _ | _ :: _ => _ end = _ => destruct l; cbn [length] in F
  | (_ <-- utf8_decode ?l ;; _) = _ => let E := fresh "E" in destruct (utf8_decode l) eqn:E; cbn [rbind] in H; [|apply IH in E; [|lia]]
  end; congruence.
Qed.
Lemma safe_dec_ri : safe dec_ri.
Proof.
  unfold dec_ri.
  assert (T : forall b, safe (dlift (blob_to_str (Some b)))).
  { intros b. apply safe_lift. intros e H. left. unfold blob_to_str in H. eapply utf8_decode_err; [|exact H]. apply le_n. }
  assert (I : forall s, safe (dlift (fromIsoString s))) by (intros s; apply safe_lift; intros e H; eapply iso_err; exact H).
  apply safe_bind; [apply safe_readNested|]. intros e. apply safe_bind; [apply safe_readBlob|]. intros b1. apply safe_bind; [apply T|]. intros s1. apply safe_bind; [apply I|]. intros d1.
  apply safe_bind; [apply safe_readBlob|]. intros b2. apply safe_bind; [apply T|]. intros s2. apply safe_bind; [apply I|]. intros d2.
  do 4 (apply safe_bind; [apply safe_nnTlv|]; intros ?). apply safe_bind; [apply safe_finish|]. intros _. apply safe_lift. intros x H. right.
  unfold ri_new in H. repeat match type of H with (if ?c then _ else _) = _ => destruct c end; congruence.
Qed.
Lemma dec_ri_progress : forall inp off r off', bytes_ok inp -> 0 <= off <= zlen inp -> dec_ri inp off = Ok (r, off') -> off < off'.
Proof.
  intros inp off r off' B O H. unfold dec_ri, dbind at 1 in H. pose proof (dsafe_readNested 140 inp off B O) as P.
  destruct (d_readNestedTlvsStart 140 inp off) as [[e o]|x]; [|discriminate].
  match type of H with ?m inp o = _ => assert (S : safe m) end.
  { assert (T : forall b, safe (dlift (blob_to_str (Some b)))).
    { intros b. apply safe_lift. intros x Hx. left. unfold blob_to_str in Hx. eapply utf8_decode_err; [|exact Hx]. apply le_n. }
    assert (I : forall s, safe (dlift (fromIsoString s))) by (intros s; apply safe_lift; intros x Hx; eapply iso_err; exact Hx).
    apply safe_bind; [apply safe_readBlob|]. intros b1. apply safe_bind; [apply T|]. intros s1. apply safe_bind; [apply I|]. intros d1.
    apply safe_bind; [apply safe_readBlob|]. intros b2. apply safe_bind; [apply T|]. intros s2. apply safe_bind; [apply I|]. intros d2.
    do 4 (apply safe_bind; [apply safe_nnTlv|]; intros ?). apply safe_bind; [apply safe_finish|]. intros _. apply safe_lift. intros x Hx. right.
    unfold ri_new in Hx. repeat match type of Hx with (if ?c then _ else _) = _ => destruct c end; congruence. }
  specialize (S inp o B ltac:(lia)). rewrite H in S. lia.
Qed.
Lemma dec_ris_safe : forall fuel e acc inp off, bytes_ok inp -> 0 <= off <= zlen inp -> zlen inp - off < Z.of_nat fuel ->
  match dec_ris fuel e acc inp off with Ok (_, off') => off <= off' <= zlen inp | Err x => decode_error x end.
Proof.
  induction fuel as [|fuel IH]; intros e acc inp off B O F; [lia|]. cbn [dec_ris]. unfold dbind, d_getOffset.
  destruct (off <? e) eqn:E; [|unfold dret; lia]. pose proof (safe_dec_ri inp off B O) as P. pose proof (dec_ri_progress inp off) as Pr.
  destruct (dec_ri inp off) as [[r o]|x]; [|exact P]. specialize (Pr r o B O eq_refl).
  specialize (IH e (sortedSetAdd acc r) inp o B ltac:(lia) ltac:(lia)). destruct (dec_ris fuel e (sortedSetAdd acc r) inp o) as [[? ?]|?]; [lia|exact IH].
Qed.
Theorem C48_safe : forall inp, bytes_ok inp -> match sc_wireDecode inp with
  | Ok s => StronglySorted ri_lt (sc_white s) /\ StronglySorted ri_lt (sc_black s) /\ Forall made (sc_white s) /\ Forall made (sc_black s)
  | Err e => decode_error e end.
Proof.
  intros inp B. unfold sc_wireDecode.
  assert (S : safe dec_schedule).
  { unfold dec_schedule. do 2 (apply safe_bind; [apply safe_readNested|]; intros ?).
    apply safe_bind; [apply dfuel_safe; intros; apply dec_ris_safe; assumption|]. intros w. apply safe_bind; [apply safe_finish|]. intros _.
    apply safe_bind; [apply safe_readNested|]. intros e2. apply safe_bind; [apply dfuel_safe; intros; apply dec_ris_safe; assumption|]. intros b.
    do 2 (apply safe_bind; [apply safe_finish|]; intros _). apply safe_ret. }
  assert (G : forall fuel e acc off l off', StronglySorted ri_lt acc -> Forall made acc -> dec_ris fuel e acc inp off = Ok (l, off') -> StronglySorted ri_lt l /\ Forall made l).
  { induction fuel as [|fuel IH]; intros e acc off l off' Sa Ma H; cbn [dec_ris] in H; unfold dbind, d_getOffset in H; (destruct (off <? e); [|inversion H; subst; tauto]); [discriminate|].
    destruct (dec_ri inp off) as [[r o]|x] eqn:E; [|discriminate]. apply IH in H; [exact H|apply add_sorted; exact Sa|].
    apply Forall_forall. intros q Hq. apply add_in in Hq. rewrite Forall_forall in Ma. destruct Hq as [Hq| ->]; [auto|].
    unfold dec_ri, dbind, dlift in E.
    repeat match type of E with match ?m with Ok _ => _ | Err _ => _ end = _ => let K := fresh "K" in destruct m as [[? ?]|?] eqn:K; [|discriminate] | match ?m with Ok _ => _ | Err _ => _ end = _ => let K := fresh "K" in destruct m eqn:K; [|discriminate] end.
    inversion E; subst. do 6 eexists. eassumption. }
  specialize (S inp 0 B ltac:(pose proof (zlen_nonneg _ inp); lia)). destruct (dec_schedule inp 0) as [[s o]|e] eqn:E; [|exact S].
  unfold dec_schedule, dbind, dfuel, dret in E.
  repeat match type of E with match ?m with Ok _ => _ | Err _ => _ end = _ => let K := fresh "K" in destruct m as [[? ?]|?] eqn:K; [|discriminate] end.
  inversion E; subst. cbn [sc_white sc_black]. apply G in K1; [|constructor|constructor]. apply G in K4; [|constructor|constructor]. tauto.
Qed.

(** ** A concrete schedule *)
Example C48_ex1 : Forall writable [ex_weekly; ex_monthly; ex_black].
Proof.
  pose proof ex_usable as U.
  assert (T : forall r, usable r -> iso_range (ri_startDate r / 1000) -> iso_range (ri_endDate r / 1000) -> u64 (ri_n r) -> u64 (ri_unit r) -> writable r)
    by (intros r (M & _); unfold writable; tauto).
  inversion U as [|? ? U1 U']; inversion U' as [|? ? U2 U'']; inversion U'' as [|? ? U3 _]; subst.
  repeat apply Forall_cons; [| | |apply Forall_nil]; apply T; try assumption; vm_compute; split; first [reflexivity|discriminate].
Qed.
Example C48_ex2 : exists w, sc_wireEncode ex_sched = Ok w /\ zlen w = 150 /\ sc_wireDecode w = Ok ex_sched.
Proof. eexists. split; [vm_compute; reflexivity|]. vm_compute. split; reflexivity. Qed.

Print Assumptions C48_grammar.
Print Assumptions C48_round_trip.
Print Assumptions C48_same_decisions.
Print Assumptions C48_safe.
