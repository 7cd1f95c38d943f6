(** * Property C33 (PSync segment publisher) *)
From Verif Require Import Base BaseLemmas TlvModel TlvSpec TlvProofs TlvEncProofs NameModel NameSpec NameProofs WireModel MatchProps SegModel SegSpec ListAux SegProofs SegProps WireProps.
From Coq Require Import Lia.
Local Open Scope res_scope.

Lemma map_res_all {A B} (f : A -> res B) (g : A -> B) : forall l, (forall a, In a l -> f a = Ok (g a)) -> map_res f l = Ok (map g l).
Proof. induction l as [|a l IH]; intros H; [reflexivity|]. cbn [map_res map]. rewrite (H a) by now left. cbn [rbind]. rewrite IH by (intros; apply H; now right). reflexivity. Qed.
Lemma zslice_cat {A} (l : list A) a b c : 0 <= a <= b -> b <= c <= zlen l -> zslice l a b ++ zslice l b c = zslice l a c.
Proof.
  intros H1 H2. unfold zslice. rewrite !Z.min_l by lia.
  replace (Z.to_nat (c - a)) with (Z.to_nat (b - a) + Z.to_nat (c - b))%nat by lia.
  rewrite <- (firstn_skipn (Z.to_nat (b - a)) (firstn (Z.to_nat (b - a) + Z.to_nat (c - b)) (skipn (Z.to_nat a) l))).
  rewrite firstn_firstn, Nat.min_l by lia. f_equal. rewrite skipn_firstn_comm.
  replace (Z.to_nat (b - a) + Z.to_nat (c - b) - Z.to_nat (b - a))%nat with (Z.to_nat (c - b)) by lia. rewrite skipn_skipn'.
  do 2 f_equal; lia.
Qed.

Lemma segments_spec content : forall fuel b k, 0 <= b <= zlen content -> zlen content - b < Z.of_nat fuel ->
  concat (map snd (segments fuel content b k)) = zslice content b (zlen content) /\
  map fst (segments fuel content b k) = map (fun j => k + Z.of_nat j) (seq 0 (length (segments fuel content b k))) /\
  Forall (fun x => zlen (snd x) <= 4400) (segments fuel content b k) /\
  Forall (fun x => zlen (snd x) = 4400) (removelast (segments fuel content b k)) /\
  zlen (segments fuel content b k) = (if zlen content =? b then 1 else (zlen content - b + 4399) / 4400).
Proof.
  induction fuel as [|fuel IH]; intros b k Hb Hf; [exfalso; lia|]. cbn [segments]. unfold maxPacketSize.
  destruct (zlen content <? b + 4400) eqn:E1.
  - rewrite Z.ltb_irrefl. cbn [map snd fst concat length seq removelast]. rewrite app_nil_r, Z.add_0_r.
    split; [reflexivity|]. split; [reflexivity|]. split; [constructor; [cbn [snd]; rewrite zslice_length by lia; lia|constructor]|]. split; [constructor|].
    rewrite zlen_cons, zlen_nil. destruct (zlen content =? b) eqn:E2; [reflexivity|].
    change (1 + 0) with 1. apply Z.div_unique with (zlen content - b + 4399 - 4400); lia.
  - destruct (b + 4400 <? zlen content) eqn:E2.
    + destruct (IH (b + 4400) (k + 1)) as (H1 & H2 & H3 & H4 & H5); [lia|lia|]. set (r := segments fuel content (b + 4400) (k + 1)) in *.
      assert (Hr : r <> []) by (intro R; rewrite R in H5; destruct (zlen content =? b + 4400) eqn:X; [discriminate|rewrite zlen_nil in H5; assert (1 <= (zlen content - (b + 4400) + 4399) / 4400) by (apply Z.div_le_lower_bound; lia); lia]).
      cbn [map snd fst concat length seq].
      split; [rewrite H1; apply zslice_cat; lia|].
      split; [rewrite Z.add_0_r; f_equal; rewrite H2, <- seq_shift, map_map; apply map_ext; intro; lia|].
      split; [constructor; [cbn [snd]; rewrite zslice_length by lia; lia|exact H3]|].
      split; [destruct r as [|x r]; [congruence|]; change (removelast ((k, zslice content b (b + 4400)) :: x :: r)) with ((k, zslice content b (b + 4400)) :: removelast (x :: r)); constructor; [cbn [snd]; rewrite zslice_length by lia; lia|exact H4]|].
      rewrite zlen_cons. change (zlen r) with (@zlen (Z * bytes) r) in *. rewrite H5. destruct (zlen content =? b + 4400) eqn:X; [lia|]. destruct (zlen content =? b) eqn:Y; [lia|].
      replace (zlen content - b + 4399) with (1 * 4400 + (zlen content - (b + 4400) + 4399)) by lia. rewrite Z.div_add_l by lia. reflexivity.
    + assert (E : zlen content = b + 4400) by lia. cbn [map snd fst concat length seq removelast]. rewrite app_nil_r, Z.add_0_r, E.
      split; [reflexivity|]. split; [reflexivity|]. split; [constructor; [cbn [snd]; rewrite zslice_length by lia; lia|constructor]|]. split; [constructor|].
      rewrite zlen_cons, zlen_nil. destruct (b + 4400 =? b) eqn:X; [lia|]. replace (b + 4400 - b + 4399) with 8799 by lia. reflexivity.
Qed.

Lemma fromSegment_ok k : 0 <= k -> c_fromSegment k = Ok (c_generic (0 :: nonneg k)).
Proof. intro H. unfold c_fromSegment. rewrite c_fromMarker_ok; [reflexivity|exact H|unfold is_byte, MARK_SEGMENT; lia]. Qed.
Lemma fromVersion_ok k : 0 <= k -> c_fromVersion k = Ok (c_generic (253 :: nonneg k)).
Proof. intro H. unfold c_fromVersion. rewrite c_fromMarker_ok; [reflexivity|exact H|unfold is_byte, MARK_VERSION; lia]. Qed.

(** the [k]-th packet *)
Definition packet (dataName : name) (content : bytes) (freshness : option Z) (version : Z) (sig : data -> signature) (x : Z * bytes) : data :=
  let d := Data (dataName ++ [c_generic (253 :: nonneg version); c_generic (0 :: nonneg (fst x))]) (MI 0 (-1) freshness (c_generic (0 :: nonneg (zlen content / 4400)))) (Some (snd x)) (SigDigest None) in
  Data (d_name d) (d_meta d) (d_content d) (sig d).
Lemma publish_ok iname dname content fresh version sig : 0 <= version ->
  forall last_ , py_getitem iname (-1) = Ok last_ ->
  forall asked, (if c_isSegment last_ then c_toSegment last_ else Ok 0) = Ok asked ->
  let segs := segments (S (length content)) content 0 0 in
  publish iname dname content fresh version sig =
  Ok (map (packet dname content fresh version sig) segs, map (packet dname content fresh version sig) (filter (fun x => fst x =? asked) segs)).
Proof.
  intros Hv l El asked Ea segs. unfold publish. rewrite El. cbn [rbind]. rewrite Ea. cbn [rbind]. unfold maxPacketSize.
  assert (Hd : 0 <= zlen content / 4400) by (apply Z.div_pos; [apply zlen_nonneg|lia]).
  rewrite (fromSegment_ok _ Hd), (fromVersion_ok _ Hv). cbn [rbind]. fold segs.
  destruct (segments_spec content (S (length content)) 0 0) as (_ & H2 & _); [pose proof (zlen_nonneg _ content); lia|unfold zlen; lia|]. fold segs in H2.
  assert (Hp : forall x, In x segs -> 0 <= fst x).
  { intros x Hx. apply (in_map fst) in Hx. rewrite H2 in Hx. apply in_map_iff in Hx. destruct Hx as (j & <- & _). lia. }
  erewrite (map_res_all _ (fun x => (fst x, packet dname content fresh version sig x))).
  2:{ intros x Hx. rewrite fromSegment_ok by (apply Hp, Hx). cbn [rbind]. rewrite <- app_assoc. reflexivity. }
  clear H2 Hp. clearbody segs. cbn [rbind]. f_equal. f_equal.
  - rewrite map_map. reflexivity.
  - clear. induction segs as [|x segs IH]; [reflexivity|]. cbn [map filter fst]. destruct (fst x =? asked); cbn [map snd]; rewrite IH; reflexivity.
Qed.

Lemma asked_ok c : exists k, (if c_isSegment c then c_toSegment c else Ok 0) = Ok k /\ ((exists v, c_type c = 8 /\ c_value c = 0 :: v /\ k = be_value v) \/ (~ (exists v, c_type c = 8 /\ c_value c = 0 :: v) /\ k = 0)).
Proof.
  destruct (c_isSegment c) eqn:E.
  - unfold c_isSegment, c_hasMarker, MARK_SEGMENT in E. destruct (c_value c) as [|x v] eqn:Ev; [rewrite ?andb_false_r in E; discriminate|].
    apply andb_prop in E. destruct E as [E1 E2]. unfold c_isGeneric, CT_GENERIC in E2. assert (x = 0) by lia. subst x. exists (be_value v). split; [apply toSegment_iff; eauto|]. left. exists v. split; [lia|auto].
  - exists 0. split; [reflexivity|]. right. split; [|reflexivity]. intros (v & E1 & E2). unfold c_isSegment, c_hasMarker, MARK_SEGMENT, c_isGeneric in E. rewrite E2, E1 in E. discriminate.
Qed.
Lemma publish_form iname x dname content fresh version sig : 0 <= version -> exists asked, (if c_isSegment x then c_toSegment x else Ok 0) = Ok asked /\
  publish (iname ++ [x]) dname content fresh version sig =
  Ok (map (packet dname content fresh version sig) (segments (S (length content)) content 0 0), map (packet dname content fresh version sig) (filter (fun x => fst x =? asked) (segments (S (length content)) content 0 0))).
Proof.
  intro Hv. destruct (asked_ok x) as (k & Ek & _). exists k. split; [exact Ek|]. eapply publish_ok; [exact Hv|apply last_getitem|exact Ek].
Qed.

Lemma seg_is k : 0 <= k < 2 ^ 64 -> be_value (nonneg k) = k.
Proof. intro H. rewrite nonneg_value by lia. apply Z.mod_small. lia. Qed.
Lemma segs_len content : zlen (segments (S (length content)) content 0 0) = Z.max 1 ((zlen content + 4399) / 4400).
Proof.
  destruct (segments_spec content (S (length content)) 0 0) as (_ & _ & _ & _ & H); [pose proof (zlen_nonneg _ content); lia|unfold zlen; lia|].
  unfold bytes in *. rewrite H, Z.sub_0_r. pose proof (zlen_nonneg _ content). destruct (zlen content =? 0) eqn:E.
  - assert (E' : zlen content = 0) by lia. rewrite E'. reflexivity.
  - assert (1 <= (zlen content + 4399) / 4400) by (apply Z.div_le_lower_bound; lia). lia.
Qed.
Lemma segs_small content : zlen content < 2 ^ 52 -> zlen (segments (S (length content)) content 0 0) < 2 ^ 52.
Proof.
  intro H. rewrite segs_len. pose proof (zlen_nonneg _ content). assert ((zlen content + 4399) / 4400 < 2 ^ 52); [|lia].
  apply Z.div_lt_upper_bound; lia.
Qed.
Lemma segs_nth content k x : nth_error (segments (S (length content)) content 0 0) k = Some x -> fst x = Z.of_nat k /\ Z.of_nat k < zlen (segments (S (length content)) content 0 0).
Proof.
  intro H. destruct (segments_spec content (S (length content)) 0 0) as (_ & H2 & _); [pose proof (zlen_nonneg _ content); lia|unfold zlen; lia|].
  assert (Hk : (k < length (segments (S (length content)) content 0 0))%nat) by (apply nth_error_Some; congruence).
  apply (map_nth_error fst) in H. rewrite H2 in H. rewrite (map_nth_error _ _ (seq 0 _) (d := k)) in H.
  - injection H as <-. split; [lia|unfold zlen; lia].
  - rewrite (nth_error_nth' _ 0%nat) by (rewrite seq_length; exact Hk). f_equal. apply seq_nth. exact Hk.
Qed.

(** ** C33 *)
(** Publishing for an interest with a nonempty name succeeds, *)
Theorem C33_total : forall iname dname content fresh version sig, iname <> [] -> 0 <= version ->
  exists ds sent, publish iname dname content fresh version sig = Ok (ds, sent).
Proof.
  intros iname dname content fresh version sig Hi Hv. destruct iname as [|x l _] using rev_ind; [congruence|].
  destruct (publish_form l x dname content fresh version sig Hv) as (k & _ & E). rewrite E. eauto.
Qed.
Lemma ok_pair {A B} (a c : A) (b d : B) : Ok (a, b) = Ok (c, d) -> c = a /\ d = b.
Proof. intro H. now injection H. Qed.
Ltac pub H := match type of H with publish ?n ?dn ?c ?f ?v ?s = Ok _ =>
    let x := fresh "x" in let l := fresh "l" in
    destruct n as [|x l _] using rev_ind; [discriminate|];
    let k := fresh "k" in let Ek := fresh "Ek" in let E := fresh "E" in
    destruct (publish_form l x dn c f v s ltac:(assumption)) as (k & Ek & E); rewrite E in H; apply ok_pair in H; destruct H as [-> ->] end.
(** makes the segments 0, 1, ... of the content, with the version, *)
Theorem C33_segments : forall iname dname content fresh version sig ds sent, 0 <= version -> zlen content < 2 ^ 52 ->
  publish iname dname content fresh version sig = Ok (ds, sent) ->
  (exists v bs, c_fromVersion version = Ok v /\ map d_content ds = map Some bs /\ concat bs = content /\ bs <> [] /\
    Forall (fun b => zlen b <= segment_size) bs /\ Forall (fun b => zlen b = segment_size) (removelast bs) /\
    (content <> [] -> Forall (fun b => b <> []) bs) /\
    forall k d, nth_error ds k = Some d -> mi_freshness (d_meta d) = fresh /\ exists c, d_name d = dname ++ [v; c] /\ is_segment c (Z.of_nat k)).
Proof.
  intros iname dname content fresh version sig ds sent Hv Hc H. pub H.
  exists (c_generic (253 :: nonneg version)), (map snd (segments (S (length content)) content 0 0)).
  destruct (segments_spec content (S (length content)) 0 0) as (H1 & H2 & H3 & H4 & H5); [pose proof (zlen_nonneg _ content); lia|unfold zlen; lia|].
  pose proof (segs_small content Hc) as Hs. pose proof (segs_nth content) as Hn. pose proof (segs_len content) as Hl.
  set (segs := segments (S (length content)) content 0 0) in *.
  split; [now apply fromVersion_ok|]. split; [rewrite !map_map; reflexivity|]. split; [rewrite H1; apply zslice_full|].
  split; [intro X; apply map_eq_nil in X; rewrite X, zlen_nil in Hl; lia|].
  assert (R : removelast (map snd segs) = map snd (removelast segs)) by (clear; induction segs as [|x [|y l] IH]; [reflexivity|reflexivity|]; cbn [removelast map] in *; f_equal; exact IH).
  split; [apply Forall_map; exact H3|]. split; [rewrite R; apply Forall_map; exact H4|]. split.
  - intro Hne. apply Forall_forall. intros b Hb ->.
    assert (Hsg : segs <> []) by (intro X; rewrite X in Hb; contradiction).
    destruct (exists_last Hsg) as (r & x0 & Er). rewrite Er, map_app in Hb. apply in_app_or in Hb. destruct Hb as [Hb|[Hb|[]]].
    + rewrite Er, removelast_last in H4. apply in_map_iff in Hb. destruct Hb as (y & Ey & Hy). rewrite Forall_forall in H4. specialize (H4 y Hy). cbn beta in H4. unfold bytes in *. rewrite Ey, zlen_nil in H4. lia.
    + assert (L : zlen content = 4400 * zlen r).
      { apply (f_equal zlen) in H1. rewrite zslice_full in H1. rewrite <- H1, Er, map_app, concat_app. cbn [map concat]. rewrite Hb. cbn [app]. rewrite app_nil_r.
        rewrite Er, removelast_last in H4. clear - H4. induction r as [|y r IH]; [reflexivity|]. inversion H4; subst. cbn [map concat]. unfold bytes in *. rewrite zlen_app, IH by assumption. rewrite zlen_cons. lia. }
      rewrite Er, zlen_app, zlen_cons, zlen_nil, L in Hl. pose proof (zlen_nonneg _ r). replace (4400 * zlen r + 4399) with (zlen r * 4400 + 4399) in Hl by lia.
      rewrite Z.div_add_l in Hl by lia. change (4399 / 4400) with 0 in Hl. assert (zlen r = 0) by lia. apply Hne. destruct content; [reflexivity|]. rewrite zlen_cons in L. pose proof (zlen_nonneg _ content). lia.
  - intros j d Hd. rewrite nth_error_map in Hd. destruct (nth_error segs j) as [y|] eqn:Ey; [|discriminate]. injection Hd as <-. destruct (Hn j y Ey) as [F1 F2].
    split; [reflexivity|]. exists (c_generic (0 :: nonneg (fst y))). split; [reflexivity|]. split; [reflexivity|]. exists (nonneg (fst y)). split; [reflexivity|]. rewrite seg_is; lia.
Qed.
(** and the FinalBlockId of each names the last one, exactly when the content is not a positive
    multiple of 4400 bytes long (otherwise it names the next one, which does not exist). *)
Theorem C33_final : forall iname dname content fresh version sig ds sent d, 0 <= version -> zlen content < 2 ^ 52 ->
  publish iname dname content fresh version sig = Ok (ds, sent) -> In d ds ->
  exists k, final_of d k /\ (k = zlen ds - 1 <-> content = [] \/ zlen content mod segment_size <> 0) /\ (k = zlen ds <-> content <> [] /\ zlen content mod segment_size = 0).
Proof.
  intros iname dname content fresh version sig ds sent d Hv Hc H Hd. pub H. apply in_map_iff in Hd. destruct Hd as (y & <- & _).
  rewrite zlen_map, segs_len. exists (zlen content / 4400). pose proof (zlen_nonneg _ content) as Hz.
  assert (D0 : 0 <= zlen content / 4400) by (apply Z.div_pos; lia). assert (D1 : zlen content / 4400 < 2 ^ 52) by (apply Z.div_lt_upper_bound; lia).
  split; [exists (nonneg (zlen content / 4400)); split; [reflexivity|apply seg_is; lia]|]. unfold segment_size.
  pose proof (Z.div_mod (zlen content) 4400 ltac:(lia)) as Q. pose proof (Z.mod_pos_bound (zlen content) 4400 ltac:(lia)) as B.
  set (q := zlen content / 4400) in *. set (r := zlen content mod 4400) in *.
  assert (Ec : (zlen content + 4399) / 4400 = if r =? 0 then q else q + 1).
  { destruct (r =? 0) eqn:X; symmetry; [apply Z.div_unique with 4399; lia|apply Z.div_unique with (r - 1); lia]. }
  rewrite Ec. assert (N : content = [] <-> zlen content = 0).
  { destruct content; [split; reflexivity|]. rewrite zlen_cons. pose proof (zlen_nonneg _ content). split; [discriminate|lia]. }
  split; rewrite N; destruct (r =? 0) eqn:X; lia.
Qed.
(** The packet sent is the segment that the interest asks for, if there is one. *)
Theorem C33_sent : forall iname dname content fresh version sig ds sent asked d, 0 <= version -> zlen content < 2 ^ 52 ->
  publish iname dname content fresh version sig = Ok (ds, sent) -> asked_for iname asked ->
  (In d sent <-> exists k, nth_error ds k = Some d /\ Z.of_nat k = asked) /\ zlen sent <= 1.
Proof.
  intros iname dname content fresh version sig ds sent asked d Hv Hc H Ha. pub H.
  assert (Ea : k = asked).
  { destruct (asked_ok x) as (k' & Ek' & Hk'). assert (k' = k) by congruence. subst k'. destruct Ha as [(p & c & Ep & Ht & v & Ev & Eb)|[Ha ->]].
    - apply app_inj_tail in Ep. destruct Ep as [_ <-]. destruct Hk' as [(v' & _ & Ev' & ->)|[Hk' _]]; [congruence|]. exfalso. eauto.
    - destruct Hk' as [(v' & Et & Ev' & ->)|[_ ->]]; [|reflexivity]. exfalso. apply (Ha l x (be_value v') eq_refl). split; [exact Et|eauto]. }
  subst k. clear E Ek Ha. pose proof (segs_nth content) as Hn. set (segs := segments (S (length content)) content 0 0) in *. split.
  - split.
    + intro Hd. apply in_map_iff in Hd. destruct Hd as (y & <- & Hy). apply filter_In in Hy. destruct Hy as [Hy Ey]. apply In_nth_error in Hy. destruct Hy as (j & Hj).
      exists j. split; [rewrite nth_error_map, Hj; reflexivity|]. destruct (Hn j y Hj). lia.
    + intros (j & Hj & Ej). rewrite nth_error_map in Hj. destruct (nth_error segs j) as [y|] eqn:Ey; [|discriminate]. injection Hj as <-. apply in_map. apply filter_In.
      split; [eapply nth_error_In; eassumption|]. destruct (Hn j y Ey). lia.
  - rewrite zlen_map. assert (U : forall j j' y y', nth_error segs j = Some y -> nth_error segs j' = Some y' -> fst y = fst y' -> j = j') by (intros j j' y y' K K' Q; destruct (Hn _ _ K), (Hn _ _ K'); lia).
    clear Hn. clearbody segs. induction segs as [|y segs IH]; [discriminate|]. cbn [filter].
    assert (IH' : zlen (filter (fun x0 => fst x0 =? asked) segs) <= 1) by (apply IH; intros j j' z z' K K' Q; enough (S j = S j') by lia; eapply U; eassumption).
    destruct (fst y =? asked) eqn:Y; [|exact IH']. destruct (filter _ segs) as [|z r] eqn:F; [rewrite zlen_cons, zlen_nil; lia|exfalso].
    assert (Hz : In z (filter (fun x0 => fst x0 =? asked) segs)) by (rewrite F; now left). apply filter_In in Hz. destruct Hz as [Hz Q]. apply In_nth_error in Hz. destruct Hz as (j & Hj).
    assert (0%nat = S j) by (apply (U 0%nat (S j) y z); [reflexivity|exact Hj|lia]). discriminate.
Qed.

Lemma seg_feed iname dname content fresh version sig ds sent : 0 <= version -> zlen content < 2 ^ 52 ->
  publish iname dname content fresh version sig = Ok (ds, sent) -> forall k d, nth_error ds k = Some d -> segment_of d (Z.of_nat k).
Proof.
  intros Hv Hc H k d Hd. destruct (C33_segments _ _ _ _ _ _ _ _ Hv Hc H) as (v & bs & _ & _ & _ & _ & _ & _ & _ & K). destruct (K k d Hd) as (_ & c & E & Hs).
  exists (dname ++ [v]), c. rewrite <- app_assoc. auto.
Qed.
(** A segment fetcher which gets the packets completes with the content. *)
Theorem C33_fetch : forall iname dname content fresh version sig ds sent base, 0 <= version -> zlen content < 2 ^ 52 ->
  publish iname dname content fresh version sig = Ok (ds, sent) -> content = [] \/ zlen content mod segment_size <> 0 ->
  In (LComplete content) (s_log (run false (start base) (map (fun d => FData d (Ok true)) ds))).
Proof.
  intros iname dname content fresh version sig ds sent base Hv Hc H Hm.
  pose proof (seg_feed _ _ _ _ _ _ _ _ Hv Hc H) as Hs. pose proof (fun d => C33_final _ _ _ _ _ _ _ _ d Hv Hc H) as Hf.
  destruct (C33_segments _ _ _ _ _ _ _ _ Hv Hc H) as (v & bs & _ & Ec & <- & Hne & _).
  assert (Hd : ds <> []) by (intros ->; destruct bs; [congruence|discriminate]). destruct (exists_last Hd) as (ds' & d & ->).
  apply C32_completes; [exact Ec|exact Hs| |].
  - intros k d' Hk. right. destruct (Hf d') as (m & Hfm & Hm1 & _); [apply in_or_app; left; eapply nth_error_In; eassumption|].
    exists m. split; [|exact Hfm]. apply Hm1 in Hm. rewrite zlen_app, zlen_cons, zlen_nil in Hm. assert (k < length ds')%nat by (apply nth_error_Some; congruence). unfold zlen in Hm. lia.
  - destruct (Hf d) as (m & Hfm & Hm1 & _); [apply in_or_app; right; now left|]. apply Hm1 in Hm. rewrite zlen_app, zlen_cons, zlen_nil in Hm. replace (zlen ds') with m by lia. exact Hfm.
Qed.
(** But not when the length of the content is a positive multiple of 4400: then the fetcher, having
    got every segment, asks for one more, which was not published. *)
Theorem C33_multiple_refuted : forall iname dname content fresh version sig ds sent base, 0 <= version -> zlen content < 2 ^ 52 ->
  publish iname dname content fresh version sig = Ok (ds, sent) -> content <> [] -> zlen content mod segment_size = 0 ->
  let s := run false (start base) (map (fun d => FData d (Ok true)) ds) in
  existsb is_terminal (s_log s) = false /\
  exists i v c, s_wait s = Some (WInterest i) /\ c_fromVersion version = Ok v /\ i_name i = dname ++ [v; c] /\ is_segment c (zlen ds).
Proof.
  intros iname dname content fresh version sig ds sent base Hv Hc H Hne Hm.
  pose proof (seg_feed _ _ _ _ _ _ _ _ Hv Hc H) as Hs. pose proof (fun d => C33_final _ _ _ _ _ _ _ _ d Hv Hc H) as Hf.
  destruct (C33_segments _ _ _ _ _ _ _ _ Hv Hc H) as (v & bs & Ev & Ec & _ & Hb & _ & _ & _ & Hn).
  assert (Hd : ds <> []) by (intros ->; destruct bs; [congruence|discriminate]).
  assert (Hl : zlen ds < 2 ^ 52).
  { pub H. rewrite zlen_map. now apply segs_small. }
  destruct (fetch_many ds (start base) (firstInterest base) [] bs) as (i' & l & R1 & R2 & R3 & R4 & R5 & _); [reflexivity|reflexivity|exact Ec| |].
  - intros k d Hk. rewrite zlen_nil, Z.add_0_l. split; [now apply Hs|]. right. destruct (Hf d) as (m & Hfm & _ & Hm1); [eapply nth_error_In; eassumption|].
    exists m. split; [|exact Hfm]. destruct Hm1 as [_ Hm1]. rewrite Hm1 by auto. assert (k < length ds)%nat by (apply nth_error_Some; congruence). unfold zlen. lia.
  - cbn zeta. unfold feed in *. rewrite R3. split.
    + change (s_log (start base)) with [LExpress (firstInterest base)]. cbn [app existsb is_terminal orb]. clear. induction l; [reflexivity|assumption].
    + destruct (R5 Hd) as (i0 & d0 & _ & Hin & Hj). rewrite zlen_nil, Z.add_0_l in Hj. destruct (nextInterest_ok i0 (d_name d0) (zlen ds) (zlen_nonneg _ _)) as (c & E & Ecs).
      rewrite E in Hj. injection Hj as <-. apply In_nth_error in Hin. destruct Hin as (k & Hk). destruct (Hn k d0 Hk) as (_ & c0 & E0 & _).
      eexists _, v, c. split; [exact R2|]. split; [exact Ev|]. cbn [i_name]. split.
      * rewrite E0. change [v; c0] with ([v] ++ [c0]). rewrite app_assoc, removelast_last, <- app_assoc. reflexivity.
      * rewrite fromSegment_ok in Ecs by apply zlen_nonneg. injection Ecs as <-. split; [reflexivity|]. eexists. split; [reflexivity|]. apply seg_is. pose proof (zlen_nonneg _ ds). lia.
Qed.

(** The hypotheses hold: 10000 bytes make three segments. *)
Example C33_example : exists ds sent, publish (ex_name ++ [c_generic [0; 1]]) ex_name (repeat 7 (Z.to_nat 10000)) (Some 1000) 1600000000000 (fun _ => SigDigest None) = Ok (ds, sent) /\
  map (fun d => option_map zlen (d_content d)) ds = [Some 4400; Some 4400; Some 1200] /\ map (fun d => option_map zlen (d_content d)) sent = [Some 4400].
Proof. eexists _, _. split; [vm_compute; reflexivity|split; vm_compute; reflexivity]. Qed.
Print Assumptions C33_total.
Print Assumptions C33_segments.
Print Assumptions C33_final.
Print Assumptions C33_sent.
Print Assumptions C33_fetch.
Print Assumptions C33_multiple_refuted.
