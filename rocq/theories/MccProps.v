(** * Property C31: the memory content cache *)
From Verif Require Import Base BaseLemmas NameModel NameSpec NameProofs UriModel WireModel MatchModel MatchProofs MatchProps MccModel MccSpec ListAux MccProofs MccProofs2.
From Coq Require Import Lia Sorted.

Section Mcc.
Variable enc : data -> res bytes.
Variable interval : Z.
Hypothesis interval_ok : 0 <= interval.
Notation step := (step enc interval). Notation run := (run enc interval). Notation init := (init interval).

(** A reply is an added packet which matches the interest, is fresh if the interest asks for it, is
    past its removal time by less than the cleanup interval, and no packet which is still to be kept
    and could be the answer is further to the left, or right, as the child selector asks. *)
Theorem C31_reply : forall t0 os p i f now fails b, timed t0 (os ++ [MInterest p i f now fails]) ->
  s_log (run (init t0) (os ++ [MInterest p i f now fails])) = s_log (run (init t0) os) ++ [LReply i f b now] ->
  exists d t m, added os d t m /\ enc d = Ok b /\ eligible i d t now /\
    (forall fr, period d = Some fr -> now < t + Z.max fr m + interval) /\
    (forall cs d' t' m' b', i_child i = Some cs -> added os d' t' m' -> enc d' = Ok b' -> live d' t' m' now -> eligible i d' t' now ->
       if cs =? 0 then ~ key_lt (child i d') (child i d) else ~ key_lt (child i d) (child i d')).
Proof.
  intros t0 os p i f now fails b Ht. apply timed_snoc in Ht. cbn [op_time] in Ht. destruct Ht as [Ht Hc].
  rewrite run_snoc. cbn [MccModel.step]. unfold onInterest. set (s := run (init t0) os). destruct (cleanup_rest interval s now) as (_ & _ & _ & El & _).
  pose proof (fun x => items_from enc interval t0 os now x interval_ok Ht Hc) as Hfrom. pose proof (fun d t m b => items_has enc interval t0 os now d t m b interval_ok Ht Hc) as Hhas.
  fold s in Hfrom, Hhas. set (s1 := doCleanup interval s now) in *.
  assert (Nil : forall h : list event, s_log s ++ h = s_log s ++ [LReply i f b now] -> h = [LReply i f b now]) by (intros h H; now apply app_inv_head in H).
  destruct (scan i None (items s1 now)) as [[b0|]|x] eqn:Es.
  - destruct fails; cbn [logs s_log]; rewrite El; intro H; apply Nil in H; [discriminate|]. injection H as ->.
    destruct (i_child i) as [cs|] eqn:Ec.
    + destruct (scan_best i cs Ec _ _ _ Es) as (k & [(c & K & _)|(n & fr & Hin & Hok & ->)] & _ & Hbest); [discriminate|].
      destruct (Hfrom _ Hin) as (d & t & m & b' & Ha & He & E & Hr). unfold item_of in E. injection E as -> <- E. exists d, t, m. split; [exact Ha|]. split; [exact He|].
      split; [apply (item_ok i now d t b); unfold item_of; rewrite <- E; exact Hok|]. split; [exact Hr|].
      intros cs' d' t' m' b' Hcs Ha' He' Hl' Hel'. injection Hcs as <-. specialize (Hbest _ _ _ (Hhas d' t' m' b' Ha' He' Hl') (proj2 (item_ok i now d' t' b') Hel')).
      unfold better in Hbest. unfold child. destruct (cs =? 0); exact Hbest.
    + destruct (scan_some i _ _ _ Es) as [(c & K)|(n & fr & Hin & Hok)]; [discriminate|].
      destruct (Hfrom _ Hin) as (d & t & m & b' & Ha & He & E & Hr). unfold item_of in E. injection E as -> <- E. exists d, t, m. split; [exact Ha|]. split; [exact He|].
      split; [apply (item_ok i now d t b); unfold item_of; rewrite <- E; exact Hok|]. split; [exact Hr|]. discriminate.
  - destruct (lookup _ _); cbn [logs s_log]; rewrite El; [intro H; apply Nil in H; discriminate|]. intro H. apply (f_equal (@length _)) in H. rewrite app_length in H. cbn in H. lia.
  - cbn [logs s_log]. rewrite El. intro H. apply Nil in H. discriminate.
Qed.

(** Without a child selector, and among the packets which go stale, the reply is one that goes first. *)
Theorem C31_first : forall t0 os p i f now fails b, timed t0 (os ++ [MInterest p i f now fails]) -> i_child i = None ->
  s_log (run (init t0) (os ++ [MInterest p i f now fails])) = s_log (run (init t0) os) ++ [LReply i f b now] ->
  exists d t m, added os d t m /\ enc d = Ok b /\ eligible i d t now /\
    forall d' t' m' b' fr', added os d' t' m' -> enc d' = Ok b' -> live d' t' m' now -> eligible i d' t' now -> period d' = Some fr' ->
      exists fr, period d = Some fr /\ t + Z.max fr m <= t' + Z.max fr' m'.
Proof.
  intros t0 os p i f now fails b Ht Ec. apply timed_snoc in Ht. cbn [op_time] in Ht. destruct Ht as [Ht Hc].
  rewrite run_snoc. cbn [MccModel.step]. unfold onInterest. set (s := run (init t0) os). destruct (cleanup_rest interval s now) as (_ & _ & _ & El & _).
  pose proof (inv_run enc interval t0 os interval_ok Ht) as I. destruct (cleanup_inv enc interval t0 os _ now I Hc interval_ok) as (C1 & _ & C3 & _ & C5 & C6).
  fold s in I, C1, C3, C5, C6. set (s1 := doCleanup interval s now) in *.
  assert (Nil : forall h : list event, s_log s ++ h = s_log s ++ [LReply i f b now] -> h = [LReply i f b now]) by (intros h H; now apply app_inv_head in H).
  destruct (scan i None (items s1 now)) as [[b0|]|x] eqn:Es.
  - destruct fails; cbn [logs s_log]; rewrite El; intro H; apply Nil in H; [discriminate|]. injection H as ->.
    destruct (scan_first i Ec _ _ Es) as (l1 & n & fr & l2 & E & Hok & Hno). unfold items in E.
    assert (Hsplit : (exists c ls1 ls2, s_stale s1 = ls1 ++ c :: ls2 /\ (n, b, fr) = (k_name c, k_enc c, now <? k_expiry c) /\ forall c', In c' ls1 -> ~ ok i (k_name c', k_enc c', now <? k_expiry c')) \/
                     (exists c, In c (s_plain s1) /\ (n, b, fr) = (p_name c, p_enc c, true) /\ forall c', In c' (s_stale s1) -> ~ ok i (k_name c', k_enc c', now <? k_expiry c'))).
    { clear -E Hno. revert l1 E Hno. induction (s_stale s1) as [|c st IH]; intros l1 E Hno; cbn [map app] in E.
      - right. assert (Hin : In (n, b, fr) (map (fun c => (p_name c, p_enc c, true)) (s_plain s1))) by (rewrite E; apply in_or_app; right; now left).
        apply in_map_iff in Hin. destruct Hin as (c & Hc & Hin). exists c. split; [exact Hin|]. split; [now symmetry|intros ? []].
      - destruct l1 as [|y l1]; cbn [app] in E; pose proof (f_equal (@tl _) E) as E'; pose proof (f_equal (@hd_error _) E) as Eh; cbn [tl hd_error] in E', Eh.
        { left. exists c, [], st. split; [reflexivity|]. split; [congruence|intros ? []]. }
        assert (Ey : y = (k_name c, k_enc c, now <? k_expiry c)) by congruence. subst y.
        destruct (IH l1 E') as [(c0 & ls1 & ls2 & Hs & Hn & Hb)|(c0 & Hin & Hn & Hb)]; [intros; apply Hno; now right| |].
        + left. exists c0, (c :: ls1), ls2. cbn. rewrite Hs. split; [reflexivity|]. split; [exact Hn|]. intros c' [<-|Hc']; [apply Hno; now left|now apply Hb].
        + right. exists c0. split; [exact Hin|]. split; [exact Hn|]. intros c' [<-|Hc']; [apply Hno; now left|now apply Hb]. }
    assert (Hstale : forall d' t' m' b' fr', added os d' t' m' -> enc d' = Ok b' -> live d' t' m' now -> eligible i d' t' now -> period d' = Some fr' ->
      let c' := Stale (d_name d') b' (t' + Z.max fr' m') (t' + fr') in In c' (s_stale s1) /\ ok i (k_name c', k_enc c', now <? k_expiry c')).
    { intros d' t' m' b' fr' Ha He Hl Hel Hp c'. split.
      - specialize (Hl _ Hp). destruct (i_stale_has _ _ _ _ _ I _ _ _ _ _ Ha Hp He) as [K|K]; [apply C6; [exact K|cbn; lia]|lia].
      - apply (item_ok i now d' t' b') in Hel. unfold item_of in Hel. rewrite Hp in Hel. exact Hel. }
    destruct Hsplit as [(c & ls1 & ls2 & Hs & Hn & Hb)|(c & Hin & Hn & Hb)].
    + assert (Hin : In c (s_stale s1)) by (rewrite Hs; apply in_or_app; right; now left).
      destruct (C5 c Hin) as (Hin' & _). apply (i_stale _ _ _ _ _ I) in Hin'. destruct Hin' as (d & t & m & f0 & Ha & Hp & He & Ecc). injection Hn as -> -> ->.
      exists d, t, m. split; [exact Ha|]. split; [exact He|]. split.
      * apply (item_ok i now d t (k_enc c)). unfold item_of. rewrite Hp. rewrite Ecc in Hok. exact Hok.
      * intros d' t' m' b' fr' Ha' He' Hl' Hel' Hp'. exists f0. split; [exact Hp|].
        destruct (Hstale _ _ _ _ _ Ha' He' Hl' Hel' Hp') as [Hi' Ho']. cbn zeta in Hi', Ho'. rewrite Hs in Hi', C1.
        destruct (ss_app_inv _ _ _ C1) as (_ & Hss & _). inversion Hss as [|? ? _ Hf]; subst. rewrite Forall_forall in Hf.
        apply in_app_or in Hi'. destruct Hi' as [Hi'|[Hi'|Hi']]; [exfalso; eapply Hb; eassumption|apply (f_equal k_removal) in Ecc; rewrite Hi' in Ecc; cbn in Ecc; lia|].
        specialize (Hf _ Hi'). rewrite Ecc in Hf. cbn in Hf. exact Hf.
    + rewrite C3 in Hin. apply (i_plain _ _ _ _ _ I) in Hin. destruct Hin as (d & t & m & Ha & Hp & He & Ecc). injection Hn as -> -> ->.
      exists d, t, m. split; [exact Ha|]. split; [exact He|]. split.
      * apply (item_ok i now d t (p_enc c)). unfold item_of. rewrite Hp, <- Ecc. exact Hok.
      * intros d' t' m' b' fr' Ha' He' Hl' Hel' Hp'. destruct (Hstale _ _ _ _ _ Ha' He' Hl' Hel' Hp') as [Hi' Ho']. exfalso. eapply Hb; eassumption.
  - destruct (lookup _ _); cbn [logs s_log]; rewrite El; [intro H; apply Nil in H; discriminate|]. intro H. apply (f_equal (@length _)) in H. rewrite app_length in H. cbn in H. lia.
  - cbn [logs s_log]. rewrite El. intro H. apply Nil in H. discriminate.
Qed.

(** If a packet which is still to be kept can be the answer then there is a reply (or face.send raised). *)
Theorem C31_found : forall t0 os p i f now fails d t m b, timed t0 (os ++ [MInterest p i f now fails]) ->
  (forall d t m, added os d t m -> exists r, i_matchesName i (d_name d) = Ok r) ->
  added os d t m -> enc d = Ok b -> live d t m now -> eligible i d t now ->
  exists b', s_log (run (init t0) (os ++ [MInterest p i f now fails])) = s_log (run (init t0) os) ++ [if fails then LRaise OtherError else LReply i f b' now].
Proof.
  intros t0 os p i f now fails d t m b Ht Hm Ha He Hl Hel. apply timed_snoc in Ht. cbn [op_time] in Ht. destruct Ht as [Ht Hc].
  rewrite run_snoc. cbn [MccModel.step]. unfold onInterest. set (s := run (init t0) os). destruct (cleanup_rest interval s now) as (_ & _ & _ & El & _).
  pose proof (fun x => items_from enc interval t0 os now x interval_ok Ht Hc) as Hfrom. pose proof (items_has enc interval t0 os now d t m b interval_ok Ht Hc Ha He Hl) as Hhas.
  fold s in Hfrom, Hhas. set (s1 := doCleanup interval s now) in *. apply (item_ok i now d t b) in Hel.
  destruct (scan_total i (items s1 now) None) as (r & Es); [intros x Hx; destruct (Hfrom x Hx) as (d' & t' & m' & b' & Ha' & _ & -> & _); cbn; eauto|].
  rewrite Es. destruct r as [b'|]; [exists b'; destruct fails; cbn [logs s_log]; now rewrite El|].
  exfalso. destruct (i_child i) as [cs|] eqn:Ec.
  - destruct (scan_best i cs Ec _ _ _ Es) as [_ H]. eapply H; eassumption.
  - pose proof (scan_first i Ec _ _ Es) as H. cbn in H. eapply H; eassumption.
Qed.

(** If no added packet can be the answer then the callback of the prefix is called, when there is one. *)
Theorem C31_not_found : forall t0 os p i f now fails, timed t0 (os ++ [MInterest p i f now fails]) ->
  (forall d t m, added os d t m -> exists r, i_matchesName i (d_name d) = Ok r) ->
  (forall d t m, added os d t m -> ~ eligible i d t now) ->
  s_log (run (init t0) (os ++ [MInterest p i f now fails])) = s_log (run (init t0) os) ++
    match handler os (n_toUri p false) with Some h => [LNotFound h i f] | None => [] end.
Proof.
  intros t0 os p i f now fails Ht Hm Hno. apply timed_snoc in Ht. cbn [op_time] in Ht. destruct Ht as [Ht Hc].
  rewrite run_snoc. cbn [MccModel.step]. unfold onInterest. set (s := run (init t0) os). destruct (cleanup_rest interval s now) as (Eh & _ & _ & El & _).
  pose proof (fun x => items_from enc interval t0 os now x interval_ok Ht Hc) as Hfrom.
  rewrite <- (handler_inv enc interval t0 os). fold s. rewrite <- Eh. fold s in Hfrom. set (s1 := doCleanup interval s now) in *.
  destruct (scan_total i (items s1 now) None) as (r & Es); [intros x Hx; destruct (Hfrom x Hx) as (d' & t' & m' & b' & Ha' & _ & -> & _); cbn; eauto|].
  rewrite Es. destruct r as [b'|].
  - exfalso. destruct (scan_some i _ _ _ Es) as [(c & K)|(n & fr & Hin & Hok)]; [discriminate|].
    destruct (Hfrom _ Hin) as (d & t & m & b & Ha & _ & E & _). rewrite E in Hok. apply item_ok in Hok. eapply Hno; eassumption.
  - destruct (lookup _ _); cbn [logs s_log]; rewrite El; [reflexivity|now rewrite app_nil_r].
Qed.

(** The callback is only called when no packet which is still to be kept can be the answer. *)
Theorem C31_not_found_only : forall t0 os p i f now fails h, timed t0 (os ++ [MInterest p i f now fails]) ->
  s_log (run (init t0) (os ++ [MInterest p i f now fails])) = s_log (run (init t0) os) ++ [LNotFound h i f] ->
  handler os (n_toUri p false) = Some h /\
  forall d t m b, added os d t m -> enc d = Ok b -> live d t m now -> ~ eligible i d t now.
Proof.
  intros t0 os p i f now fails h Ht. apply timed_snoc in Ht. cbn [op_time] in Ht. destruct Ht as [Ht Hc].
  rewrite run_snoc. cbn [MccModel.step]. unfold onInterest. set (s := run (init t0) os). destruct (cleanup_rest interval s now) as (Eh & _ & _ & El & _).
  pose proof (fun d t m b => items_has enc interval t0 os now d t m b interval_ok Ht Hc) as Hhas.
  rewrite <- (handler_inv enc interval t0 os). fold s. rewrite <- Eh. fold s in Hhas. set (s1 := doCleanup interval s now) in *.
  assert (Nil : forall e : list event, s_log s ++ e = s_log s ++ [LNotFound h i f] -> e = [LNotFound h i f]) by (intros e H; now apply app_inv_head in H).
  destruct (scan i None (items s1 now)) as [[b0|]|x] eqn:Es.
  - destruct fails; cbn [logs s_log]; rewrite El; intro H; apply Nil in H; discriminate.
  - destruct (lookup _ _) as [h'|]; cbn [logs s_log]; rewrite El; [|intro H; apply (f_equal (@length _)) in H; rewrite app_length in H; cbn in H; lia].
    intro H. apply Nil in H. injection H as ->. split; [reflexivity|]. intros d t m b Ha He Hl Hel. apply (item_ok i now d t b) in Hel.
    destruct (i_child i) as [cs|] eqn:Ec.
    + destruct (scan_best i cs Ec _ _ _ Es) as [_ H]. eapply H; [eapply Hhas; eassumption|exact Hel].
    + pose proof (scan_first i Ec _ _ Es) as H. cbn in H. eapply H; [eapply Hhas; eassumption|exact Hel].
  - cbn [logs s_log]. rewrite El. intro H. apply Nil in H. discriminate.
Qed.

(** Replies and callbacks come only from an interest, one for one. *)
Theorem C31_only_interests : forall t0 os e, In e (s_log (run (init t0) os)) -> match e with LReply _ _ _ _ | LNotFound _ _ _ => True | _ => False end ->
  exists os1 p i f now fails os2, os = os1 ++ MInterest p i f now fails :: os2 /\
    s_log (run (init t0) (os1 ++ [MInterest p i f now fails])) = s_log (run (init t0) os1) ++ [e].
Proof.
  intros t0 os e. induction os as [|o os IH] using rev_ind; [intros []|]. intros Hin He. rewrite run_snoc in Hin. set (s := run (init t0) os) in *.
  assert (Old : In e (s_log s) -> exists os1 p i f now fails os2, os ++ [o] = os1 ++ MInterest p i f now fails :: os2 /\
    s_log (run (init t0) (os1 ++ [MInterest p i f now fails])) = s_log (run (init t0) os1) ++ [e]).
  { intro Hi. destruct (IH Hi He) as (os1 & p & i & f & now & fails & os2 & -> & E). exists os1, p, i, f, now, fails, (os2 ++ [o]). rewrite <- app_assoc. auto. }
  destruct o as [d now fails|p i f now fails|i f now|m|p h|]; try (apply Old; exact Hin).
  - destruct (add_pend enc interval s d now fails) as (stay & l & x & Ea & _ & E2). cbn [MccModel.step] in Hin. destruct (enc d) as [b|ex].
    + destruct E2 as [_ E2]. rewrite E2 in Hin. apply in_app_or in Hin. destruct Hin as [Hin|Hin]; [auto|]. apply in_app_or in Hin. destruct Hin as [Hin|Hin].
      * destruct (answer_spec enc interval _ _ _ _ _ _ _ _ Ea) as (_ & H2 & _). destruct (H2 _ Hin) as (q & -> & _). contradiction.
      * destruct x; [destruct Hin as [<-|[]]; contradiction|destruct Hin].
    + destruct E2 as [_ E2]. rewrite E2 in Hin. apply in_app_or in Hin. destruct Hin as [Hin|[<-|[]]]; [auto|contradiction].
  - destruct (cleanup_rest interval s now) as (_ & _ & _ & El & _).
    assert (H : exists l, s_log (step s (MInterest p i f now fails)) = s_log s ++ l /\ (length l <= 1)%nat).
    { cbn [MccModel.step]. unfold onInterest. destruct (scan _ _ _) as [[b|]|x]; [destruct fails|destruct (lookup (n_toUri p false) (s_handlers (doCleanup interval s now)))|]; cbn [logs s_log]; rewrite El;
      [eexists; split; [reflexivity|cbn; lia]..|exists []; split; [now rewrite app_nil_r|cbn; lia]|eexists; split; [reflexivity|cbn; lia]]. }
    destruct H as (l & H & Hl). rewrite H in Hin. apply in_app_or in Hin. destruct Hin as [Hin|Hin]; [auto|].
    assert (E : l = [e]) by (destruct l as [|e' [|]]; cbn in Hl; [destruct Hin|destruct Hin as [<-|[]]; reflexivity|lia]). subst l.
    exists os, p, i, f, now, fails, []. rewrite run_snoc. auto.
  - destruct h; apply Old; exact Hin.
Qed.

(** A stored interest gets data at most once, *)
Theorem C31_stored_once : forall t0 os n, (length (filter (sent_to n) (s_log (run (init t0) os))) <= 1)%nat.
Proof. intros t0 os n. pose proof (p_once _ _ _ _ (pinv_run enc interval t0 os) n) as H. unfold cnt in H. lia. Qed.
(** from a packet added after it was stored and before its lifetime is over, which matches it, *)
Theorem C31_stored_sound : forall t0 os q b now, In (LPend q b now) (s_log (run (init t0) os)) ->
  exists os1 d fails os2, os = os1 ++ MAdd d now fails :: os2 /\ nth_store (q_ser q) os1 = Some (q_int q, q_face q, q_timeout q) /\
    enc d = Ok b /\ i_matchesName (q_int q) (d_name d) = Ok true /\ now < q_timeout q.
Proof.
  intros t0 os q b now H. destruct (p_sent _ _ _ _ (pinv_run enc interval t0 os) _ _ _ H) as (_ & H2 & os1 & d & fa & os2 & H3 & H4 & H5 & H6).
  exists os1, d, fa, os2. unfold info in H4. auto.
Qed.
(** and does get the first such packet. *)
Theorem C31_stored_answered : forall t0 os d now fails n i f to b, timed t0 (os ++ [MAdd d now fails]) ->
  nth_store n os = Some (i, f, to) -> now < to -> i_matchesName i (d_name d) = Ok true -> enc d = Ok b ->
  (forall n i f to, nth_store n os = Some (i, f, to) -> exists r, i_matchesName i (d_name d) = Ok r) -> (forall face, fails face = false) ->
  length (filter (sent_to n) (s_log (run (init t0) os))) = 0%nat ->
  In (LPend (Pending n i f to) b now) (s_log (run (init t0) (os ++ [MAdd d now fails]))).
Proof.
  intros t0 os d now fails n i f to b Ht Hn Hto Hm He Hall Hf H0. apply timed_snoc in Ht. cbn [op_time] in Ht. destruct Ht as [Ht Hc].
  pose proof (pinv_run enc interval t0 os) as P. rewrite run_snoc. set (s := run (init t0) os) in *.
  destruct (p_kept _ _ _ _ P Ht _ _ _ _ Hn) as [K|[K|K]]; [|unfold cnt in K; lia|lia].
  destruct (add_pend enc interval s d now fails) as (stay & l & x & Ea & _ & E2). rewrite He in Ea, E2. destruct E2 as [_ E2]. cbn [MccModel.step]. rewrite E2.
  destruct (answer_spec enc interval _ _ _ _ _ _ _ _ Ea) as (_ & _ & _ & _ & H5). destruct H5 as [_ H5]; [|exact Hf|].
  - intros q Hq. rewrite <- in_rev in Hq. apply (p_info _ _ _ _ P) in Hq. unfold info in Hq. eauto.
  - apply in_or_app. right. apply in_or_app. left. apply H5; [now rewrite <- in_rev|split; [exact Hto|exact Hm]].
Qed.
End Mcc.

(** ** A concrete history *)
Definition mx_enc (d : data) : res bytes := match d_content d with Some b => Ok b | None => Err ValueError end.
Definition mx_data (last : Z) (freshness : option Z) : data := Data [c_generic [120]; c_generic [last]] (MI 0 0 freshness (c_generic [])) (Some [last]) (SigDigest (Some [])).
Definition mx_int (child : option Z) (fresh : bool) : interest := Interest [c_generic [120]] None None (KL None [] None) [] child fresh None (Some 100) [] None None None.
Definition mx_ops : list op :=
  [MFilter [c_generic [120]] (Some 7); MInterest [c_generic [120]] (mx_int None false) 1 5 false; MStore (mx_int None false) 1 6;
   MAdd (mx_data 66 (Some 50)) 10 (fun _ => false); MSetMin 500; MAdd (mx_data 65 (Some 10)) 20 (fun _ => false); MAdd (mx_data 67 None) 30 (fun _ => false);
   MInterest [c_generic [120]] (mx_int (Some 0) false) 1 40 false; MInterest [c_generic [120]] (mx_int (Some 0) true) 1 41 false;
   MInterest [c_generic [120]] (mx_int (Some 1) false) 1 42 false; MInterest [c_generic [120]] (mx_int None false) 1 43 false;
   MInterest [c_generic [120]] (mx_int (Some 0) true) 1 100 false].
Example C31_example : timed 0 mx_ops /\ map (fun e => match e with LReply _ _ b _ => b | LNotFound h _ _ => [h] | LPend q b _ => Z.of_nat (q_ser q) :: b | LRaise _ => [] end) (s_log (run mx_enc 1000 (init 1000 0) mx_ops))
  = [[7]; [0; 66]; [65]; [66]; [67]; [66]; [67]].
Proof. split; [cbn; lia|vm_compute; reflexivity]. Qed.
Print Assumptions C31_reply. Print Assumptions C31_first. Print Assumptions C31_found. Print Assumptions C31_not_found. Print Assumptions C31_not_found_only.
Print Assumptions C31_only_interests. Print Assumptions C31_stored_once. Print Assumptions C31_stored_sound. Print Assumptions C31_stored_answered.
