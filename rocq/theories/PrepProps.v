(** * Property C52: prepared command Interests carry increasing timestamps, and are accepted *)
From Verif Require Import Base BaseLemmas TlvSpec TlvModel NameModel NameSpec NameProofs WireModel WireSpec CtlModel MatchModel WireProps SigProps CalModel CmdModel CmdSpec CmdProps.
From Coq Require Import Sorting.Sorted.
Local Open Scope res_scope.

(** ** Specification *)
(** A call prepares the name [n] at the time [now] with the random bytes given; [last] is the
    last used timestamp. *)
Definition call : Type := (Z * bytes * name)%type.
Fixpoint prepared (last : Z) (calls : list call) : list (Z * res name) :=
  match calls with
  | [] => []
  | (now, random, n) :: cs => let r := prepareCommandInterestName last now random n in r :: prepared (fst r) cs
  end.
(** the whole millisecond nearest to a time *)
Definition nearest (now ms : Z) : Prop := Z.abs (now - ms * 1000) <= 500.

Lemma round_nearest : forall x, nearest x (round1000 x).
Proof. intros x. unfold nearest, round1000. pose proof (Z.div_mod x 1000 ltac:(lia)). pose proof (Z.mod_pos_bound x 1000 ltac:(lia)). cbv zeta. destruct (x mod 1000 <? 500) eqn:A; [lia|]. destruct (500 <? x mod 1000) eqn:B; [lia|]. destruct (Z.even _); lia. Qed.
Lemma round_mono : forall x y, x <= y -> round1000 x <= round1000 y.
Proof.
  intros x y H. unfold round1000. cbv zeta. pose proof (Z.div_mod x 1000 ltac:(lia)) as Ex. pose proof (Z.mod_pos_bound x 1000 ltac:(lia)) as Bx. pose proof (Z.div_mod y 1000 ltac:(lia)) as Ey. pose proof (Z.mod_pos_bound y 1000 ltac:(lia)) as By.
  generalize dependent (x mod 1000). intros rx Ex Bx. generalize dependent (y mod 1000). intros ry Ey By. generalize dependent (x / 1000). intros qx Ex. generalize dependent (y / 1000). intros qy Ey. subst x y.
  destruct (Z_lt_le_dec qx qy).
  - destruct (rx <? 500) eqn:A1; destruct (ry <? 500) eqn:A2; destruct (500 <? rx) eqn:B1; destruct (500 <? ry) eqn:B2; destruct (Z.even qx); destruct (Z.even qy); lia.
  - assert (E : qx = qy) by lia. subst qx. destruct (rx <? 500) eqn:A1; destruct (ry <? 500) eqn:A2; destruct (500 <? rx) eqn:B1; destruct (500 <? ry) eqn:B2; destruct (Z.even qy); lia.
Qed.
Lemma bump_max : forall fuel t last, (Z.to_nat (last - t + 1) <= fuel)%nat -> bump fuel t last = Z.max t (last + 1).
Proof.
  induction fuel as [|f IH]; intros t last H; cbn [bump]; [lia|]. destruct (t <=? last) eqn:E; [|lia]. rewrite IH by lia. lia.
Qed.
(** The timestamp is the time of the clock, or one more than the last one if that is greater. *)
Theorem C52_timestamp : forall last now random n, exists ms, nearest now ms /\ fst (prepareCommandInterestName last now random n) = Z.max ms (last + 1).
Proof. intros. exists (round1000 now). split; [apply round_nearest|]. cbn [fst prepareCommandInterestName]. unfold next_timestamp. apply bump_max. lia. Qed.
Lemma stamp : forall last now random n, fst (prepareCommandInterestName last now random n) = Z.max (round1000 now) (last + 1).
Proof. intros. cbn [fst prepareCommandInterestName]. unfold next_timestamp. apply bump_max. lia. Qed.
(** The timestamps of one preparer strictly increase, whatever the clock does. *)
Theorem C52_increasing : forall calls last, StronglySorted Z.lt (last :: map fst (prepared last calls)).
Proof.
  induction calls as [|[[now random] n] cs IH]; intros last; cbn [prepared map]; [repeat constructor|]. set (t := fst (prepareCommandInterestName last now random n)). specialize (IH t).
  assert (Lt : last < t) by (unfold t; rewrite stamp; lia). constructor; [exact IH|]. inversion IH as [|? ? _ F]; subst. constructor; [exact Lt|]. eapply Forall_impl; [|exact F]. cbn beta. intros a Ha. lia.
Qed.
(** With a clock that does not go back, the timestamp is never behind it, and is ahead of it by
    no more than the number of commands so far. *)
Theorem C52_drift : forall calls start i now random n r, StronglySorted Z.le (start :: map (fun c => fst (fst c)) calls) ->
  nth_error calls i = Some (now, random, n) -> nth_error (prepared (preparer_new start) calls) i = Some r ->
  now - 500 <= fst r * 1000 <= now + 500 + (Z.of_nat i + 1) * 1000.
Proof.
  intros calls start i now random n r S N R.
  assert (Main : forall cs last d, StronglySorted Z.le (map (fun c : call => fst (fst c)) cs) -> (forall c, In c cs -> last <= round1000 (fst (fst c)) + d) -> 0 <= d ->
    forall i now random n r, nth_error cs i = Some (now, random, n) -> nth_error (prepared last cs) i = Some r -> round1000 now <= fst r <= round1000 now + d + Z.of_nat i + 1).
  { clear. induction cs as [|[[t0 rd] m] cs IH]; intros last d S L Hd i now random n r N R; [destruct i; discriminate|]. cbn [prepared map] in *. inversion S as [|? ? S' F]; subst. destruct i as [|i]; cbn [nth_error] in N, R.
    - injection N as -> -> ->. injection R as <-. rewrite stamp. pose proof (L _ (or_introl eq_refl)) as X. cbn [fst] in X. lia.
    - set (t := fst (prepareCommandInterestName last t0 rd m)) in *.
      assert (X : round1000 now <= fst r <= round1000 now + (d + 1) + Z.of_nat i + 1); [|lia]. apply (IH t (d + 1) S') with (random := random) (n := n); try assumption; [|lia].
      intros c Ic. unfold t. rewrite stamp. rewrite Forall_forall in F. assert (H0 : t0 <= fst (fst c)) by (apply F; apply in_map_iff; exists c; auto). pose proof (round_mono _ _ H0).
      pose proof (L _ (or_introl eq_refl)) as X. cbn [fst] in X. lia. }
  inversion S as [|? ? S' F]; subst. rewrite Forall_forall in F. pose proof (round_nearest now) as Rn. unfold nearest in Rn.
  assert (X : round1000 now <= fst r <= round1000 now + 0 + Z.of_nat i + 1); [|lia]. apply (Main calls (preparer_new start) 0 S') with (random := random) (n := n); try assumption; [|lia].
  intros c Ic. unfold preparer_new. rewrite Z.add_0_r. apply round_mono. apply F. apply in_map_iff. exists c. auto.
Qed.
(** The name is the given one, then the timestamp, then the random bytes. *)
Theorem C52_layout : forall last now random n, 0 <= last -> let r := prepareCommandInterestName last now random n in
  snd r = Ok (n ++ [c_generic (nonneg (fst r)); c_generic random]).
Proof.
  intros last now random n H. cbv zeta. rewrite stamp. unfold prepareCommandInterestName. cbn [snd]. assert (Lt : 0 <= next_timestamp last now) by (unfold next_timestamp; rewrite bump_max by lia; lia).
  pose proof (c_fromNumber_ok _ Lt) as C. unfold c_fromNumber in C. destruct (le_writeNonNegativeInteger (next_timestamp last now) (le_new 8)) as [e|]; [|discriminate]. cbn [rbind] in *. injection C as ->.
  unfold next_timestamp. rewrite bump_max by lia. rewrite <- app_assoc. reflexivity.
Qed.
(** A prepared and signed name is a command with that timestamp and the key of the signature. *)
Definition sig_fits (s : signature) : Prop := sig_ok s /\ zlen (siginfo s) < 2 ^ 64 /\ zlen (encodeSignatureValue s) < 2 ^ 64.
Lemma seen_locates : forall s b k, locates s k -> locates (sig_setBits (sig_seen s) b) k.
Proof.
  intros s b k (kl & T & N & D). assert (K : kl_type (kl_seen kl) = Some 1 /\ kl_name (kl_seen kl) = k) by (unfold kl_seen; rewrite T; cbn; auto).
  exists (kl_seen kl). destruct K as [K1 K2]. split; [exact K1|]. split; [exact K2|]. destruct D as [(vp & b' & ->)|[(vp & b' & ->)|(b' & ->)]]; cbn [sig_seen sig_setBits]; [left|right; left|right; right]; eauto.
Qed.
Theorem C52_command : forall last now random n s k, 0 <= last -> fst (prepareCommandInterestName last now random n) < 2 ^ 64 -> sig_fits s -> locates s k ->
  exists m, (p <-- snd (prepareCommandInterestName last now random n) ;; signName p s) = Ok m /\ command m k (fst (prepareCommandInterestName last now random n)).
Proof.
  intros last now random n s k H B (Ok' & L1 & L2) Lc. rewrite C52_layout by exact H. cbn [rbind]. unfold signName. destruct (C47_round_trip s Ok' L1 L2) as [Ee Ed]. rewrite Ee. cbn [rbind].
  eexists. split; [reflexivity|]. set (ts := fst (prepareCommandInterestName last now random n)) in *.
  exists n, (c_generic (nonneg ts)), (c_generic random), (c_generic (siginfo s)), (c_generic (encodeSignatureValue s)). eexists. rewrite <- app_assoc. split; [reflexivity|]. cbn [c_value c_generic].
  assert (0 <= ts) by (unfold ts; rewrite stamp; lia). split; [rewrite nonneg_value by assumption; apply Z.mod_small; lia|]. split; [exact Ed|]. apply seen_locates. exact Lc.
Qed.
(** The commands made one after the other with one signer and one key, and checked in this
    order with a clock within the grace period of the timestamps, are all accepted. *)
Fixpoint made (last : Z) (cs : list (call * signature)) : list (Z * name) :=
  match cs with
  | [] => []
  | ((now, random, n), s) :: cs' =>
      let r := prepareCommandInterestName last now random n in
      (fst r, match (p <-- snd r ;; signName p s) with Ok m => m | Err _ => [] end) :: made (fst r) cs'
  end.
Fixpoint history (i : nat) (ms : list (Z * name)) (ts : list (Z * Z * Z)) : list ev :=
  match ms, ts with
  | m :: ms', (t1, t2, t3) :: ts' => Check t1 t2 (snd m) :: Finish t3 i :: history (S i) ms' ts'
  | _, _ => []
  end.
Theorem C52_accepted : forall o last cs k times, 0 <= last -> (forall c, In c cs -> sig_fits (snd c) /\ locates (snd c) k) -> length times = length cs ->
  (forall m, In m (made last cs) -> fst m < 2 ^ 64) ->
  (forall i m t1 t2 t3, nth_error (made last cs) i = Some m -> nth_error times i = Some (t1, t2, t3) -> Z.abs (fst m * 1000 - t2) <= Z.max 0 (o_grace o)) ->
  forall i m, nth_error (made last cs) i = Some m -> accepted o (history 0 (made last cs) times) i k (fst m).
Proof.
  intros o last cs k times H Hs Hl Hb Hw i m N.
  assert (Main : forall cs last times h, 0 <= last -> (forall c, In c cs -> sig_fits (snd c) /\ locates (snd c) k) -> length times = length cs ->
    (forall m, In m (made last cs) -> fst m < 2 ^ 64) ->
    (forall i m t1 t2 t3, nth_error (made last cs) i = Some m -> nth_error times i = Some (t1, t2, t3) -> Z.abs (fst m * 1000 - t2) <= Z.max 0 (o_grace o)) ->
    (forall i k' ts', accepted o h i k' ts' -> ts' <= last) ->
    forall i m, nth_error (made last cs) i = Some m -> accepted o (h ++ history (length (checks h)) (made last cs) times) (length (checks h) + i) k (fst m)).
  { clear. induction cs as [|[[[now random] n] s] cs IH]; intros last times h H Hs Hl Hb Hw Ha i m N; [destruct i; discriminate|]. destruct times as [|[[t1 t2] t3] times]; [discriminate|].
    cbn [made] in *. set (r := prepareCommandInterestName last now random n) in *. cbn [history snd].
    destruct (Hs _ (or_introl eq_refl)) as [Sf Lc]. cbn [snd] in Sf, Lc.
    pose proof (Hb _ (or_introl eq_refl)) as B0. cbn [fst] in B0. destruct (C52_command last now random n s k H B0 Sf Lc) as (p & Ep & Cm). fold r in Ep, Cm. rewrite Ep in *.
    assert (W0 := Hw 0%nat (fst r, p) t1 t2 t3 eq_refl eq_refl). cbn [fst] in W0.
    assert (Lr : last < fst r) by (unfold r; rewrite stamp; lia).
    pose proof (C43_accepts o h t1 t2 p k (fst r) Cm W0) as P. specialize (P ltac:(intros j k' ts' A _; pose proof (Ha j k' ts' A); lia)).
    set (h1 := h ++ [Check t1 t2 p]) in *. set (h2 := h1 ++ [Finish t3 (length (checks h))]).
    assert (Eh : h ++ Check t1 t2 p :: Finish t3 (length (checks h)) :: history (S (length (checks h))) (made (fst r) cs) times = h2 ++ history (S (length (checks h))) (made (fst r) cs) times).
    { unfold h2, h1. rewrite <- !app_assoc. reflexivity. }
    assert (A2 : accepted o h2 (length (checks h)) k (fst r)) by (exists h1, t3, []; auto).
    assert (L2 : length (checks h2) = S (length (checks h))) by (unfold h2, h1, checks; rewrite !flat_map_app, !app_length; cbn; lia).
    rewrite Eh. destruct i as [|i].
    - cbn [nth_error] in N. injection N as <-. cbn [fst]. rewrite Nat.add_0_r. destruct A2 as (a & t & b & E & Q). exists a, t, (b ++ history (S (length (checks h))) (made (fst r) cs) times). rewrite E, <- app_assoc. auto.
    - cbn [nth_error] in N. rewrite <- L2. replace (length (checks h) + S i)%nat with (length (checks h2) + i)%nat by lia. apply (IH (fst r) times h2); try assumption.
      + lia.
      + intros c Ic. apply Hs. right. exact Ic.
      + cbn [length] in Hl. lia.
      + intros m0 Im. apply Hb. right. exact Im.
      + intros j m0 a b c Nj Nt. apply (Hw (S j) m0 a b c Nj Nt).
      + intros j k' ts' A. apply accepted_snoc in A. destruct A as [A|(t & [= <- <-] & A)].
        * apply accepted_snoc in A. destruct A as [A|(t & X & _)]; [|discriminate]. pose proof (Ha _ _ _ A). lia.
        * destruct (passed_fun o h1 (length (checks h)) k' ts' k (fst r) A P). lia. }
  pose proof (Main cs last times [] H Hs Hl Hb Hw) as M. cbn [app checks flat_map length Nat.add] in M. apply M; [|exact N]. intros j k' ts' A. apply accepted_passed in A. destruct A as (s & E & X). injection E as <-. destruct j; discriminate X.
Qed.
Definition ex_calls : list (call * signature) :=
  [((100000400, [1;2;3;4;5;6;7;8], [c_generic [99]]), ex_sig 65); ((100000450, [1;2;3;4;5;6;7;9], [c_generic [99]]), ex_sig 65); ((50, [], []), ex_sig 65)].
Example C52_ex : map fst (made (preparer_new 99000000) ex_calls) = [100000; 100001; 100002] /\ Forall (fun c => sig_fits (snd c) /\ locates (snd c) (ex_key 65)) ex_calls.
Proof.
  split; [vm_compute; reflexivity|]. assert (F : sig_fits (ex_sig 65) /\ locates (ex_sig 65) (ex_key 65)).
  { split; [split; [|split; vm_compute; reflexivity]|].
    - cbn [sig_ok ex_sig]. unfold kl_ok. cbn [kl_type kl_name]. left. split; [reflexivity|]. unfold name_ok, ex_key. repeat (apply Forall_cons; [apply gen_ok; repeat constructor; lia|]). apply Forall_nil.
    - eexists. split; [|split; [|right; right; eexists; reflexivity]]; reflexivity. }
  repeat (apply Forall_cons; [exact F|]). apply Forall_nil.
Qed.
Print Assumptions C52_timestamp.
Print Assumptions C52_increasing.
Print Assumptions C52_drift.
Print Assumptions C52_layout.
Print Assumptions C52_command.
Print Assumptions C52_accepted.
