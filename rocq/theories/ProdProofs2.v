(** * Proofs about the producer: the invariant of the key requests *)
From Verif Require Import Base BaseLemmas NameModel NameSpec NameProofs DictModel DictProofs WireModel WireSpec WireProps BlobModel CalModel CalProps CtlModel CtlSpec EncrModel GmModel GmSpec GmProofs3 ExclModel ExclSpec ProdModel ProdSpec ProdProofs.
Local Open Scope res_scope.

Lemma answers_app c t u : answers c (t ++ u) = answers c t ++ answers c u.
Proof. unfold answers. now rewrite flat_map_app. Qed.
Lemma answers_one c c' l : answers c [PEncrypted c' l] = if c' =? c then [l] else [].
Proof. cbn. now rewrite app_nil_r. Qed.
Notation at_slot ts := (fun x : Z * name => fst x =? ts).
Notation slot_tokens ts tok := (zlen (filter (at_slot ts) tok)).
Lemma tokens_app ts a b : slot_tokens ts (a ++ b) = slot_tokens ts a + slot_tokens ts b.
Proof. rewrite filter_app, zlen_app. reflexivity. Qed.
Lemma tokens_one ts ts' n : slot_tokens ts [(ts', n)] = if ts' =? ts then 1 else 0.
Proof. cbn. destruct (ts' =? ts); reflexivity. Qed.
Lemma tokens_cut ts a ts' n b : slot_tokens ts (a ++ (ts', n) :: b) = slot_tokens ts (a ++ b) + (if ts' =? ts then 1 else 0).
Proof. change ((ts', n) :: b) with ([(ts', n)] ++ b). rewrite !tokens_app, tokens_one. lia. Qed.
Lemma tokens_none ts tok n : In (ts, n) tok -> 0 < slot_tokens ts tok.
Proof. intro I. apply in_split in I. destruct I as (a & b & ->). rewrite tokens_cut, Z.eqb_refl. pose proof (zlen_nonneg _ (filter (at_slot ts) (a ++ b))). lia. Qed.
Lemma in_cut A (x y : A) a b : In y (a ++ b) -> In y (a ++ x :: b).
Proof. intro I. apply in_app_or in I. apply in_or_app. destruct I as [I|I]; [now left|right; now right]. Qed.

Section Producer.
Variable rsa_enc : bytes -> bytes -> Z -> Z -> rsa_out.
Variable aes_enc : bytes -> bytes -> Z -> bytes -> res bytes.
Variables prefix dataType : name.
Hypothesis Hp : name_ok prefix.
Hypothesis Hd : name_ok dataType.
Notation is_node := (is_node prefix dataType).
Notation sealed_packet := (sealed_packet rsa_enc aes_enc prefix dataType).
Notation sealed_packets := (sealed_packets rsa_enc aes_enc prefix dataType).
Notation all_nodes := (all_nodes prefix dataType).

(** A token (time slot, node) stands for an outstanding Interest, or for a node that createContentKey has
    not come to yet. [cl]: nothing has gone wrong. [t] is all that was done. *)
Definition info_ok (l : list pevent) (n : name) (k : kinfo) : Prop :=
  k = KInfo 0 0 None \/ exists i m cb ce b, In (i, m ++ [cb; ce], b) (received l) /\ i_name i = n /\ names_time cb (k_begin k) /\ names_time ce (k_end k) /\ k_bits k = Some b.
Definition keys_ok (full : Prop) (l : list pevent) (s : start) (tok : list (Z * name)) (xs : list cpkt) : Prop :=
  exists ns, NoDup ns /\ Forall is_node ns /\ Forall2 (sealed_packet l s) ns xs /\ (forall n, In n ns -> ~ In (s_ts s, n) tok) /\
    (full -> forall n, is_node n -> In n ns \/ In (s_ts s, n) tok \/ failed l s n).
Record J (cl : bool) (l : list pevent) (st : list start) (tok : list (Z * name)) (t : list pact) (p : prod) : Prop := {
  j_tok : NoDup tok;
  j_live : forall ts n, In (ts, n) tok -> is_node n /\ exists q, dget Z.eqb (pr_reqs p) ts = Some q;
  j_uniq : uniq (pr_reqs p);
  j_req : forall ts q, dget Z.eqb (pr_reqs p) ts = Some q -> exists s, In s st /\ s_ts s = ts /\ (s_wants s = true -> dataType <> [] -> q_count q <> 0) /\
            slot_tokens ts tok <= q_count q /\ (cl = true -> slot_tokens ts tok = q_count q) /\ keys_ok (slot_tokens ts tok = q_count q) l s tok (q_keys q);
  j_call : forall s, In s st -> (exists q, dget Z.eqb (pr_reqs p) (s_ts s) = Some q) /\ answers (s_call s) t = [] \/
            dget Z.eqb (pr_reqs p) (s_ts s) = None /\ s_wants s = true /\ exists xs, answers (s_call s) t = [xs] /\ sealed_packets l s xs;
  j_other : forall c, answers c t <> [] -> exists s, In s st /\ s_call s = c;
  j_hours : NoDup (map (fun s => hour_of (s_ts s)) st);
  j_calls : NoDup (map s_call st);
  j_db : forall s, In s st -> dget Z.eqb (pr_db p) (hour_of (s_ts s)) = Some (s_key s);
  j_nodes : dkeys (pr_infos p) = all_nodes;
  j_infos : forall n k, In (n, k) (pr_infos p) -> info_ok l n k
}.
Lemma map_inj {A B} (f : A -> B) l x y : NoDup (map f l) -> In x l -> In y l -> f x = f y -> x = y.
Proof.
  induction l as [|z l IH]; intros N I J E; [destruct I|]. cbn [map] in N. inversion N as [|? ? N1 N2]; subst. destruct I as [->|I], J as [->|J]; [reflexivity| | |now apply IH].
  - exfalso. apply N1. rewrite E. now apply in_map.
  - exfalso. apply N1. rewrite <- E. now apply in_map.
Qed.
Lemma J_slot cl l st tok t p s s' : J cl l st tok t p -> In s st -> In s' st -> s_ts s = s_ts s' -> s = s'.
Proof. intros HJ A B E. apply (map_inj (fun s => hour_of (s_ts s)) st); [apply (j_hours _ _ _ _ _ _ HJ)|exact A|exact B|now rewrite E]. Qed.
Lemma J_callq cl l st tok t p s s' : J cl l st tok t p -> In s st -> In s' st -> s_call s = s_call s' -> s = s'.
Proof. intros HJ A B E. apply (map_inj s_call st); [apply (j_calls _ _ _ _ _ _ HJ)|exact A|exact B|exact E]. Qed.
Lemma keys_ok_cut (f f' : Prop) l s tok1 x tok2 xs : (f' -> f /\ fst x <> s_ts s) -> keys_ok f l s (tok1 ++ x :: tok2) xs -> keys_ok f' l s (tok1 ++ tok2) xs.
Proof.
  intros Hf (ns & A & B & C & D & E). exists ns. repeat (split; [assumption|]). split; [intros n I I'; apply (D n I); now apply in_cut|]. intros F n N. destruct (Hf F) as [F1 F2]. destruct (E F1 n N) as [X|[X|X]]; [now left| |right; now right]. right. left. apply in_app_or in X. apply in_or_app. destruct X as [X|[X|X]]; [now left|subst x; destruct (F2 eq_refl)|now right].
Qed.
Lemma J_weak cl l st tok t p : J cl l st tok t p -> J false l st tok t p.
Proof.
  intros [A B C D E F G H I K L]. constructor; try assumption. intros ts q Q. destruct (D ts q Q) as (s & S1 & S2 & S3 & S4 & S5 & S6). exists s. repeat (split; [assumption|]). split; [discriminate|exact S6].
Qed.

(** An Interest is expressed (again): the token stays. *)
Lemma J_again cl l st tok t p p' ts q q' i : J cl l st tok t p -> dget Z.eqb (pr_reqs p) ts = Some q -> q_count q' = q_count q -> q_keys q' = q_keys q ->
  changed (pr_reqs p) ts (Some q') (pr_reqs p') -> pr_db p' = pr_db p -> pr_infos p' = pr_infos p -> J cl l st tok (t ++ [PExpress i]) p'.
Proof.
  intros HJ Q C K [U H] Db In_. assert (An : forall c, answers c (t ++ [PExpress i]) = answers c t) by (intro c; rewrite answers_app; apply app_nil_r).
  assert (Hg : forall ts', (exists q0, dget Z.eqb (pr_reqs p') ts' = Some q0) <-> exists q0, dget Z.eqb (pr_reqs p) ts' = Some q0).
  { intro ts'. rewrite H. destruct (ts =? ts') eqn:E; [|reflexivity]. apply Z.eqb_eq in E. subst ts'. rewrite Q. split; intros _; eauto. }
  destruct HJ as [A B C0 D E F G H0 I K0 L]. constructor; rewrite ?Db, ?In_; try assumption.
  - intros ts' n I'. destruct (B ts' n I') as [B1 B2]. split; [exact B1|]. now apply Hg.
  - intros ts' q0 Q0. rewrite H in Q0. destruct (ts =? ts') eqn:Et; [|now apply D]. apply Z.eqb_eq in Et. subst ts'. injection Q0 as <-. destruct (D ts q Q) as (s & S). exists s. rewrite C, K. exact S.
  - intros s Is. rewrite An. destruct (E s Is) as [[E1 E2]|(E1 & E2)]; [left; split; [now apply Hg|exact E2]|]. right. split; [|exact E2]. rewrite H. destruct (ts =? s_ts s) eqn:Et; [|exact E1]. apply Z.eqb_eq in Et. subst ts. congruence.
  - intros c. rewrite An. apply F.
Qed.

(** A node is done with: the token goes, and after the last one the application gets the packets. *)
Lemma J_close cl l st tok1 ts n tok2 t p p' q xs s a : J cl l st (tok1 ++ (ts, n) :: tok2) t p -> In s st -> s_ts s = ts -> dget Z.eqb (pr_reqs p) ts = Some q ->
  xs = [] /\ failed l s n \/ (exists x, xs = [x] /\ sealed_packet l s n x) ->
  (if (q_count q - 1 =? 0) && s_wants s then changed (pr_reqs p) ts None (pr_reqs p') /\ a = [PEncrypted (s_call s) (q_keys q ++ xs)]
   else (exists q', q_count q' = q_count q - 1 /\ q_keys q' = q_keys q ++ xs /\ changed (pr_reqs p) ts (Some q') (pr_reqs p')) /\ a = []) ->
  pr_db p' = pr_db p -> pr_infos p' = pr_infos p -> J cl l st (tok1 ++ tok2) (t ++ a) p'.
Proof.
  intros HJ Is Es Q Hx Hc Db In_. pose proof HJ as HJ0. destruct HJ as [A B C0 D E F G H0 I K0 L]. pose proof (NoDup_remove_1 _ _ _ A) as A1. pose proof (NoDup_remove_2 _ _ _ A) as A2.
  destruct (D ts q Q) as (s0 & S1 & S2 & S3 & S4 & S5 & S6). assert (s0 = s) by (eapply J_slot; [exact HJ0| | |]; [assumption|assumption|congruence]). subst s0.
  rewrite tokens_cut, Z.eqb_refl in S4, S5.
  assert (Nn : is_node n) by (apply (B ts n), in_or_app; right; now left).
  assert (Ko : keys_ok (slot_tokens ts (tok1 ++ tok2) = q_count q - 1) l s (tok1 ++ tok2) (q_keys q ++ xs)).
  { rewrite tokens_cut, Z.eqb_refl in S6. destruct S6 as (ns & N1 & N2 & N3 & N4 & N5). assert (Nin : ~ In n ns) by (intro X; apply (N4 n X); rewrite Es; apply in_or_app; right; now left). assert (Nm : forall m, In (s_ts s, m) (tok1 ++ (ts, n) :: tok2) -> m = n \/ In (s_ts s, m) (tok1 ++ tok2)) by (intros m X; apply in_app_or in X; destruct X as [X|[X|X]]; [right; apply in_or_app; now left|left; congruence|right; apply in_or_app; now right]). destruct Hx as [[-> Hx]|(x & -> & Hx)].
    - rewrite app_nil_r. exists ns. repeat (split; [assumption|]). split; [intros m I1 I2; apply (N4 m I1); now apply in_cut|]. intros Ff m M. destruct (N5 ltac:(lia) m M) as [X|[X|X]]; [now left| |right; now right]. destruct (Nm m X) as [-> |Y]; [right; now right|right; now left].
    - exists (ns ++ [n]). split; [now apply nodup_snoc|]. split; [apply Forall_app; split; [exact N2|constructor; [exact Nn|constructor]]|]. split; [apply Forall2_app; [exact N3|constructor; [exact Hx|constructor]]|].
      split; [intros m I1 I2; apply in_app_or in I1; destruct I1 as [I1|[<-|[]]]; [apply (N4 m I1); now apply in_cut|]; rewrite Es in I2; contradiction|].
      intros Ff m M. destruct (N5 ltac:(lia) m M) as [X|[X|X]]; [left; apply in_or_app; now left| |right; now right]. destruct (Nm m X) as [-> |Y]; [left; apply in_or_app; right; now left|right; now left]. }
  assert (Tk : forall ts', ts' <> ts -> slot_tokens ts' (tok1 ++ (ts, n) :: tok2) = slot_tokens ts' (tok1 ++ tok2)).
  { intros ts' Ne. rewrite tokens_cut. destruct (ts =? ts') eqn:X; [apply Z.eqb_eq in X; congruence|lia]. }
  destruct ((q_count q - 1 =? 0) && s_wants s) eqn:Eb.
  - apply andb_true_iff in Eb. destruct Eb as [Ec Ew]. apply Z.eqb_eq in Ec. destruct Hc as [[U H] ->].
    assert (No : forall m, ~ In (ts, m) (tok1 ++ tok2)). { intros m X. apply tokens_none in X. lia. }
    constructor; rewrite ?Db, ?In_; try assumption.
    + intros ts' m X. destruct (B ts' m ltac:(now apply in_cut)) as [B1 B2]. split; [exact B1|]. rewrite H. destruct (ts =? ts') eqn:Et; [|exact B2]. apply Z.eqb_eq in Et. subst ts'. destruct (No m X).
    + intros ts' q0 Q0. rewrite H in Q0. destruct (ts =? ts') eqn:Et; [discriminate Q0|]. destruct (D ts' q0 Q0) as (s' & P1 & P2 & P3 & P4 & P5 & P6). exists s'. split; [exact P1|]. split; [exact P2|]. split; [exact P3|]. apply Z.eqb_neq in Et. rewrite Tk in P4, P5, P6 by congruence. split; [exact P4|]. split; [exact P5|]. eapply keys_ok_cut; [|exact P6]. intro X. split; [exact X|cbn [fst]; congruence].
    + intros s' Is'. rewrite answers_app, answers_one. destruct (Z.eq_dec (s_ts s') ts) as [Et|Et].
      * assert (s' = s) by (eapply J_slot; [exact HJ0| | |]; [assumption|assumption|congruence]). subst s'. right. rewrite H, Es, Z.eqb_refl. split; [reflexivity|]. split; [exact Ew|]. exists (q_keys q ++ xs). rewrite Z.eqb_refl. destruct (E s Is) as [[_ E1]|(E1 & _)]; [|rewrite Es in E1; congruence]. rewrite E1. split; [reflexivity|]. destruct Ko as (ns & N1 & N2 & N3 & N4 & N5). exists ns. repeat (split; [assumption|]). intros m M. destruct (N5 ltac:(pose proof (zlen_nonneg _ (filter (at_slot ts) (tok1 ++ tok2))); lia) m M) as [X|[X|X]]; [now left|rewrite Es in X; destruct (No m X)|now right].
      * assert (Ec' : s_call s =? s_call s' = false). { apply Z.eqb_neq. intro X. apply Et. rewrite <- Es. f_equal. symmetry. eapply J_callq; [exact HJ0| | |]; eassumption. }
        rewrite Ec', app_nil_r. assert (Eg : dget Z.eqb (pr_reqs p') (s_ts s') = dget Z.eqb (pr_reqs p) (s_ts s')) by (rewrite H; destruct (ts =? s_ts s') eqn:X; [apply Z.eqb_eq in X; congruence|reflexivity]). rewrite Eg. apply E, Is'.
    + intros c. rewrite answers_app, answers_one. destruct (s_call s =? c) eqn:X; [apply Z.eqb_eq in X; intros _; eauto|]. rewrite app_nil_r. apply F.
  - destruct Hc as [(q' & C1 & C2 & U & H) ->]. rewrite app_nil_r.
    assert (Hg : forall ts', (exists q0, dget Z.eqb (pr_reqs p') ts' = Some q0) <-> exists q0, dget Z.eqb (pr_reqs p) ts' = Some q0).
    { intro ts'. rewrite H. destruct (ts =? ts') eqn:X; [|reflexivity]. apply Z.eqb_eq in X. subst ts'. rewrite Q. split; intros _; eauto. }
    constructor; rewrite ?Db, ?In_; try assumption.
    + intros ts' m X. destruct (B ts' m ltac:(now apply in_cut)) as [B1 B2]. split; [exact B1|]. now apply Hg.
    + intros ts' q0 Q0. rewrite H in Q0. destruct (ts =? ts') eqn:Et.
      * apply Z.eqb_eq in Et. subst ts'. injection Q0 as <-. exists s. rewrite C1, C2. split; [exact Is|]. split; [exact Es|]. split; [intros Ew _; rewrite Ew in Eb; destruct (q_count q - 1 =? 0) eqn:X; [discriminate Eb|now apply Z.eqb_neq]|]. split; [lia|]. split; [intros X; specialize (S5 X); lia|exact Ko].
      * apply Z.eqb_neq in Et. destruct (D ts' q0 Q0) as (s' & P1 & P2 & P3 & P4 & P5 & P6). exists s'. split; [exact P1|]. split; [exact P2|]. split; [exact P3|]. rewrite Tk in P4, P5, P6 by congruence. split; [exact P4|]. split; [exact P5|]. eapply keys_ok_cut; [|exact P6]. intro X. split; [exact X|cbn [fst]; congruence].
    + intros s' Is'. destruct (E s' Is') as [[E1 E2]|(E1 & E2)]; [left; split; [now apply Hg|exact E2]|]. right. split; [|exact E2]. rewrite H. destruct (ts =? s_ts s') eqn:X; [|exact E1]. apply Z.eqb_eq in X. subst ts. congruence.
Qed.

(** Something goes wrong: the token goes but the count stays. *)
Lemma J_lost l st tok1 x tok2 t p p' a : J false l st (tok1 ++ x :: tok2) t p -> (forall c, answers c a = []) ->
  pr_reqs p' = pr_reqs p -> pr_db p' = pr_db p -> pr_infos p' = pr_infos p -> J false l st (tok1 ++ tok2) (t ++ a) p'.
Proof.
  intros [A B C D E F G H I K L] Ha Re Db In_. constructor; rewrite ?Re, ?Db, ?In_; try assumption.
  - now apply NoDup_remove_1 in A.
  - intros ts n X. apply B. now apply in_cut.
  - intros ts q Q. destruct (D ts q Q) as (s & S1 & S2 & S3 & S4 & S5 & S6). exists s. split; [exact S1|]. split; [exact S2|]. split; [exact S3|]. destruct x as [ts' n']. rewrite tokens_cut in S4, S6. split; [destruct (ts' =? ts); lia|]. split; [discriminate|]. eapply keys_ok_cut; [|exact S6]. intro X. cbn [fst]. destruct (ts' =? ts) eqn:Et; [lia|]. apply Z.eqb_neq in Et. split; [lia|congruence].
  - intros s Is. rewrite answers_app, Ha, app_nil_r. now apply E.
  - intros c. rewrite answers_app, Ha, app_nil_r. apply F.
Qed.
Lemma J_lost_many l st tok1 m tok2 t p : J false l st (tok1 ++ m ++ tok2) t p -> J false l st (tok1 ++ tok2) t p.
Proof.
  induction m as [|x m IH]; intro HJ; [exact HJ|]. apply IH. cbn [app] in HJ. rewrite <- (app_nil_r t). eapply J_lost; [exact HJ|reflexivity|reflexivity|reflexivity|reflexivity].
Qed.
(** More is received. *)
Lemma received_app l l' : received (l ++ l') = received l ++ received l'.
Proof. unfold received. now rewrite flat_map_app. Qed.
Lemma sealed_more l e s n x : sealed_packet l s n x -> sealed_packet (l ++ e) s n x.
Proof. intros (i & m & cb & ce & k & b & e0 & ekn & ch & r & I & R). exists i, m, cb, ce, k, b, e0, ekn, ch, r. split; [rewrite received_app; apply in_or_app; now left|exact R]. Qed.
Lemma sealed2_more l e s ns xs : Forall2 (sealed_packet l s) ns xs -> Forall2 (sealed_packet (l ++ e) s) ns xs.
Proof. intro H. induction H; constructor; auto using sealed_more. Qed.
Lemma info_more l e n k : info_ok l n k -> info_ok (l ++ e) n k.
Proof. intros [H|(i & m & cb & ce & b & I & R)]; [now left|right]. exists i, m, cb, ce, b. split; [rewrite received_app; apply in_or_app; now left|exact R]. Qed.
Lemma failed_more l e s n : failed l s n -> failed (l ++ e) s n.
Proof. intros (i & [I|I] & R); exists i; (split; [|exact R]); [left|right]; apply in_or_app; now left. Qed.
Lemma J_more cl l e st tok t p : J cl l st tok t p -> J cl (l ++ e) st tok t p.
Proof.
  intros [A B C D E F G H I K L]. constructor; try assumption.
  - intros ts q Q. destruct (D ts q Q) as (s & S1 & S2 & S3 & S4 & S5 & (ns & N1 & N2 & N3 & N4 & N5)). exists s. repeat (split; [assumption|]). exists ns. repeat (split; [assumption|]). split; [now apply sealed2_more|]. split; [exact N4|]. intros X n N. destruct (N5 X n N) as [Y|[Y|Y]]; [now left|right; now left|right; right; now apply failed_more].
  - intros s Is. destruct (E s Is) as [E1|(E1 & E2 & xs & E3 & (ns & N1 & N2 & N3 & N4))]; [now left|right]. split; [exact E1|]. split; [exact E2|]. exists xs. split; [exact E3|]. exists ns. split; [exact N1|]. split; [exact N2|]. split; [now apply sealed2_more|]. intros n N. destruct (N4 n N) as [Y|Y]; [now left|right; now apply failed_more].
  - intros n k X. apply info_more, L, X.
Qed.
Lemma J_outs cl l st tok t p o : J cl l st tok t p -> J cl l st tok t (Prod (pr_db p) (pr_infos p) (pr_reqs p) o).
Proof. intros [A B C D E F G H I K L]. constructor; assumption. Qed.
(** An E-KEY is kept. *)
Lemma J_keep cl l st tok t p n k : J cl l st tok t p -> is_node n -> info_ok l n k -> J cl l st tok t (Prod (pr_db p) (dset n_equals (pr_infos p) n k) (pr_reqs p) (pr_outs p)).
Proof.
  intros [A B C D E F G H I K L] Nn Hk. destruct (start_ok prefix dataType Hp Hd) as (_ & _ & _ & _ & Hn & _).
  assert (Dm : dom name_ok (pr_infos p)). { apply Forall_forall. intros [m v] X. apply (in_map fst) in X. cbn [fst] in *. fold (dkeys (pr_infos p)) in X. rewrite K in X. apply (node_ok prefix dataType Hp Hd), Hn, X. }
  pose proof (node_ok prefix dataType Hp Hd n Nn) as On. assert (In_ : In n (dkeys (pr_infos p))) by (rewrite K; apply Hn, Nn).
  assert (Un : uniq (pr_infos p)). { unfold uniq. rewrite K. destruct (start_ok prefix dataType Hp Hd) as (_ & _ & _ & Nd & _). exact Nd. }
  constructor; cbn [pr_db pr_infos pr_reqs]; try assumption.
  - rewrite (dset_keys _ _ nameq) by assumption. apply (din_iff _ _ nameq) in In_; [|exact Dm|exact On]. rewrite In_. exact K.
  - intros m v X. pose proof (dset_dom n_equals name_ok (pr_infos p) n k Dm On) as Dm'. pose proof (dset_uniq n_equals name_ok nameq (pr_infos p) n k Dm On Un) as Un'. assert (Om : name_ok m) by (unfold dom in Dm'; rewrite Forall_forall in Dm'; apply (Dm' _ X)).
    apply (in_dget _ _ nameq _ _ _ Dm' Un') in X. rewrite (dset_get _ _ nameq) in X by assumption. destruct (eqb_case _ _ nameq n m On Om) as [[<- Eq]|[_ Eq]]; rewrite Eq in X; [injection X as <-; exact Hk|]. apply (dget_in _ _ nameq) in X; [|exact Dm|exact Om]. apply L, X.
Qed.
(** A new key request *)
Lemma J_new cl l st t p p' tok s : J cl l st tok t p -> ~ In (hour_of (s_ts s)) (map (fun s => hour_of (s_ts s)) st) -> ~ In (s_call s) (map s_call st) -> answers (s_call s) t = [] ->
  pr_db p' = pr_db p ++ [(hour_of (s_ts s), s_key s)] -> dget Z.eqb (pr_db p) (hour_of (s_ts s)) = None -> pr_infos p' = pr_infos p -> changed (pr_reqs p) (s_ts s) (Some (KReq (zlen (pr_infos p)) [] [])) (pr_reqs p') ->
  J cl l (st ++ [s]) (tok ++ map (pair (s_ts s)) all_nodes) t p'.
Proof.
  intros HJ Nh Nc An Db Dn In_ [U H]. pose proof HJ as HJ0. destruct HJ as [A B C D E F G H0 I K L]. destruct (start_ok prefix dataType Hp Hd) as (_ & _ & _ & Nd & Hn & _). set (ts := s_ts s) in *.
  assert (Fr : dget Z.eqb (pr_reqs p) ts = None). { destruct (dget Z.eqb (pr_reqs p) ts) as [q|] eqn:Q; [|reflexivity]. destruct (D ts q Q) as (s' & S1 & S2 & _). exfalso. apply Nh. apply in_map_iff. exists s'. rewrite S2. auto. }
  assert (Nt : forall n, ~ In (ts, n) tok) by (intros n X; destruct (B ts n X) as [_ [q Q]]; congruence).
  assert (T0 : slot_tokens ts tok = 0). { destruct (filter (at_slot ts) tok) as [|[a b] r] eqn:X; [reflexivity|]. exfalso. assert (Y : In (a, b) (filter (at_slot ts) tok)) by (rewrite X; now left). apply filter_In in Y. destruct Y as [Y Z0]. cbn [fst] in Z0. apply Z.eqb_eq in Z0. subst a. apply (Nt b Y). }
  assert (Tm : forall ts', slot_tokens ts' (map (pair ts) all_nodes) = if ts =? ts' then zlen all_nodes else 0).
  { intro ts'. generalize all_nodes. clear. intro ns. induction ns as [|n ns IH]; [cbn; destruct (ts =? ts'); reflexivity|]. cbn [map filter fst]. destruct (ts =? ts') eqn:X; [rewrite !zlen_cons; lia|exact IH]. }
  constructor; rewrite ?Db, ?In_.
  - rewrite <- (app_nil_r (tok ++ _)). clear - A Nd Nt. rewrite app_nil_r. induction tok as [|x tok IH]; cbn [app].
    + induction Nd as [|n ns N Nd IH']; cbn [map]; constructor; [|exact IH']. intro X. apply in_map_iff in X. destruct X as (m & Em & X). congruence.
    + inversion A as [|? ? A1 A2]; subst. constructor; [|apply IH; [exact A2|intros n X; apply (Nt n); now right]]. intro X. apply in_app_or in X. destruct X as [X|X]; [contradiction|]. apply in_map_iff in X. destruct X as (m & <- & _). apply (Nt m). now left.
  - intros ts' n X. apply in_app_or in X. rewrite H. destruct X as [X|X].
    + destruct (B ts' n X) as [B1 B2]. split; [exact B1|]. destruct (ts =? ts'); [eauto|exact B2].
    + apply in_map_iff in X. destruct X as (m & Em & X). injection Em as <- <-. rewrite Z.eqb_refl. split; [now apply Hn|eauto].
  - exact U.
  - intros ts' q Q. rewrite H in Q. rewrite tokens_app, Tm. destruct (ts =? ts') eqn:Et.
    + apply Z.eqb_eq in Et. subst ts'. injection Q as <-. exists s. cbn [q_count q_keys]. assert (Zl : zlen (pr_infos p) = zlen all_nodes) by (rewrite <- K; unfold dkeys; rewrite zlen_map; reflexivity). rewrite T0, Zl. split; [apply in_or_app; right; now left|]. split; [reflexivity|]. split.
      * intros _ Nz X. destruct (nodes_zero prefix dataType Hp Hd) as [Z1 _]. apply Nz, Z1. destruct all_nodes; [reflexivity|]. rewrite zlen_cons in X. pose proof (zlen_nonneg _ l0). lia.
      * split; [lia|]. split; [lia|]. exists []. split; [constructor|]. split; [constructor|]. split; [constructor|]. split; [intros n []|]. intros _ n N. right. left. apply in_or_app. right. apply in_map_iff. exists n. split; [reflexivity|now apply Hn].
    + destruct (D ts' q Q) as (s' & S1 & S2 & S3 & S4 & S5 & (ns & N1 & N2 & N3 & N4 & N5)). exists s'. rewrite Z.add_0_r. split; [apply in_or_app; now left|]. repeat (split; [assumption|]). exists ns. repeat (split; [assumption|]). split; [intros n X Y; apply in_app_or in Y; destruct Y as [Y|Y]; [apply (N4 n X Y)|]; apply in_map_iff in Y; destruct Y as (m & Em & _); injection Em as Em _; apply Z.eqb_neq in Et; congruence|]. intros X n N. destruct (N5 X n N) as [Y|[Y|Y]]; [now left|right; left; apply in_or_app; now left|right; now right].
  - intros s' Is. rewrite H. apply in_app_or in Is. destruct Is as [Is|[<-|[]]].
    + destruct (ts =? s_ts s') eqn:Et; [apply Z.eqb_eq in Et; exfalso; apply Nh; apply in_map_iff; exists s'; split; [now rewrite <- Et|exact Is]|]. apply E, Is.
    + fold ts. rewrite Z.eqb_refl. left. split; [eauto|exact An].
  - intros c X. destruct (F c X) as (s' & S1 & S2). exists s'. split; [apply in_or_app; now left|exact S2].
  - rewrite map_app. cbn [map]. now apply nodup_snoc.
  - rewrite map_app. cbn [map]. now apply nodup_snoc.
  - intros s' Is. rewrite zget_app. apply in_app_or in Is. destruct Is as [Is|[<-|[]]]; [rewrite (I s' Is); reflexivity|]. unfold ts in *. rewrite Dn, Z.eqb_refl. reflexivity.
  - exact K.
  - exact L.
Qed.
End Producer.
