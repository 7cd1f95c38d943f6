(** * C62: what a configuration file in the INFO format says is what is read from it *)
From Verif Require Import Base BaseLemmas BlobModel InfoModel InfoSpec InfoProofs.
From Coq Require Import Arith String Ascii.
Import ListNotations.
Local Open Scope res_scope.
Local Open Scope list_scope.
Local Open Scope Z_scope.

(** the code points of a literal of ASCII characters, for the examples *)
Definition cp (s : string) : str := map (fun a => Z.of_nat (nat_of_ascii a)) (list_ascii_of_string s).
Definition no_files : str -> res str := fun _ => Err OtherError.
Definition nl : str := [10].

(** ** C62: reading *)
(** Every layout of some named subtrees is read as these subtrees, in their order, after those
    which the tree already had; no file is opened. *)
Theorem C62_read : forall open_file fuel ch ls text v old, lays ch ls -> text_lines text ls ->
  read_input open_file fuel text (At [] (Tree v old)) = Ok (At [] (Tree v (old ++ ch))).
Proof.
  intros open_file fuel ch ls text v old L T. destruct fuel; cbn [read_input]; rewrite (text_lines_ok _ _ T); apply lays_ok; exact L.
Qed.
(** Two texts of the same subtrees, whatever their layout, read the same. *)
Theorem C62_layout : forall open_file fuel ch ls ls' text text', lays ch ls -> text_lines text ls -> lays ch ls' -> text_lines text' ls' ->
  read_input open_file fuel text (At [] t_new) = read_input open_file fuel text' (At [] t_new).
Proof. intros. unfold t_new. rewrite (C62_read open_file fuel ch ls text), (C62_read open_file fuel ch ls' text') by assumption. reflexivity. Qed.
(** A line "#include file" is replaced by the contents of the file, which may be nested [fuel] deep. *)
Theorem C62_include : forall open_file fuel l b t f rest content, word t f -> blanks b -> b <> [] -> padded (INCLUDE ++ b ++ t) l -> no_break l -> open_file f = Ok content ->
  forall x, read_input open_file (S fuel) (l ++ [10] ++ rest) x = (x1 <-- read_input open_file fuel content x ;; read_input open_file (S fuel) rest x1).
Proof.
  intros open_file fuel l b t f rest content W B Nb P Nl O x. pose proof W as (Nt & Sp & N1 & N2). cbn [read_input]. assert (Tl : splitlines (l ++ [10] ++ rest) = l :: splitlines rest) by (unfold splitlines; rewrite split_no_break by exact Nl; cbn [app split_lines]; rewrite app_nil_r, rev_involutive; reflexivity). rewrite Tl. cbn [parse_lines].
  assert (Wi : word INCLUDE INCLUDE). { split; [discriminate|]. split; [|split; discriminate]. unfold INCLUDE. repeat (apply Sp_char; [discriminate|discriminate|discriminate|cbn; lia|intros _; unfold white; lia|]). constructor. }
  assert (N59 : ~ In 59 (INCLUDE ++ b ++ t)). { intros I. apply in_app_or in I. destruct I as [I|I]; [exact (spells_59 _ _ _ (proj1 (proj2 Wi)) I)|]. apply in_app_or in I. destruct I as [I|I]; [exact (blanks_59 _ B I)|exact (spells_59 _ _ _ Sp I)]. }
  assert (E : cut (strip l) = INCLUDE ++ b ++ t). { apply cut_padded; [exact P|exact N59|reflexivity|]. rewrite !rev_app_distr, <- app_assoc. apply hard_app; [intros X; apply (f_equal (@rev Z)) in X; rewrite rev_involutive in X; exact (Nt X)|]. apply hard_last. exact (spells_last _ _ _ Sp). }
  rewrite parse_cut by (rewrite E; exact N59). rewrite E. cbn [parse_line]. rewrite (find_none 59 _ N59). change (INCLUDE ++ b ++ t) with (35 :: tl INCLUDE ++ b ++ t). cbv iota zeta. change (35 :: tl INCLUDE ++ b ++ t) with (INCLUDE ++ b ++ t).
  assert (Es : shlex_split (INCLUDE ++ b ++ t) = [INCLUDE; f]). { unfold shlex_split. rewrite <- (app_nil_l (INCLUDE ++ b ++ t)). rewrite (shlex_word _ [] INCLUDE INCLUDE (b ++ t) ltac:(constructor) Wi) by (apply blanks_ends; assumption). f_equal. rewrite app_nil_l, !app_length. change (List.length INCLUDE) with 8%nat. cbn [Nat.add]. rewrite <- (app_nil_r t) at 2. rewrite (shlex_word _ b t f [] B W I). rewrite (shlex_end _ []) by constructor. reflexivity. }
  rewrite Es. assert (X1 : existsb (zlist_eqb [123]) [INCLUDE; f] = false) by (cbn [existsb]; rewrite (zlist_neq [123] f) by congruence; reflexivity). assert (X2 : existsb (zlist_eqb [125]) [INCLUDE; f] = false) by (cbn [existsb]; rewrite (zlist_neq [125] f) by congruence; reflexivity). rewrite X1, X2. cbn [negb andb]. rewrite zlist_refl, O. cbn [rbind]. reflexivity.
Qed.

(** ** C62: lookup *)
(** tree[key] is the subtrees reached from the tree by the names between the slashes of the key, in
    the order of the file; getFirstValue is the value of the first. *)
Theorem C62_lookup : forall t key, t_getitem t key = select (path key) t.
Proof. intros t key. apply getitem_ok. apply le_n. Qed.
Theorem C62_first : forall t key, getFirstValue t key = match select (path key) t with s :: _ => t_value s | [] => None end.
Proof. intros t key. unfold getFirstValue. rewrite C62_lookup. reflexivity. Qed.

(** ** C62: writing *)
(** Reading what was written for a tree whose names and values have no special characters gives the
    same tree, up to the order of subtrees of different names; so every lookup finds the same. *)
Theorem C62_write : forall open_file fuel ch, printable (Tree None ch) ->
  exists t', read_input open_file fuel (print_root (Tree None ch)) (At [] t_new) = Ok (At [] t') /\ same (Tree None ch) t'.
Proof.
  intros open_file fuel ch P. set (t := Tree None ch). destruct (kids_ok (t_depth t) 3 (grouped ch)) as (ls & A & B).
  - intros p I. apply grouped_in in I. destruct (printable_child _ _ _ P I) as [X Y]. split; [exact X|]. split; [exact Y|]. pose proof (depth_child None ch p I). unfold t. lia.
  - specialize (A [] [] L_end). specialize (B [] [] Tl_end). rewrite !app_nil_r in A, B. exists (regroup (S (t_depth t)) t). split; [|apply regroup_same; lia].
    unfold t_new. rewrite (C62_read open_file fuel _ ls _ None [] A); [reflexivity|exact B].
Qed.
Theorem C62_same : forall t t' key, same t t' -> Forall2 same (t_getitem t key) (t_getitem t' key) /\ getFirstValue t key = getFirstValue t' key.
Proof.
  intros t t' key H. pose proof (select_same (path key) t t' H) as F. split; [rewrite !C62_lookup; exact F|]. rewrite !C62_first. destruct F as [|x y xs ys Hx _]; [reflexivity|]. destruct Hx. reflexivity.
Qed.

(** ** C62: errors *)
(** Reading any text at all terminates, and raises only AttributeError (a closing brace too many),
    RuntimeError, TypeError (#include without a name), or what opening an included file raises. *)
Theorem C62_errors : forall open_file fuel text t e, read_input open_file fuel text (At [] t) = Err e ->
  e = AttributeError \/ e = RuntimeError \/ e = TypeError \/ (exists f, open_file f = Err e) \/ e = OutOfFuel.
Proof. intros open_file fuel text t e H. destruct (read_error _ _ _ _ _ H) as [[X|[X|X]]|[X|X]]; auto. Qed.

(** ** What is not so *)
(** The contents of a section on one line are dropped, and the section stays open: the next
    entries become part of it. *)
Theorem C62_one_line_refuted :
  exists r, read_input no_files 0 (cp "filter { type name }" ++ nl ++ cp "next x") (At [] t_new) = Ok r /\ root_of r = Tree None [(cp "filter", Tree None [(cp "next", Tree (Some (cp "x")) [])])].
Proof. eexists. split; vm_compute; reflexivity. Qed.
(** A semicolon in quotes starts a comment all the same. *)
Theorem C62_quoted_semicolon_refuted :
  read_input no_files 0 (cp "regex ""a;b""") (At [] t_new) = Ok (At [] (Tree None [(cp "regex", Tree (Some (cp "a")) [])])).
Proof. vm_compute. reflexivity. Qed.
(** A quoted brace opens a section. *)
Theorem C62_quoted_brace_refuted :
  exists r, read_input no_files 0 (cp "key ""{""" ++ nl ++ cp "next x") (At [] t_new) = Ok r /\ root_of r <> Tree None [(cp "key", Tree (Some (cp "{")) []); (cp "next", Tree (Some (cp "x")) [])].
Proof. eexists. split; vm_compute; [reflexivity|discriminate]. Qed.
(** A section which is not closed is accepted, and so is one closing brace too many at the end. *)
Theorem C62_unbalanced_refuted :
  (exists r, read_input no_files 0 (cp "a" ++ nl ++ cp "{" ++ nl ++ cp "b") (At [] t_new) = Ok r) /\ (exists r, read_input no_files 0 (cp "a" ++ nl ++ cp "}") (At [] t_new) = Ok r).
Proof. split; eexists; vm_compute; reflexivity. Qed.
(** An empty value is written as none. *)
Theorem C62_empty_refuted : exists t t', read_input no_files 0 (print_root t) (At [] t_new) = Ok (At [] t') /\ getFirstValue t (cp "k") = Some [] /\ getFirstValue t' (cp "k") = None.
Proof. exists (Tree None [(cp "k", Tree (Some []) [])]), (Tree None [(cp "k", Tree None [])]). vm_compute. auto. Qed.
(** A quote in a value is written without the backslash it needs. *)
Theorem C62_quote_refuted : exists t t', read_input no_files 0 (print_root t) (At [] t_new) = Ok (At [] t') /\ getFirstValue t (cp "k") <> getFirstValue t' (cp "k").
Proof. exists (Tree None [(cp "k", Tree (Some (cp "a"" b")) [])]), (Tree None [(cp "k", Tree (Some (cp "a")) [])]). vm_compute. split; [reflexivity|discriminate]. Qed.

(** ** Examples *)
Definition sample : str := cp "rule ; the first" ++ nl ++ cp "{" ++ nl ++ cp "  id ""a b""" ++ nl ++ cp "  filter {" ++ [13; 10] ++ cp "    type name" ++ nl ++ cp "  } ; end" ++ nl ++ nl ++ cp "}".
Definition sample_children : list (str * tree) := [(cp "rule", Tree None [(cp "id", Tree (Some (cp "a b")) []); (cp "filter", Tree None [(cp "type", Tree (Some (cp "name")) [])])])].
Ltac sp := lazymatch goal with
  | |- spells _ [] _ => apply Sp_end
  | |- spells _ (34 :: _) _ => apply Sp_quote; cbn [negb]; sp
  | |- spells _ (_ :: _) _ => apply Sp_char; [discriminate|discriminate|discriminate|cbn; lia|intros X; try discriminate X; unfold white; lia|sp]
  end.
Ltac wd := vm_compute; split; [discriminate|]; split; [sp|]; split; discriminate.
Ltac bl := vm_compute; repeat (constructor; [lia|]); constructor.
Ltac nb := vm_compute; repeat (constructor; [cbn; lia|]); constructor.
Example C62_read_ex : exists ls, lays sample_children ls /\ text_lines sample ls.
Proof.
  exists [cp "rule ; the first"; cp "{"; cp "  id ""a b"""; cp "  filter {"; cp "    type name"; cp "  } ; end"; []; cp "}"]. split.
  - apply (L_section (cp "rule") None (cp "rule") (cp "rule ; the first") [] (cp "{") [(cp "id", Tree (Some (cp "a b")) []); (cp "filter", Tree None [(cp "type", Tree (Some (cp "name")) [])])] [cp "  id ""a b"""; cp "  filter {"; cp "    type name"; cp "  } ; end"; []] (cp "}") [] []).
    + split; [discriminate|wd].
    + exists [], (cp " "), (cp "; the first"). split; [reflexivity|]. split; [constructor|]. split; [bl|]. right. exists (cp " the first"). split; [reflexivity|nb].
    + constructor.
    + exists [], [], []. split; [reflexivity|]. split; [constructor|]. split; [constructor|left; reflexivity].
    + apply (L_entry (cp "id") (Some (cp "a b")) (cp "id ""a b""")).
      * split; [discriminate|]. exists (cp "id"), (cp " "), (cp """a b"""). split; [reflexivity|]. split; [wd|]. split; [bl|]. split; [discriminate|wd].
      * exists (cp "  "), [], []. split; [reflexivity|]. split; [bl|]. split; [constructor|left; reflexivity].
      * apply (L_brace (cp "filter") None (cp "filter") (cp " ") (cp "  filter {") [(cp "type", Tree (Some (cp "name")) [])] [cp "    type name"] (cp "  } ; end") [[]] []).
        -- split; [discriminate|wd].
        -- vm_compute. lia.
        -- bl.
        -- discriminate.
        -- exists (cp "  "), [], []. split; [reflexivity|]. split; [bl|]. split; [constructor|left; reflexivity].
        -- apply (L_entry (cp "type") (Some (cp "name")) (cp "type name")); [| |constructor].
           ++ split; [discriminate|]. exists (cp "type"), (cp " "), (cp "name"). split; [reflexivity|]. split; [wd|]. split; [bl|]. split; [discriminate|wd].
           ++ exists (cp "    "), [], []. split; [reflexivity|]. split; [bl|]. split; [constructor|left; reflexivity].
        -- exists (cp "  "), (cp " "), (cp "; end"). split; [reflexivity|]. split; [bl|]. split; [bl|]. right. exists (cp " end"). split; [reflexivity|nb].
        -- apply L_skip; [|constructor]. exists [], []. split; [reflexivity|]. split; [constructor|left; reflexivity].
    + exists [], [], []. split; [reflexivity|]. split; [constructor|]. split; [constructor|left; reflexivity].
    + constructor.
  - unfold sample.
    apply (Tl_line (cp "rule ; the first") nl); [nb|left; reflexivity|].
    apply (Tl_line (cp "{") nl); [nb|left; reflexivity|].
    apply (Tl_line (cp "  id ""a b""") nl); [nb|left; reflexivity|].
    apply (Tl_line (cp "  filter {") [13; 10]); [nb|right; reflexivity|].
    apply (Tl_line (cp "    type name") nl); [nb|left; reflexivity|].
    apply (Tl_line (cp "  } ; end") nl); [nb|left; reflexivity|].
    apply (Tl_line [] nl); [constructor|left; reflexivity|].
    apply Tl_last; [nb|discriminate].
Qed.
Example C62_read_run : read_input no_files 0 sample (At [] t_new) = Ok (At [] (Tree None sample_children)) /\ getFirstValue (Tree None sample_children) (cp "/rule/filter/type") = Some (cp "name").
Proof. split; vm_compute; reflexivity. Qed.
Example C62_include_ex : exists f, (f = fun _ => Ok (cp "a 1")) /\ read_input f 1 (cp "#include x.conf" ++ nl ++ cp "b 2") (At [] t_new) = Ok (At [] (Tree None [(cp "a", Tree (Some (cp "1")) []); (cp "b", Tree (Some (cp "2")) [])])).
Proof. eexists. split; [reflexivity|]. vm_compute. reflexivity. Qed.
Example C62_write_ex : printable (Tree None sample_children) /\ grouped sample_children <> [].
Proof.
  assert (Pl : forall k, forallb (fun c => (33 <=? c) && (c <=? 126) && negb (c =? 92) && negb (c =? 34) && negb (c =? 59)) k = true -> Forall (fun c => plain c /\ ~ white c) k).
  { intros k H. apply Forall_forall. intros c I. rewrite forallb_forall in H. specialize (H c I). rewrite !andb_true_iff, !negb_true_iff in H. unfold plain, breaks, white. cbn [In]. lia. }
  assert (Pv : forall k, forallb (fun c => (32 <=? c) && (c <=? 126) && negb (c =? 92) && negb (c =? 34) && negb (c =? 59)) k = true -> Forall plain k).
  { intros k H. apply Forall_forall. intros c I. rewrite forallb_forall in H. specialize (H c I). rewrite !andb_true_iff, !negb_true_iff in H. unfold plain, breaks. cbn [In]. lia. }
  assert (Pk : forall k, k <> [] -> forallb (fun c => (33 <=? c) && (c <=? 126) && negb (c =? 92) && negb (c =? 34) && negb (c =? 59)) k = true -> k <> [123] -> k <> [125] -> k <> [35; 105; 110; 99; 108; 117; 100; 101] -> p_key k) by (intros k; unfold p_key; intuition).
  split; [|discriminate]. cbn [sample_children printable fst snd p_val].
  repeat split; try (apply Pk; [discriminate|reflexivity|discriminate|discriminate|discriminate]); try discriminate; try (apply Pv; reflexivity).
Qed.

Print Assumptions C62_read.
Print Assumptions C62_layout.
Print Assumptions C62_include.
Print Assumptions C62_lookup.
Print Assumptions C62_first.
Print Assumptions C62_write.
Print Assumptions C62_same.
Print Assumptions C62_errors.
