(** * Specification of the INFO format of property trees *)
From Verif Require Import Base BlobModel InfoModel.

(** ** Layout *)
(** a character that ends a line *)
Definition breaks (c : Z) : Prop := In c [10; 11; 12; 13; 28; 29; 30; 133; 8232; 8233].
Definition no_break (l : str) : Prop := Forall (fun c => ~ breaks c) l.
Definition blanks (l : str) : Prop := Forall (fun c => c = 32 \/ c = 9) l.
(** nothing, or a semicolon and anything *)
Definition comment (l : str) : Prop := l = [] \/ exists t, l = 59 :: t /\ no_break t.
(** Unicode white space *)
Definition white (c : Z) : Prop :=
  9 <= c <= 13 \/ 28 <= c <= 32 \/ c = 133 \/ c = 160 \/ c = 5760 \/ 8192 <= c <= 8202 \/ c = 8232 \/ c = 8233 \/ c = 8239 \/ c = 8287 \/ c = 12288.
(** [spells q t k]: the text [t] spells the token [k]; a backslash takes the next character, double
    quotes ([q]: inside of them) take white space.  No semicolon. *)
Inductive spells : bool -> str -> str -> Prop :=
  | Sp_end : spells false [] []
  | Sp_char : forall (q : bool) c t k, c <> 92 -> c <> 34 -> c <> 59 -> ~ breaks c -> (q = false -> ~ white c) -> spells q t k -> spells q (c :: t) (c :: k)
  | Sp_escape : forall (q : bool) c t k, c <> 59 -> ~ breaks c -> (q = false -> ~ white c) -> spells q t k -> spells q (92 :: c :: t) (c :: k)
  | Sp_quote : forall q t k, spells (negb q) t k -> spells q (34 :: t) k.
(** [entry k v t]: the text [t] has the name [k] and, if there is one, the value [v] *)
Definition word (t k : str) : Prop := t <> [] /\ spells false t k /\ k <> [123] /\ k <> [125].
Definition entry (k : str) (v : option str) (t : str) : Prop :=
  k <> [35; 105; 110; 99; 108; 117; 100; 101] /\
  match v with
  | None => word t k
  | Some v => exists t1 b t2, t = t1 ++ b ++ t2 /\ word t1 k /\ blanks b /\ b <> [] /\ word t2 v
  end.
Definition skipped (l : str) : Prop := exists b c, l = b ++ c /\ blanks b /\ comment c.
Definition padded (t l : str) : Prop := exists b b' c, l = b ++ t ++ b' ++ c /\ blanks b /\ blanks b' /\ comment c.

(** [lays ch ls]: the lines [ls] are a layout of the named subtrees [ch] *)
Inductive lays : list (str * tree) -> list str -> Prop :=
  | L_end : lays [] []
  | L_skip : forall l ls ch, skipped l -> lays ch ls -> lays ch (l :: ls)
  | L_entry : forall k v t l ls ch, entry k v t -> padded t l -> lays ch ls -> lays ((k, Tree v []) :: ch) (l :: ls)
  (* the left brace on its own line *)
  | L_section : forall k v t l mid l1 sub body l2 ls ch, entry k v t -> padded t l -> Forall skipped mid -> padded [123] l1 -> lays sub body -> padded [125] l2 -> lays ch ls ->
      lays ((k, Tree v sub) :: ch) (l :: mid ++ l1 :: body ++ l2 :: ls)
  (* the left brace after the name and value, in which there is none *)
  | L_brace : forall k v t b l sub body l2 ls ch, entry k v t -> ~ In 123 t -> blanks b -> b <> [] -> padded (t ++ b ++ [123]) l -> lays sub body -> padded [125] l2 -> lays ch ls ->
      lays ((k, Tree v sub) :: ch) (l :: body ++ l2 :: ls).
(** the lines of a text, each ended by LF or CR LF; the last one may be not ended *)
Inductive text_lines : str -> list str -> Prop :=
  | Tl_end : text_lines [] []
  | Tl_last : forall l, no_break l -> l <> [] -> text_lines l [l]
  | Tl_line : forall l e t ls, no_break l -> e = [10] \/ e = [13; 10] -> text_lines t ls -> text_lines (l ++ e ++ t) (l :: ls).

(** ** Lookup *)
(** the parts of a path between slashes, without the empty ones *)
Fixpoint parts (s : str) : list str :=
  match s with
  | [] => [[]]
  | c :: s' => if c =? 47 then [] :: parts s' else match parts s' with p :: ps => (c :: p) :: ps | [] => [[c]] end
  end.
Definition path (key : str) : list str := filter (fun p => match p with [] => false | _ => true end) (parts key).
Fixpoint select (ks : list str) (t : tree) : list tree :=
  match ks with
  | [] => [t]
  | k :: ks' => flat_map (select ks') (map snd (filter (fun p => zlist_eqb (fst p) k) (t_children t)))
  end.

(** ** Writing *)
(** names and values without special characters *)
Definition plain (c : Z) : Prop := ~ breaks c /\ c <> 92 /\ c <> 34 /\ c <> 59.
Definition p_key (k : str) : Prop := k <> [] /\ Forall (fun c => plain c /\ ~ white c) k /\ k <> [123] /\ k <> [125] /\ k <> [35; 105; 110; 99; 108; 117; 100; 101].
Definition p_val (v : option str) : Prop := match v with None => True | Some v => v <> [] /\ Forall plain v /\ v <> [123] /\ v <> [125] end.
Fixpoint printable (t : tree) : Prop :=
  match t with
  | Tree v l => p_val v /\ (fix all (l : list (str * tree)) : Prop := match l with [] => True | p :: l' => p_key (fst p) /\ printable (snd p) /\ all l' end) l
  end.
(** the subtrees of a name, in their order *)
Definition named (k : str) (l : list (str * tree)) : list tree := map snd (filter (fun p => zlist_eqb (fst p) k) l).
(** the same tree, up to the order of subtrees of different names *)
Inductive same : tree -> tree -> Prop :=
  | Same : forall v l l', (forall k, Forall2 same (named k l) (named k l')) -> same (Tree v l) (Tree v l').
