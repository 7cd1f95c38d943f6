(** * Model of util/boost_info_parser.py

    A str is the list of its code points.  A BoostInfoTree is its value and its subtrees in the order
    in which they were added, each with its name; the ordered dictionary of Python groups them
    by name.  The parser's context is a node together with the way back to the root; since the
    parser only enters the last child, the nodes on the way are last children.  The context None
    keeps the root.  What an exception leaves in the root is not modelled. *)
From Verif Require Import Base BlobModel.
Local Open Scope res_scope.

(** ** Tokens *)
(** boost_info_parser.py 37 *)
Definition is_ws (c : Z) : bool := (c =? 32) || (c =? 9) || (c =? 10) || (c =? 13).
(** boost_info_parser.py 48-83: one token and the rest of the text *)
Fixpoint token (s : str) (inQuotation : bool) : str * str :=
  match s with
  | [] => ([], [])
  | c :: s1 =>
      if c =? 92 then
        match s1 with
        | [] => ([], [])
        | d :: s2 => let r := token s2 inQuotation in (d :: fst r, snd r)
        end
      else if c =? 34 then token s1 (negb inQuotation)
      else if negb inQuotation && is_ws c then ([], s)
      else let r := token s1 inQuotation in (c :: fst r, snd r)
  end.
(** boost_info_parser.py 41-46 *)
Fixpoint skip_ws (s : str) : str := match s with c :: s' => if is_ws c then skip_ws s' else s | [] => [] end.
(** boost_info_parser.py 23-89: shlex_split *)
Fixpoint shlex (fuel : nat) (s : str) : list str :=
  match fuel with
  | O => []
  | S f => match skip_ws s with [] => [] | s' => let r := token s' false in fst r :: shlex f (snd r) end
  end.
Definition shlex_split (s : str) : list str := shlex (S (length s)) s.

(** ** Lines: str.splitlines and str.strip of Python *)
Definition is_break (c : Z) : bool := existsb (Z.eqb c) [10; 11; 12; 13; 28; 29; 30; 133; 8232; 8233].
Fixpoint split_lines (s cur : str) : list str :=
  match s with
  | [] => match cur with [] => [] | _ => [rev cur] end
  | c :: s' =>
      if is_break c then rev cur :: match c, s' with 13, 10 :: s'' => split_lines s'' [] | _, _ => split_lines s' [] end
      else split_lines s' (c :: cur)
  end.
Definition splitlines (s : str) : list str := split_lines s [].
Definition is_space (c : Z) : bool :=
  ((9 <=? c) && (c <=? 13)) || ((28 <=? c) && (c <=? 32)) || (c =? 133) || (c =? 160) || (c =? 5760) || ((8192 <=? c) && (c <=? 8202)) ||
  (c =? 8232) || (c =? 8233) || (c =? 8239) || (c =? 8287) || (c =? 12288).
Fixpoint lstrip (s : str) : str := match s with c :: s' => if is_space c then lstrip s' else s | [] => [] end.
Definition strip (s : str) : str := rev (lstrip (rev (lstrip s))).
(** [string.find(c)]: what is before the first [c], and the rest from it on *)
Fixpoint find_char (c : Z) (s : str) : option (str * str) :=
  match s with
  | [] => None
  | d :: s' => if d =? c then Some ([], s) else match find_char c s' with Some (a, b) => Some (d :: a, b) | None => None end
  end.

(** ** Trees *)
Inductive tree : Type := Tree (value : option str) (children : list (str * tree)).
Definition t_value (t : tree) : option str := match t with Tree v _ => v end.
Definition t_children (t : tree) : list (str * tree) := match t with Tree _ l => l end.
(** boost_info_parser.py 216-218: the new root *)
Definition t_new : tree := Tree None [].
(** [self.subtrees[name]], or no subtrees *)
Definition subtrees (t : tree) (k : str) : list tree := map snd (filter (fun p => zlist_eqb (fst p) k) (t_children t)).
(** [key.lstrip('/')], [key.split('/')] *)
Fixpoint lslash (k : str) : str := match k with c :: k' => if c =? 47 then lslash k' else k | [] => [] end.
(** boost_info_parser.py 148-164: __getitem__; [fuel] is the length of the key *)
Fixpoint getitem (fuel : nat) (t : tree) (key : str) : list tree :=
  match lslash key with
  | [] => [t]
  | k =>
      match find_char 47 k with
      | None => subtrees t k
      | Some (p, rest) =>
          match fuel with
          | O => []
          | S f => flat_map (fun s => getitem f s (tl rest)) (subtrees t p)
          end
      end
  end.
Definition t_getitem (t : tree) (key : str) : list tree := getitem (length key) t key.
(** boost_info_parser.py 166-182: getFirstValue *)
Definition getFirstValue (t : tree) (key : str) : option str := match t_getitem t key with s :: _ => t_value s | [] => None end.

(** ** The parser *)
Record frame : Type := Frame { f_value : option str; f_before : list (str * tree); f_key : str }.
Inductive ctx : Type := At (stack : list frame) (t : tree) | Lost (root : tree).
Definition up (f : frame) (t : tree) : tree := Tree (f_value f) (f_before f ++ [(f_key f, t)]).
Definition root_of (c : ctx) : tree := match c with At st t => fold_left (fun t f => up f t) st t | Lost r => r end.
(** boost_info_parser.py 122-146: createSubtree *)
Definition createSubtree (c : ctx) (k : str) (v : option str) : res ctx :=
  match c with
  | At st (Tree v0 l) => Ok (At st (Tree v0 (l ++ [(k, Tree v [])])))
  | Lost _ => Err AttributeError
  end.
(** boost_info_parser.py 356-358: context.lastChild *)
Definition openSection (c : ctx) : res ctx :=
  match c with
  | At st (Tree v l) =>
      match rev l with
      | (k, t) :: b => Ok (At (Frame v (rev b) k :: st) t)
      | [] => Ok (Lost (root_of c))
      end
  | Lost _ => Err AttributeError
  end.
(** boost_info_parser.py 361-363: context.parent *)
Definition closeSection (c : ctx) : res ctx :=
  match c with
  | At (f :: st) t => Ok (At st (up f t))
  | At [] t => Ok (Lost t)
  | Lost _ => Err AttributeError
  end.
Definition INCLUDE : str := [35; 105; 110; 99; 108; 117; 100; 101].
Section Parse.
(** reading of the file named in an #include line into the context *)
Variable include : str -> ctx -> res ctx.
(** boost_info_parser.py 309-365: _parseLine.  The calls are nested at most once. *)
Fixpoint parse_line (n : nat) (s : str) (c : ctx) : res ctx :=
  let s := match find_char 59 s with Some (a, _) => strip a | None => s end in
  match s with
  | [] => Ok c
  | c0 :: _ =>
      let strings := shlex_split s in
      let isSectionStart := existsb (zlist_eqb [123]) strings in
      let isSectionEnd := existsb (zlist_eqb [125]) strings in
      if negb isSectionStart && negb isSectionEnd then
        match strings with
        | [] => Err IndexError
        | key :: rest =>
            let val := match rest with v :: _ => Some v | [] => None end in
            if zlist_eqb key INCLUDE then match val with Some v => include v c | None => Err TypeError end
            else createSubtree c key val
        end
      else
        match find_char 123 s with
        | Some (d :: a, b) =>
            match n with
            | O => Err OutOfFuel
            | S n' => c1 <-- parse_line n' (d :: a) c ;; parse_line n' b c1
            end
        | _ =>
            if c0 =? 123 then openSection c
            else if c0 =? 125 then closeSection c
            else Err RuntimeError
        end
  end.
Fixpoint parse_lines (ls : list str) (c : ctx) : res ctx :=
  match ls with [] => Ok c | l :: ls' => c1 <-- parse_line 1 (strip l) c ;; parse_lines ls' c1 end.
End Parse.
(** boost_info_parser.py 256-268: _read.  [open_file] gives the text of a file; [fuel] bounds the
    nesting of #include. *)
Section Read.
Variable open_file : str -> res str.
Fixpoint read_input (fuel : nat) (input : str) (c : ctx) : res ctx :=
  parse_lines (fun f c => match fuel with O => Err OutOfFuel | S k => t <-- open_file f ;; read_input k t c end) (splitlines input) c.
End Read.

(** ** Writing *)
Definition spaces (n : nat) : str := repeat 32 n.
(** The dictionary self.subtrees: the names in the order of their first use, with their subtrees *)
Fixpoint group_by (fuel : nat) (l : list (str * tree)) : list (str * tree) :=
  match fuel, l with
  | S f, (k, t) :: r => (k, t) :: filter (fun p => zlist_eqb (fst p) k) r ++ group_by f (filter (fun p => negb (zlist_eqb (fst p) k)) r)
  | _, _ => []
  end.
Definition grouped (l : list (str * tree)) : list (str * tree) := group_by (length l) l.
(** boost_info_parser.py 191-207: _prettyprint of a node that is not the root; [fuel] is the depth *)
Fixpoint print_node (fuel : nat) (level : nat) (t : tree) : str :=
  (match t_value t with Some (c :: v) => 34 :: (c :: v) ++ [34] | _ => [] end) ++ 10 ::
  match t_children t with
  | [] => []
  | l => spaces level ++ 123 :: 10 ::
         match fuel with
         | O => []
         | S f => flat_map (fun p => spaces (level + 2) ++ fst p ++ 32 :: print_node f (level + 2) (snd p)) (grouped l)
         end ++ spaces level ++ [125; 10]
  end.
Fixpoint t_depth (t : tree) : nat := match t with Tree _ l => S (fold_right Nat.max 0%nat (map (fun p => t_depth (snd p)) l)) end.
(** boost_info_parser.py 209-210: str(root) *)
Definition print_root (t : tree) : str :=
  flat_map (fun p => spaces 3 ++ fst p ++ 32 :: print_node (t_depth t) 3 (snd p)) (grouped (t_children t)).
