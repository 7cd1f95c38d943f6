(** * Specification of the NDN regular expressions *)
From Verif Require Import Base NameModel UriModel BlobModel.

(** ** Syntax *)
(** The number of repetitions: none given, ?, +, *, {a}, {a,}, {,b}, {a,b} with texts of digits *)
Inductive quant : Type := QOne | QOpt | QPlus | QStar | QExact (a : str) | QFrom (a : str) | QUpTo (b : str) | QBetween (a b : str).
Inductive item : Type :=
  | One (t : str) (q : quant)                     (* <t> *)
  | Set_ (neg : bool) (ts : list str) (q : quant) (* [<t><t>...] or [^<t><t>...] *)
  | Group (l : list item) (q : quant).            (* (...) *)
Definition q_text (q : quant) : str :=
  match q with
  | QOne => [] | QOpt => [63] | QPlus => [43] | QStar => [42]
  | QExact a => 123 :: a ++ [125] | QFrom a => 123 :: a ++ [44; 125] | QUpTo b => 123 :: 44 :: b ++ [125]
  | QBetween a b => 123 :: a ++ 44 :: b ++ [125]
  end.
Definition comp_text (t : str) : str := 60 :: t ++ [62].
Definition set_text (neg : bool) (ts : list str) : str := (if neg then [94] else []) ++ flat_map comp_text ts.
Fixpoint i_text (i : item) : str :=
  match i with
  | One t q => comp_text t ++ q_text q
  | Set_ neg ts q => 91 :: set_text neg ts ++ 93 :: q_text q
  | Group l q => 40 :: flat_map i_text l ++ 41 :: q_text q
  end.
Definition e_text (e : list item) : str := flat_map i_text e.
(** ^ at the beginning, $ at the end *)
Definition top_text (start : bool) (e : list item) (stop : bool) : str := (if start then [94] else []) ++ e_text e ++ (if stop then [36] else []).

(** decimal numbers *)
Definition decimal (t : str) : Z := fold_left (fun n c => n * 10 + (c - 48)) t 0.
Definition number (t : str) : Prop := t <> [] /\ Forall (fun c => 48 <= c <= 57) t.
Definition q_min (q : quant) : Z :=
  match q with QOne | QPlus => 1 | QOpt | QStar | QUpTo _ => 0 | QExact a | QFrom a | QBetween a _ => decimal a end.
(** None: no upper limit *)
Definition q_max (q : quant) : option Z :=
  match q with QOne | QOpt => Some 1 | QPlus | QStar | QFrom _ => None | QExact a => Some (decimal a) | QUpTo b | QBetween _ b => Some (decimal b) end.
Definition q_ok (q : quant) : Prop :=
  match q with
  | QExact a | QFrom a => number a /\ decimal a <= 32767
  | QUpTo b => number b /\ decimal b <= 32767
  | QBetween a b => number a /\ number b /\ decimal a <= decimal b <= 32767
  | _ => True
  end.
(** The brackets l and r of the text match *)
Definition count (c : Z) (t : str) : nat := count_occ Z.eq_dec t c.
Definition balanced (l r : Z) (t : str) : Prop := count l t = count r t /\ forall p s, t = p ++ s -> (count r p <= count l p)%nat.

Section S.
Variable re_groups : str -> res nat.
Variable re_search : str -> str -> option (list (option str)).
Definition groups (t : str) : nat := match re_groups t with Ok g => g | Err _ => 0%nat end.
Definition t_ok (t : str) : Prop := balanced 60 62 t /\ exists g, re_groups t = Ok g.
Fixpoint wf_item (i : item) : Prop :=
  match i with
  | One t q => t_ok t /\ q_ok q
  | Set_ neg ts q => Forall t_ok ts /\ balanced 91 93 (set_text neg ts) /\ q_ok q
  | Group l q => (fix wf (l : list item) : Prop := match l with [] => True | i :: l' => wf_item i /\ wf l' end) l /\ balanced 40 41 (e_text l) /\ q_ok q
  end.
Definition wf (e : list item) : Prop := Forall wf_item e.

(** ** The names that match *)
(** The regular expression of a component is found in its text; the empty one always *)
Definition found (t : str) (c : comp) : Prop := t = [] \/ re_search t (c_toEscapedString c) <> None.
Definition within (q : quant) (n : nat) : Prop := q_min q <= Z.of_nat n /\ match q_max q with Some m => Z.of_nat n <= m | None => True end.
Definition reps (q : quant) (P : list comp -> Prop) (w : list comp) : Prop := exists ws, w = concat ws /\ Forall P ws /\ within q (length ws).
Definition member (neg : bool) (ts : list str) (w : list comp) : Prop :=
  exists c, w = [c] /\ (if neg then ~ Exists (fun t => found t c) ts else Exists (fun t => found t c) ts).
Fixpoint lang_item (i : item) (w : list comp) : Prop :=
  match i with
  | One t q => reps q (member false [t]) w
  | Set_ neg ts q => reps q (member neg ts) w
  | Group l q =>
      reps q ((fix lang (l : list item) (w : list comp) : Prop :=
                 match l with [] => w = [] | i :: l' => exists u v, w = u ++ v /\ lang_item i u /\ lang l' v end) l) w
  end.
Fixpoint lang (e : list item) (w : list comp) : Prop :=
  match e with [] => w = [] | i :: e' => exists u v, w = u ++ v /\ lang_item i u /\ lang e' v end.
(** The whole expression: without ^ or $ it may match in the middle of the name *)
Definition matches (start : bool) (e : list item) (stop : bool) (n : name) : Prop :=
  exists u v w, n = u ++ v ++ w /\ lang e v /\ (start = true -> u = []) /\ (stop = true -> w = []).
(** No group that has to be repeated at least once matches the empty name *)
Fixpoint strict_item (i : item) : Prop :=
  match i with
  | One _ _ | Set_ _ _ _ => True
  | Group l q => (fix strict (l : list item) : Prop := match l with [] => True | i :: l' => strict_item i /\ strict l' end) l /\
                 (q = QOne \/ q_min q = 0 \/ ~ lang l [])
  end.
Definition strict (e : list item) : Prop := Forall strict_item e.

(** ** Back references
    They are numbered from the left: one for each group, at its left parenthesis, and one for each
    group in the regular expression of a component. *)
Fixpoint nrefs_item (i : item) : nat :=
  match i with
  | One t _ => groups t
  | Set_ _ ts _ => list_sum (map groups ts)
  | Group l _ => S (list_sum (map nrefs_item l))
  end.
Definition nrefs (e : list item) : nat := list_sum (map nrefs_item e).
Definition caps : Type := list (nat * list comp).
Definition text_comp (t : option str) : comp :=
  match t with Some t => match utf8_encode t with Ok b => c_generic b | Err _ => c_generic [] end | None => c_generic [] end.
(** what the first regular expression that is found captures *)
Fixpoint set_caps (k : nat) (ts : list str) (c : comp) : option caps :=
  match ts with
  | [] => None
  | [] :: _ => Some []
  | t :: ts' => match re_search t (c_toEscapedString c) with
                | Some g => Some (combine (seq k (groups t)) (map (fun x => [text_comp x]) g))
                | None => set_caps (k + groups t) ts' c
                end
  end.
Definition member_caps (k : nat) (neg : bool) (ts : list str) (w : list comp) (s : caps) : Prop :=
  exists c, w = [c] /\ match set_caps k ts c with Some g => neg = false /\ s = g | None => neg = true /\ s = [] end.
(** the captures of the last repetition *)
Definition reps_caps (q : quant) (R : list comp -> caps -> Prop) (w : list comp) (s : caps) : Prop :=
  exists ws, w = concat ws /\ within q (length ws) /\ Forall (fun v => exists s', R v s') ws /\
    match rev ws with [] => s = [] | v :: _ => R v s end.
Fixpoint caps_item (k : nat) (i : item) (w : list comp) (s : caps) : Prop :=
  match i with
  | One t q => reps_caps q (member_caps k false [t]) w s
  | Set_ neg ts q => reps_caps q (member_caps k neg ts) w s
  | Group l q =>
      reps_caps q (fun v s => exists s', s = (k, v) :: s' /\
        (fix caps_list (k : nat) (l : list item) (w : list comp) (s : caps) : Prop :=
           match l with
           | [] => w = [] /\ s = []
           | i :: l' => exists u v s1 s2, w = u ++ v /\ s = s1 ++ s2 /\ caps_item k i u s1 /\ caps_list (k + nrefs_item i)%nat l' v s2
           end) (S k) l v s') w s
  end.
Fixpoint caps_of (k : nat) (e : list item) (w : list comp) (s : caps) : Prop :=
  match e with
  | [] => w = [] /\ s = []
  | i :: e' => exists u v s1 s2, w = u ++ v /\ s = s1 ++ s2 /\ caps_item k i u s1 /\ caps_of (k + nrefs_item i) e' v s2
  end.
End S.

(** ** Expansion: \n and <text> *)
Inductive piece : Type := Ref (n : str) | Txt (t : str).
Definition p_text (p : piece) : str := match p with Ref n => 92 :: n | Txt t => comp_text t end.
Definition p_ok (p : piece) : Prop := match p with Ref n => number n | Txt t => balanced 60 62 t /\ exists b, utf8_encode t = Ok b end.
Definition p_value (ref : Z -> res name) (p : piece) : res name :=
  match p with Ref n => ref (decimal n) | Txt t => match utf8_encode t with Ok b => Ok [c_generic b] | Err e => Err e end end.
Fixpoint p_values (ref : Z -> res name) (ps : list piece) : res name :=
  match ps with
  | [] => Ok []
  | p :: ps' => match p_value ref p with
                | Ok v => match p_values ref ps' with Ok r => Ok (v ++ r) | Err e => Err e end
                | Err e => Err e
                end
  end.
Definition ends_in_text (ps : list piece) : Prop := exists ps' t, ps = ps' ++ [Txt t].

(** ** What is assumed of Python's re *)
(** ".*" is a regular expression without groups that is found in every text *)
Definition re_any (re_groups : str -> res nat) (re_search : str -> str -> option (list (option str))) : Prop :=
  re_groups [46; 42] = Ok 0%nat /\ forall s, re_search [46; 42] s <> None.
(** Letters, digits, _, -, %, =, and . and + with a backslash, stand for themselves *)
Definition literal (c : Z) : Prop := 48 <= c <= 57 \/ 65 <= c <= 90 \/ 97 <= c <= 122 \/ c = 95 \/ c = 45 \/ c = 37 \/ c = 61 \/ c = 46 \/ c = 43.
Definition quoted (t : str) : str := flat_map (fun c => if (c =? 46) || (c =? 43) then [92; c] else [c]) t.
Definition substring (t s : str) : Prop := exists a b, s = a ++ t ++ b.
Definition re_literal (re_groups : str -> res nat) (re_search : str -> str -> option (list (option str))) : Prop :=
  forall t, t <> [] -> Forall literal t -> re_groups (quoted t) = Ok 0%nat /\ forall s, re_search (quoted t) s <> None <-> substring t s.
