(** * Specification vocabulary for the producer *)
From Verif Require Import Base NameModel NameSpec DictModel WireModel WireSpec BlobModel CalModel CalProps CtlModel CtlSpec MatchSpec EncrModel GmSpec ExclModel ExclSpec ProdModel.

(** The hour of a time in milliseconds *)
Definition hour_of (ts : Z) : Z := ts / 3600000.
(** From the year 1000 to the last second but one of the year 9999 *)
Definition slot_ok (ts : Z) : Prop := year_1000 * 1000 <= ts < (year_10000 - 1) * 1000.
(** What an application and the Face pass: such times, and the names of packets *)
Definition pevent_ok (e : pevent) : Prop :=
  match e with Create ts _ _ _ _ | Produce ts _ _ _ _ _ => slot_ok ts | GotKey _ n _ _ => name_ok n | _ => True end.

(** A call that creates the content key of its hour: the time slot, which call, whether it has an
    onEncryptedKeys, the key *)
Record start : Type := Start { s_ts : Z; s_call : Z; s_wants : bool; s_key : bytes }.
Definition asks (e : pevent) : list start :=
  match e with Create ts c w k _ => [Start ts c w k] | Produce ts c _ k _ _ => [Start ts c false k] | _ => [] end.
(** [hs] are the hours that have a key already. *)
Fixpoint creating (hs : list Z) (l : list start) : list start :=
  match l with
  | [] => []
  | s :: r => if in_dec Z.eq_dec (hour_of (s_ts s)) hs then creating hs r else s :: creating (hs ++ [hour_of (s_ts s)]) r
  end.
(** The creating calls of a history of a producer whose database is [db] at first *)
Definition starts (db : dict Z bytes) (l : list pevent) : list start := creating (map fst db) (flat_map asks l).
(** Which call it is, is unambiguous. *)
Definition distinct_calls (l : list pevent) : Prop := NoDup (map s_call (flat_map asks l)).
(** The E-KEYs received: for which Interest, the name and the content *)
Definition received (l : list pevent) : list (kint * name * bytes) := flat_map (fun e => match e with GotKey i n c _ => [(i, n, c)] | _ => [] end) l.

Definition expressed (a : pact) : list kint := match a with PExpress i => [i] | _ => [] end.
(** The callbacks of onEncryptedKeys for a call *)
Definition answers (c : Z) (t : list pact) : list (list cpkt) := flat_map (fun a => match a with PEncrypted c' l => if c' =? c then [l] else [] | _ => [] end) t.
(** The Interests of a call for a node *)
Definition name_dec : forall a b : name, {a = b} + {a <> b} := GmSpec.name_dec.
Definition for_node (c : Z) (n : name) (i : kint) : bool := (i_call i =? c) && (if name_dec (i_name i) n then true else false).
Definition interests (c : Z) (n : name) (t : list pact) : list kint := filter (for_node c n) (flat_map expressed t).

(** How many Interests of a call for a node timed out, since the last E-KEY came in *)
Definition timeouts (c : Z) (n : name) (l : list pevent) : Z :=
  fold_left (fun k e => match e with TimedOut i => if for_node c n i then k + 1 else k | GotKey i _ _ _ => if for_node c n i then 0 else k | _ => k end) l 0.

Section Producer.
Variable rsa_enc : bytes -> bytes -> Z -> Z -> rsa_out.
Variable aes_enc : bytes -> bytes -> Z -> bytes -> res bytes.
Variables prefix dataType : name.
Variable maxRepeat : Z.
Variable db : dict Z bytes.
Notation after := (pafter rsa_enc aes_enc prefix dataType maxRepeat db).
Notation step := (pstep rsa_enc aes_enc prefix dataType maxRepeat).

(** The nodes whose E-KEYs may read: /prefix/READ/<a beginning of the data type>/E-KEY *)
Definition is_node (n : name) : Prop :=
  exists t u, t <> [] /\ dataType = t ++ u /\ n = prefix ++ [c_generic [82; 69; 65; 68]] ++ t ++ [c_generic [69; 45; 75; 69; 89]].

(** A history, with the Interests that are outstanding after it and all that the producer did. For
    each Interest the Face calls back once: with a Data packet, a timeout or a Nack. *)
Inductive history : list pevent -> list kint -> list pact -> Prop :=
| H_start : history [] [] []
| H_call l o t e : history l o t -> asks e <> [] ->
    let a := pr_outs (fst (step (after l) e)) in history (l ++ [e]) (o ++ flat_map expressed a) (t ++ a)
| H_back l o1 i o2 t e : history l (o1 ++ i :: o2) t -> (exists n c r, e = GotKey i n c r) \/ e = TimedOut i \/ e = Nacked i ->
    let a := pr_outs (fst (step (after l) e)) in history (l ++ [e]) (o1 ++ o2 ++ flat_map expressed a) (t ++ a).
(** Nothing went wrong: no exception, no onError *)
Definition smooth (l : list pevent) : Prop := forall l1 e l2, l = l1 ++ e :: l2 ->
  (exists x, snd (step (after l1) e) = Ok x) /\ forall c n, ~ In (PError c n) (pr_outs (fst (step (after l1) e))).

(** [x] holds the content key of the call [s], encrypted under an E-KEY for the node [n] that was received:
    either in answer to an Interest for this time slot or, when it covers the time slot, before. *)
Definition iso_of (t : Z) (c : comp) : Prop := exists s, toIsoString t = Ok s /\ c = c_generic s.
Definition names_time (c : comp) (t : Z) : Prop := exists s, utf8_decode (c_value c) = Ok s /\ fromIsoString s = Ok t.
Definition sealed_packet (l : list pevent) (s : start) (n : name) (x : cpkt) : Prop :=
  exists i m cb ce k b e ekn ch r, In (i, m ++ [cb; ce], k) (received l) /\ i_name i = n /\
    names_time cb b /\ names_time ce e /\ s_ts s < e /\
    (i_ts i = s_ts s /\ ekn = m ++ [cb; ce] \/ b <= s_ts s /\ exists cb' ce', iso_of b cb' /\ iso_of e ce' /\ ekn = n ++ [cb'; ce']) /\
    iso_of (hour_of (s_ts s) * 3600000) ch /\
    ck_name x = (prefix ++ [c_generic [83; 65; 77; 80; 76; 69]] ++ dataType) ++ [c_generic [67; 45; 75; 69; 89]; ch; c_generic [70; 79; 82]] ++ ekn /\
    sealed_for rsa_enc aes_enc k ekn 3 r (s_key s) (ck_content x).
(** There was a timeout or a Nack for the node. *)
Definition failed (l : list pevent) (s : start) (n : name) : Prop := exists i, (In (TimedOut i) l \/ In (Nacked i) l) /\ i_call i = s_call s /\ i_name i = n.
(** For each packet another node; and a packet for each node, unless it failed *)
Definition sealed_packets (l : list pevent) (s : start) (xs : list cpkt) : Prop :=
  exists ns, NoDup ns /\ Forall is_node ns /\ Forall2 (sealed_packet l s) ns xs /\ forall n, is_node n -> In n ns \/ failed l s n.
End Producer.

(** What the Face hands over matches the Interest: a name that ends in the start and the end time, and
    the start is not excluded. *)
Definition matching (l : list pevent) : Prop := forall i n c r, In (GotKey i n c r) l ->
  exists m cb ce, n = m ++ [cb; ce] /\ regular cb /\ cb <> c_empty /\ ~ excluded (i_excl i) cb.
(** An E-KEY that starts at [c] or later came in for the call and the node of the Interest. *)
Definition seen_from (l : list pevent) (i : kint) (c : comp) : Prop :=
  exists i' m cb ce k, In (i', m ++ [cb; ce], k) (received l) /\ i_call i' = i_call i /\ i_name i' = i_name i /\ le_k c cb.
