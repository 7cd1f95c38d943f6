(** * Specification vocabulary for the consumer *)
From Verif Require Import Base NameModel DictModel WireModel CtlModel EncrModel ConsModel.

(** What is outstanding: an Interest in the Face, or a Data packet that verifyData is still checking *)
Inductive pend : Type := PInterest (i : cint) | PCheck (i : cint) (d : cdata).
Definition pend_int (x : pend) : cint := match x with PInterest i => i | PCheck i _ => i end.
Definition new_pends (a : cact) : list pend := match a with CExpress i => [PInterest i] | CWait i d => [PCheck i d] | _ => [] end.

(** Calls of consume *)
Definition calls (l : list cevent) : list Z := flat_map (fun e => match e with Consume c _ _ => [c] | _ => [] end) l.
(** What the application has been told about a call: the plaintext or an error *)
Inductive reply : Type := Plain (d : cdata) (m : bytes) | Failed (code : Z).
Definition replies (c : Z) (t : list cact) : list reply :=
  flat_map (fun a => match a with CComplete c' d m => if c' =? c then [Plain d m] else [] | CError c' n => if c' =? c then [Failed n] else [] | _ => [] end) t.
(** How often an exception of the consumer on behalf of a call was only logged *)
Definition losses (c : Z) (t : list cact) : Z := zlen (filter (fun a => match a with CLogged c' => c' =? c | _ => false end) t).
Definition waiting (c : Z) (o : list pend) : Z := zlen (filter (fun x => i_call (pend_int x) =? c) o).

(** The three Interests of a call: for the content (0), the content key (1), the decryption key (2) *)
Definition level (s : stage) : Z := match s with ForContent => 0 | ForCKey _ _ => 1 | ForDKey _ _ _ _ => 2 end.
Definition sent (c n : Z) (t : list cact) : list cint :=
  flat_map (fun a => match a with CExpress i => if (i_call i =? c) && (level (i_stage i) =? n) then [i] else [] | _ => [] end) t.
Definition again (i : cint) : cint := CInt (i_call i) (i_name i) (i_link i) 0 (i_stage i).

(** The packet is verified, is refused by the verification. *)
Definition verified (l : list cevent) (i : cint) (d : cdata) : Prop := In (GotData i d Accept) l \/ In (Verified i d true) l.
Definition rejected (l : list cevent) (i : cint) (d : cdata) : Prop := In (GotData i d Reject) l \/ In (Verified i d false) l.
(** The content of the packet is an EncryptedContent (C23), perhaps with more bytes after it. *)
Definition holds (d : cdata) (e : encryptedContent) : Prop := exists w, cd_content d = Some w /\ decodeEncryptedContent w = Ok e.
Definition malformed (d : cdata) : Prop := forall e, ~ holds d e.
(** The name of the key that an EncryptedContent is encrypted with *)
Definition key_of (e : encryptedContent) : name := kl_name (ec_keyLocator e).
Definition alike (a b : name) : Prop := n_equals a b = true.

(** The name of the D-KEY for the name of an E-KEY: E-KEY becomes D-KEY, and the last two components stay.
    (If the name has no three components, what the code makes of it) *)
Inductive dkey_name : name -> name -> Prop :=
| D_long m x a b : dkey_name (m ++ [x; a; b]) (m ++ [c_generic [68; 45; 75; 69; 89]; a; b])
| D_two a b : dkey_name [a; b] [c_generic [68; 45; 75; 69; 89]; a; b]
| D_one a : dkey_name [a] [c_generic [68; 45; 75; 69; 89]; a; a].
Definition with_for (a b : name) : name := a ++ [c_generic [70; 79; 82]] ++ b.

Section Consumer.
Variable rsa_dec : bytes -> bytes -> res bytes.
Variable aes_dec : bytes -> bytes -> bytes -> res bytes.
Variable refuses : name -> option bytes -> bool.
Variable consumerName : name.
Variables cKeyLink dKeyLink : option bytes.
Variable group : name.
Variable db : dict bytes bytes.
Notation after := (cafter rsa_dec aes_dec refuses consumerName cKeyLink dKeyLink group db).
Notation step := (cstep rsa_dec aes_dec refuses consumerName cKeyLink dKeyLink).

(** A history, with what is outstanding after it and all that the consumer did. For each Interest the
    Face calls back once: with a Data packet, a timeout or a Nack. A late verification calls back once. *)
Inductive history : list cevent -> list pend -> list cact -> Prop :=
| H_start : history [] [] []
| H_call l o t e : history l o t -> (exists c n k, e = Consume c n k) \/ (exists g, e = SetGroup g) \/ (exists n k, e = AddKey n k) \/ (exists n, e = DeleteKey n) ->
    let a := cs_outs (fst (step (after l) e)) in history (l ++ [e]) (o ++ flat_map new_pends a) (t ++ a)
| H_face l o1 i o2 t e : history l (o1 ++ PInterest i :: o2) t -> (exists d v, e = GotData i d v) \/ e = TimedOut i \/ e = Nacked i ->
    let a := cs_outs (fst (step (after l) e)) in history (l ++ [e]) (o1 ++ o2 ++ flat_map new_pends a) (t ++ a)
| H_late l o1 i d o2 t good : history l (o1 ++ PCheck i d :: o2) t ->
    let e := Verified i d good in
    let a := cs_outs (fst (step (after l) e)) in history (l ++ [e]) (o1 ++ o2 ++ flat_map new_pends a) (t ++ a).

(** The group: the last one that was set *)
Definition group_of (l : list cevent) : name := fold_left (fun g e => match e with SetGroup g' => g' | _ => g end) l group.
(** The keys in the database: those of the start and those added, but not those deleted. A second key with
    the same name, and one whose name does not begin with the consumer name, is refused. *)
Definition keys_of (l : list cevent) (w : bytes) : option bytes :=
  fold_left (fun f e => match e with
    | AddKey n (Some k) => fun w => match f w with Some x => Some x | None => if n_match consumerName n && zlist_eqb (encodeName n) w then Some k else None end
    | DeleteKey n => fun w => if zlist_eqb (encodeName n) w then None else f w
    | _ => f end) l (dget zlist_eqb db) w.
(** At some time in the history *)
Definition sometime (l : list cevent) (P : list cevent -> Prop) : Prop := exists l1 l2, l = l1 ++ l2 /\ P l1.

(** [e] decrypted with [key] is [m]: by AES-CBC or by RSA-OAEP *)
Definition decrypts (e : encryptedContent) (key m : bytes) : Prop :=
  exists c, ec_payload e = Some c /\
    ((exists iv, ec_algorithm e = Some 1 /\ ec_iv e = Some iv /\ aes_dec key iv c = Ok m) \/ ec_algorithm e = Some 3 /\ rsa_dec key c = Ok m).

(** The packet [d] with [e] is the content that the call asked for. *)
Definition content_of (l : list cevent) (c : Z) (d : cdata) (e : encryptedContent) : Prop :=
  exists i, verified l i d /\ i_call i = c /\ i_stage i = ForContent /\ In (Consume c (i_name i) (i_link i)) l /\ holds d e.
(** The C-KEY packet for the key name [n], asked for with an Interest for it, holds [e2]. *)
Definition ckey_packet (l : list cevent) (n : name) (e2 : encryptedContent) : Prop :=
  exists i d d0 e, verified l i d /\ i_stage i = ForCKey d0 e /\ n = key_of e /\ sometime l (fun l1 => i_name i = with_for n (group_of l1)) /\ holds d e2.
(** The D-KEY packet for the D-KEY name [n] has two parts: a nonce encrypted with a key from the
    database, and the D-KEY encrypted with the nonce. *)
Definition dkey_packet (l : list cevent) (n : name) (w : bytes) (e3 : encryptedContent) : Prop :=
  exists i d d0 e e2, verified l i d /\ i_stage i = ForDKey d0 e e2 n /\ i_name i = with_for n consumerName /\ cd_content d = Some w /\ decodeEncryptedContent w = Ok e3.
Definition second_part (w : bytes) (e3 : encryptedContent) (rest : bytes) : Prop := exists w3, encodeEncryptedContent e3 = Ok w3 /\ rest = skipn (length w3) w.
Definition dkey_from (l : list cevent) (n : name) (k : bytes) : Prop :=
  exists w e3 key nonce rest e4, dkey_packet l n w e3 /\ sometime l (fun l1 => keys_of l1 (encodeName (key_of e3)) = Some key) /\ key <> [] /\
    decrypts e3 key nonce /\ second_part w e3 rest /\ decodeEncryptedContent rest = Ok e4 /\ decrypts e4 nonce k.
Definition ckey_from (l : list cevent) (n : name) (k : bytes) : Prop :=
  exists e2 dn dn' dk, ckey_packet l n e2 /\ dkey_name (key_of e2) dn /\ alike dn dn' /\ dkey_from l dn' dk /\ decrypts e2 dk k.

(** The Interests: for the content, for its content key, for the decryption key of that *)
Definition interest_ok (l : list cevent) (i : cint) : Prop :=
  match i_stage i with
  | ForContent => In (Consume (i_call i) (i_name i) (i_link i)) l
  | ForCKey d e => content_of l (i_call i) d e /\ sometime l (fun l1 => i_name i = with_for (key_of e) (group_of l1)) /\ i_link i = cKeyLink
  | ForDKey d e e2 dn => content_of l (i_call i) d e /\ ckey_packet l (key_of e) e2 /\ dkey_name (key_of e2) dn /\ i_name i = with_for dn consumerName /\ i_link i = dKeyLink
  end.

(** Why decrypting fails: an unsupported algorithm (1032), or the cipher raises (1033) *)
Definition bad (e : encryptedContent) (key : bytes) (code : Z) : Prop :=
  (ec_algorithm e <> Some 1 /\ ec_algorithm e <> Some 3 /\ code = 1032) \/
  ((ec_algorithm e = Some 1 \/ ec_algorithm e = Some 3) /\ (forall m, ~ decrypts e key m) /\ code = 1033).
(** The EncryptedContent and the key that are used together *)
Inductive tried (l : list cevent) (c : Z) : encryptedContent -> bytes -> Prop :=
| T_content d e n k : content_of l c d e -> ckey_from l n k -> alike n (key_of e) -> tried l c e k
| T_ckey n e2 dn dn' k : ckey_packet l n e2 -> dkey_name (key_of e2) dn -> alike dn dn' -> dkey_from l dn' k -> tried l c e2 k
| T_nonce n w e3 k : dkey_packet l n w e3 -> sometime l (fun l1 => keys_of l1 (encodeName (key_of e3)) = Some k) -> tried l c e3 k
| T_dkey n w e3 key nonce rest e4 : dkey_packet l n w e3 -> sometime l (fun l1 => keys_of l1 (encodeName (key_of e3)) = Some key) -> decrypts e3 key nonce ->
    second_part w e3 rest -> decodeEncryptedContent rest = Ok e4 -> tried l c e4 nonce.
(** Why onError is called *)
Inductive cause (l : list cevent) (c : Z) : Z -> Prop :=
| W_invalid i d : rejected l i d -> i_call i = c -> cause l c 1002
| W_nack i : In (Nacked i) l -> i_call i = c -> cause l c 1036
| W_timeout i : In (TimedOut i) l -> In (TimedOut (again i)) l -> i_trials i = 1 -> i_call i = c -> cause l c 1036
| W_refused i : i_call i = c -> refuses (i_name i) (i_link i) = true -> interest_ok l i -> cause l c 200
| W_raised i d : In (GotData i d Raise) l -> i_call i = c -> cause l c 200
| W_malformed i d : verified l i d -> i_call i = c -> malformed d -> cause l c 1033
| W_one_part i d w e3 : verified l i d -> i_call i = c -> level (i_stage i) = 2 -> cd_content d = Some w -> decodeEncryptedContent w = Ok e3 -> second_part w e3 [] -> cause l c 1033
| W_no_key i d e3 : verified l i d -> i_call i = c -> level (i_stage i) = 2 -> holds d e3 ->
    sometime l (fun l1 => keys_of l1 (encodeName (key_of e3)) = None \/ keys_of l1 (encodeName (key_of e3)) = Some []) -> cause l c 1034
| W_decrypt e key code : tried l c e key -> bad e key code -> cause l c code.
(** Why neither is called: the C-KEY packet names no E-KEY, or the D-KEY packet is malformed after its
    first part (or this cannot be encoded again). *)
Inductive silent (l : list cevent) (c : Z) : Prop :=
| S_no_name i d e2 : verified l i d -> i_call i = c -> level (i_stage i) = 1 -> holds d e2 -> key_of e2 = [] -> silent l c
| S_rest i d w e3 rest x : verified l i d -> i_call i = c -> level (i_stage i) = 2 -> cd_content d = Some w -> decodeEncryptedContent w = Ok e3 ->
    second_part w e3 rest -> rest <> [] -> decodeEncryptedContent rest = Err x -> silent l c
| S_again i d e3 x : verified l i d -> i_call i = c -> level (i_stage i) = 2 -> holds d e3 -> encodeEncryptedContent e3 = Err x -> silent l c.
End Consumer.
