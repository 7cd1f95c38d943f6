(** * Model of the producer of name-based access control (version 1).

    python/pyndn/encrypt/producer.py 71-449, python/pyndn/encrypt/sqlite3_producer_db.py 44-161,
    python/pyndn/encrypt/producer_db.py 84-94.

    A time slot is a whole number of milliseconds (in Python a float; [round] of it is then itself).
    The key retrieval link (NO_LINK by default), the default settings of an Interest and the child
    selector (always 1) are left out.  Face.expressInterest and KeyChain.sign do not raise, and signing
    changes neither the name nor the content.  onEncryptedKeys and onError do not call the producer back,
    and what they raise is caught (349, 442).  Dictionaries keep the insertion order. *)
From Verif Require Import Base NameModel DictModel WireModel BlobModel CalModel EncrModel GmModel ExclModel.
Local Open Scope res_scope.

(** producer.py 219-223: _KeyInfo *)
Record kinfo : Type := KInfo { k_begin : Z; k_end : Z; k_bits : option bytes }.
(** a Data packet for onEncryptedKeys, or of produce: the name and the content *)
Record cpkt : Type := CPkt { ck_name : name; ck_content : bytes }.
(** producer.py 225-230: _KeyRequest *)
Record kreq : Type := KReq { q_count : Z; q_attempts : dict name Z; q_keys : list cpkt }.
(** An Interest with the closures of _sendKeyInterest (259-268): the time slot and the callbacks. The
    callbacks are those of the call [i_call]; [i_wants]: onEncryptedKeys is not None. *)
Record kint : Type := KInt { i_name : name; i_excl : list exentry; i_ts : Z; i_call : Z; i_wants : bool }.
(** What the producer does: expressInterest, onEncryptedKeys, onError *)
Inductive pact : Type := PExpress (i : kint) | PEncrypted (call : Z) (l : list cpkt) | PError (call : Z) (code : Z).
(** [pr_db] is the table contentkeys: time slot in hours, key; the rest is the object. [pr_outs] is what
    the current call or callback has done. *)
Record prod : Type := Prod { pr_db : dict Z bytes; pr_infos : dict name kinfo; pr_reqs : dict Z kreq; pr_outs : list pact }.

(** A method is a function of the state that changes it and returns or raises. *)
Definition pm (A : Type) : Type := prod -> prod * res A.
Definition pret {A} (a : A) : pm A := fun p => (p, Ok a).
Definition pbind {A B} (m : pm A) (k : A -> pm B) : pm B := fun p => match m p with (p', Ok a) => k a p' | (p', Err e) => (p', Err e) end.
Definition plift {A} (r : res A) : pm A := fun p => (p, r).
Notation "x <~ m ;; k" := (pbind m (fun x => k)) (at level 61, m at next level, right associativity).
Notation "m ;;; k" := (pbind m (fun _ => k)) (at level 61, right associativity).
Definition pget {A} (f : prod -> A) : pm A := fun p => (p, Ok (f p)).
Definition pemit (a : pact) : pm unit := fun p => (Prod (pr_db p) (pr_infos p) (pr_reqs p) (pr_outs p ++ [a]), Ok tt).
Definition put_db (d : dict Z bytes) : pm unit := fun p => (Prod d (pr_infos p) (pr_reqs p) (pr_outs p), Ok tt).
Definition put_infos (d : dict name kinfo) : pm unit := fun p => (Prod (pr_db p) d (pr_reqs p) (pr_outs p), Ok tt).
Definition put_reqs (d : dict Z kreq) : pm unit := fun p => (Prod (pr_db p) (pr_infos p) d (pr_outs p), Ok tt).

(** producer_db.py 84-94: getFixedTimeSlot *)
Definition hour (ts : Z) : Z := ts / 3600000.
(** producer.py 232-243: _getRoundedTimeSlot *)
Definition rounded (ts : Z) : Z := ts / 3600000 * 3600000.
(** sqlite3_producer_db.py 61-85: hasContentKey *)
Definition hasContentKey (ts : Z) : pm bool := d <~ pget pr_db ;; pret (din Z.eqb d (hour ts)).
(** sqlite3_producer_db.py 87-117: getContentKey *)
Definition getContentKey (ts : Z) : pm bytes :=
  d <~ pget pr_db ;; match dget Z.eqb d (hour ts) with Some k => pret k | None => plift (Err RuntimeError) end.
(** sqlite3_producer_db.py 119-140: addContentKey, with the unique index of 40-42 *)
Definition addContentKey (ts : Z) (key : bytes) : pm unit :=
  d <~ pget pr_db ;; if din Z.eqb d (hour ts) then plift (Err RuntimeError) else put_db (d ++ [(hour ts, key)]).

(** [self._keyRequests[timeCount]] *)
Definition req (ts : Z) : pm kreq := d <~ pget pr_reqs ;; plift (dindex Z.eqb d ts).
(** changing the _KeyRequest object of [timeCount], which is in the dictionary *)
Definition set_req (ts : Z) (q : kreq) : pm unit := d <~ pget pr_reqs ;; put_reqs (dset Z.eqb d ts q).

(** [name.append(Schedule.toIsoString(t))] *)
Definition iso_comp_of (t : Z) : res comp := s <-- toIsoString t ;; comp_of_str s.
(** [Schedule.fromIsoString(str(name.get(i).getValue()))] *)
Definition time_at (n : name) (i : Z) : res Z := c <-- py_getitem n i ;; s <-- utf8_decode (c_value c) ;; fromIsoString s.

Section Producer.
Variable rsa_enc : bytes -> bytes -> Z -> Z -> rsa_out.
Variable aes_enc : bytes -> bytes -> Z -> bytes -> res bytes.
(** The arguments of the constructor *)
Variables prefix dataType : name.
Variable maxRepeat : Z.

(** producer.py 100-103 *)
Definition p_namespace : name := prefix ++ [N_SAMPLE] ++ dataType.
(** producer.py 91-98: the loop of the constructor, which takes away the last component of
    fixedDataType until there is none ([fuel] is the number of components) *)
Definition node_name (t : name) : name := (prefix ++ [N_READ]) ++ t ++ [N_E_KEY].
Fixpoint init_infos (fuel : nat) (t : name) (d : dict name kinfo) : dict name kinfo :=
  match fuel, t with
  | S fuel', _ :: _ => init_infos fuel' (removelast t) (dset n_equals d (node_name t) (KInfo 0 0 None))
  | _, _ => d
  end.
(** producer.py 71-103: the constructor, with a database that may exist already *)
Definition p_start (db : dict Z bytes) : prod := Prod db (init_infos (length dataType) dataType []) [] [].

(** producer.py 245-279: _sendKeyInterest *)
Definition sendKeyInterest (i : kint) : pm unit := pemit (PExpress i).

(** producer.py 331-352: _updateKeyRequest *)
Definition updateKeyRequest (ts call : Z) (wants : bool) : pm unit :=
  q <~ req ts ;;
  set_req ts (KReq (q_count q - 1) (q_attempts q) (q_keys q)) ;;;
  if (q_count q - 1 =? 0) && wants then
    pemit (PEncrypted call (q_keys q)) ;;;
    d <~ pget pr_reqs ;;
    if din Z.eqb d ts then put_reqs (dremove Z.eqb d ts) else pret tt
  else pret tt.

(** producer.py 309-329: _handleNetworkNack *)
Definition handleNetworkNack (i : kint) : pm unit := req (i_ts i) ;;; updateKeyRequest (i_ts i) (i_call i) (i_wants i).

(** producer.py 281-307: _handleTimeout *)
Definition handleTimeout (i : kint) : pm unit :=
  q <~ req (i_ts i) ;;
  a <~ plift (dindex n_equals (q_attempts q) (i_name i)) ;;
  if a <? maxRepeat then
    set_req (i_ts i) (KReq (q_count q) (dset n_equals (q_attempts q) (i_name i) (a + 1)) (q_keys q)) ;;;
    sendKeyInterest i
  else handleNetworkNack i.

(** producer.py 140-145, 425-428: the name of the content key *)
Definition contentKeyName (ts : Z) : res name := c <-- iso_comp_of (rounded ts) ;; Ok (p_namespace ++ [N_C_KEY] ++ [c]).

(** producer.py 403-449: _encryptContentKey. EncryptError.ErrorCode.EncryptionFailure is 103. *)
Definition encryptContentKey (encryptionKey : option bytes) (eKeyName : name) (ts call : Z) (wants : bool) (r : rnd) : pm bool :=
  req ts ;;;
  keyName <~ plift (contentKeyName ts) ;;
  contentKey <~ getContentKey ts ;;
  match (match encryptionKey with Some k => encryptContent rsa_enc aes_enc contentKey eKeyName k ALG_RSA_OAEP None r | None => Err TypeError end) with
  | Err _ => pemit (PError call 103) ;;; pret false
  | Ok c =>
      q <~ req ts ;;
      set_req ts (KReq (q_count q) (q_attempts q) (q_keys q ++ [CPkt (encryptedName keyName eKeyName) c])) ;;;
      updateKeyRequest ts call wants ;;;
      pret true
  end.

(** producer.py 354-401: _handleCoveringKey *)
Definition handleCoveringKey (i : kint) (keyName : name) (content : bytes) (r : rnd) : pm unit :=
  let ts := i_ts i in
  q <~ req ts ;;
  begin <~ plift (time_at keyName (-2)) ;;
  stop <~ plift (time_at keyName (-1)) ;;
  if stop <=? ts then
    c <~ plift (py_getitem keyName (-2)) ;;
    timeRange <~ plift (excludeBefore (i_excl i) c) ;;
    set_req ts (KReq (q_count q) (dset n_equals (q_attempts q) (i_name i) 0) (q_keys q)) ;;;
    sendKeyInterest (KInt (i_name i) timeRange ts (i_call i) (i_wants i))
  else
    b <~ encryptContentKey (Some content) keyName ts (i_call i) (i_wants i) r ;;
    if (b : bool) then
      d <~ pget pr_infos ;;
      plift (dindex n_equals d (i_name i)) ;;;
      put_infos (dset n_equals d (i_name i) (KInfo begin stop (Some content)))
    else pret tt.

(** producer.py 168-185: the loop of createContentKey over the dictionary [l]; [timeRange] is the filter
    of 164-166, [rs n] are the random choices of the encryption for the node [n] *)
Fixpoint key_loop (l : dict name kinfo) (timeRange : list exentry) (ts call : Z) (wants : bool) (rs : name -> rnd) : pm unit :=
  match l with
  | [] => pret tt
  | (n, k) :: l' =>
      (if (ts <? k_begin k) || (k_end k <=? ts) then
         q <~ req ts ;;
         set_req ts (KReq (q_count q) (dset n_equals (q_attempts q) n 0) (q_keys q)) ;;;
         sendKeyInterest (KInt n timeRange ts call wants)
       else
         cb <~ plift (iso_comp_of (k_begin k)) ;;
         ce <~ plift (iso_comp_of (k_end k)) ;;
         encryptContentKey (k_bits k) (n ++ [cb] ++ [ce]) ts call wants (rs n) ;;;
         pret tt) ;;;
      key_loop l' timeRange ts call wants rs
  end.

(** producer.py 113-187: createContentKey; [key] is what AesAlgorithm.generateKey would give *)
Definition createContentKey (ts call : Z) (wants : bool) (key : bytes) (rs : name -> rnd) : pm name :=
  n <~ plift (contentKeyName ts) ;;
  b <~ hasContentKey ts ;;
  if (b : bool) then pret n
  else
    addContentKey ts key ;;;
    infos <~ pget pr_infos ;;
    set_req ts (KReq (zlen infos) [] []) ;;;
    c <~ plift (iso_comp_of ts) ;;
    key_loop infos (excludeAfter [] c) ts call wants rs ;;;
    pret n.

(** producer.py 189-217: produce; [iv] are the 16 random bytes of EncryptParams *)
Definition produce (ts call : Z) (content key iv : bytes) (rs : name -> rnd) : pm cpkt :=
  n <~ createContentKey ts call false key rs ;;
  k <~ getContentKey ts ;;
  c <~ plift (iso_comp_of ts) ;;
  w <~ plift (encryptContent rsa_enc aes_enc content n k ALG_AES_CBC (Some iv) (Rnd 0 0 [] [])) ;;
  pret (CPkt (encryptedName (p_namespace ++ [c]) n) w).

(** ** Histories: calls of the application and callbacks of the Face *)
Inductive pevent : Type :=
| Create (ts call : Z) (wants : bool) (key : bytes) (rs : name -> rnd)
| Produce (ts call : Z) (content key iv : bytes) (rs : name -> rnd)
| GotKey (i : kint) (n : name) (content : bytes) (r : rnd)
| TimedOut (i : kint) | Nacked (i : kint).
Inductive pans : Type := ADone | AName (n : name) | APacket (x : cpkt).
Definition panswer {A} (f : A -> pans) (m : pm A) : pm pans := a <~ m ;; pret (f a).
Definition pact_of (e : pevent) : pm pans :=
  match e with
  | Create ts call wants key rs => panswer AName (createContentKey ts call wants key rs)
  | Produce ts call content key iv rs => panswer APacket (produce ts call content key iv rs)
  | GotKey i n c r => panswer (fun _ => ADone) (handleCoveringKey i n c r)
  | TimedOut i => panswer (fun _ => ADone) (handleTimeout i)
  | Nacked i => panswer (fun _ => ADone) (handleNetworkNack i)
  end.
Definition pbegin (p : prod) : prod := Prod (pr_db p) (pr_infos p) (pr_reqs p) [].
Definition pstep (p : prod) (e : pevent) : prod * res pans := pact_of e (pbegin p).
Definition pafter (db : dict Z bytes) (l : list pevent) : prod := fold_left (fun p e => fst (pstep p e)) l (p_start db).
End Producer.
