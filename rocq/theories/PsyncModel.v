(** * Model of sync/psync_producer_base.py, sync/detail/psync_user_prefixes.py, sync/full_psync2017.py
      and sync/full_psync2017_with_users.py

    MurmurHash3 is [mmh] and zlib is [compress] and [decompress], as in IbltModel. A URI is ASCII, so
    it is its own UTF-8 encoding. [fuel] bounds the rounds of listEntries (OutOfFuel is a call that does
    not come back). What goes to the face, the segment fetcher, the segment publisher and the
    application is logged. Left out: logging, prefix registration, the suffix and version of the
    data name (300, psync_segment_publisher.py is modelled in SegModel), the jitter of the sync interest,
    and calls of the application from inside its onUpdate. The names used as keys of a dictionary are not
    changed by their owner afterwards. *)
From Verif Require Import Base NameModel UriModel IbltModel DictModel.

Section Psync.
Variable mmh : Z -> bytes -> Z.
Variable compress : bytes -> bytes.
Variable decompress : bytes -> res bytes.
Variable fuel : nat.
(** The constructor arguments; [users] is false for FullPSync2017 by itself, without callbacks
    canAddToSyncData and canAddReceivedName. *)
Variable expectedNEntries : Z.
Variable syncPrefix : name.
Variable users : bool.

Inductive log : Type :=
| LInterest (n : name)                          (* the sync interest is sent *)
| LData (interestName : name) (content : list name)  (* the segment publisher gets the content *)
| LUpdate (us : list (name * Z * Z))            (* onUpdate: prefix, low and high sequence numbers *)
| LNames (ns : list name)                       (* onNamesUpdate of FullPSync2017 by itself *)
| LLater (n : name) (entry : Z).                (* callLater of _delayedRemovePendingEntry *)

(** psync_producer_base.py 40-52, psync_user_prefixes.py 30-32, full_psync2017.py 105-107, 141-144: an
    entry is its identity and its table; [s_removed] has the entries with _isRemoved *)
Record state : Type := State {
  s_prefixes : dict name Z;
  s_n2h : dict name Z;
  s_h2n : dict Z name;
  s_iblt : table;
  s_pending : dict name (Z * table);
  s_removed : list Z;
  s_next : Z;
  s_outstanding : name;
  s_log : list log }.
Definition threshold : Z := expectedNEntries / 2.
Definition new_state : state := State [] [] [] (new expectedNEntries) [] [] 0 [] [].

(** Code that changes the state and may raise: the state after it, and the result or the exception. *)
Definition M (A : Type) : Type := state -> state * res A.
Definition ret {A} (a : A) : M A := fun s => (s, Ok a).
Definition raise {A} (x : exn) : M A := fun s => (s, Err x).
Definition lift {A} (r : res A) : M A := fun s => (s, r).
Definition get : M state := fun s => (s, Ok s).
Definition put (f : state -> state) : M unit := fun s => (f s, Ok tt).
Definition bind {A B} (m : M A) (k : A -> M B) : M B := fun s => let (s', r) := m s in match r with Ok a => k a s' | Err x => (s', Err x) end.
Local Notation "x <- m ; k" := (bind m (fun x => k)) (at level 61, m at next level, right associativity).
Local Notation "m ;; k" := (bind m (fun _ => k)) (at level 61, right associativity).
Fixpoint each {A} (l : list A) (f : A -> M unit) : M unit :=
  match l with [] => ret tt | x :: r => f x ;; each r f end.

Definition set_prefixes d : M unit := put (fun s => State d (s_n2h s) (s_h2n s) (s_iblt s) (s_pending s) (s_removed s) (s_next s) (s_outstanding s) (s_log s)).
Definition set_n2h d : M unit := put (fun s => State (s_prefixes s) d (s_h2n s) (s_iblt s) (s_pending s) (s_removed s) (s_next s) (s_outstanding s) (s_log s)).
Definition set_h2n d : M unit := put (fun s => State (s_prefixes s) (s_n2h s) d (s_iblt s) (s_pending s) (s_removed s) (s_next s) (s_outstanding s) (s_log s)).
Definition set_iblt t : M unit := put (fun s => State (s_prefixes s) (s_n2h s) (s_h2n s) t (s_pending s) (s_removed s) (s_next s) (s_outstanding s) (s_log s)).
Definition set_pending d : M unit := put (fun s => State (s_prefixes s) (s_n2h s) (s_h2n s) (s_iblt s) d (s_removed s) (s_next s) (s_outstanding s) (s_log s)).
Definition set_removed e : M unit := put (fun s => State (s_prefixes s) (s_n2h s) (s_h2n s) (s_iblt s) (s_pending s) (e :: s_removed s) (s_next s) (s_outstanding s) (s_log s)).
Definition set_next e : M unit := put (fun s => State (s_prefixes s) (s_n2h s) (s_h2n s) (s_iblt s) (s_pending s) (s_removed s) e (s_outstanding s) (s_log s)).
Definition set_outstanding n : M unit := put (fun s => State (s_prefixes s) (s_n2h s) (s_h2n s) (s_iblt s) (s_pending s) (s_removed s) (s_next s) n (s_log s)).
Definition out l : M unit := put (fun s => State (s_prefixes s) (s_n2h s) (s_h2n s) (s_iblt s) (s_pending s) (s_removed s) (s_next s) (s_outstanding s) (s_log s ++ [l])).

(** common.py 226-242 with psync_producer_base.py 61-62 *)
Definition hash (n : name) : Z := mmh N_HASHCHECK (n_toUri n false).
(** psync_producer_base.py 54-67: insertIntoIblt *)
Definition insertIntoIblt (n : name) : M unit :=
  s <- get ; set_n2h (dset n_equals (s_n2h s) n (hash n)) ;;
  s <- get ; set_h2n (dset Z.eqb (s_h2n s) (hash n) n) ;;
  t <- lift (insert mmh (s_iblt s) (hash n)) ; set_iblt t.
(** psync_producer_base.py 69-81: removeFromIblt; full_psync2017.py 132-139: removeName *)
Definition removeName (n : name) : M unit :=
  s <- get ;
  match dget n_equals (s_n2h s) n with
  | None => ret tt
  | Some h =>
      d <- lift (ddel n_equals (s_n2h s) n) ; set_n2h d ;;
      d <- lift (ddel Z.eqb (s_h2n s) h) ; set_h2n d ;;
      t <- lift (erase mmh (s_iblt s) h) ; set_iblt t
  end.

(** full_psync2017.py 146-187: _sendSyncInterest *)
Definition sendSyncInterest : M unit :=
  s <- get ;
  let n := syncPrefix ++ [c_generic (encode compress (s_iblt s))] in
  set_outstanding n ;; out (LInterest n).
(** full_psync2017.py 283-328: _sendSyncData *)
Definition sendSyncData (n : name) (content : list name) : M unit :=
  s <- get ;
  if n_equals (s_outstanding s) n then set_outstanding [] ;; out (LData n content) ;; sendSyncInterest
  else out (LData n content).

(** full_psync2017_with_users.py 203-226: _isNotFutureHash *)
Definition isNotFutureHash (n : name) (negative : list Z) : M bool :=
  s <- get ;
  prefix <- lift (n_getPrefix n (-1)) ;
  c <- lift (c_fromNumber (match dget n_equals (s_prefixes s) prefix with Some q => q | None => 0 end + 1)) ;
  ret (negb (existsb (Z.eqb (hash (prefix ++ [c]))) negative)).
(** full_psync2017.py 261-268: the content of the reply *)
Fixpoint positiveNames (positive negative : list Z) : M (list name) :=
  match positive with
  | [] => ret []
  | h :: r =>
      s <- get ;
      n <- lift (dindex Z.eqb (s_h2n s) h) ;
      ok <- (if din n_equals (s_n2h s) n then (if users then isNotFutureHash n negative else ret true) else ret false) ;
      l <- positiveNames r negative ;
      ret (if ok : bool then n :: l else l)
  end.
(** full_psync2017.py 416-421: the content for a pending interest *)
Fixpoint pendingNames (positive : list Z) : M (list name) :=
  match positive with
  | [] => ret []
  | h :: r =>
      s <- get ;
      n <- lift (dindex Z.eqb (s_h2n s) h) ;
      l <- pendingNames r ;
      ret (if din n_equals (s_n2h s) n then n :: l else l)
  end.
(** full_psync2017.py 395-430: one pending interest *)
Definition satisfy1 (keyName : name) : M unit :=
  s <- get ;
  entry <- lift (dindex n_equals (s_pending s) keyName) ;
  d <- lift (difference (s_iblt s) (snd entry)) ;
  r <- lift (listEntries mmh fuel d) ;
  let '(complete, positive, negative) := r in
  if negb complete && ((threshold <=? zlen positive + zlen negative) || ((zlen positive =? 0) && (zlen negative =? 0))) then
    set_removed (fst entry) ;; d <- lift (ddel n_equals (s_pending s) keyName) ; set_pending d
  else
    content <- pendingNames positive ;
    if 0 <? zlen content then
      sendSyncData keyName content ;;
      set_removed (fst entry) ;;
      s <- get ; d <- lift (ddel n_equals (s_pending s) keyName) ; set_pending d
    else ret tt.
(** full_psync2017.py 384-430: _satisfyPendingInterests *)
Definition satisfyPendingInterests : M unit :=
  s <- get ; each (dkeys (s_pending s)) satisfy1.
(** full_psync2017.py 116-130: publishName *)
Definition publishName (n : name) : M unit :=
  s <- get ;
  if din n_equals (s_n2h s) n then ret tt
  else insertIntoIblt n ;; satisfyPendingInterests.

(** full_psync2017.py 194-281: _onSyncInterest; [fromStore] is the result of replyFromStore *)
Definition onSyncInterest (fromStore : bool) (prefixName interestName : name) : M unit :=
  if fromStore then ret tt
  else
    sub <- lift (n_getSubName interestName (zlen prefixName) None) ;
    name_ <- (if zlen sub =? 1 then ret (Some interestName)
             else if zlen sub =? 3 then p <- lift (n_getPrefix interestName (-2)) ; ret (Some p)
             else ret None) ;
    match name_ with
    | None => ret tt
    | Some n =>
        ibltName <- lift (py_getitem n (-1)) ;
        match initialize decompress (new expectedNEntries) (c_value ibltName) with
        | Err _ => ret tt
        | Ok iblt =>
            s <- get ;
            d <- lift (difference (s_iblt s) iblt) ;
            r <- lift (listEntries mmh fuel d) ;
            let '(complete, positive, negative) := r in
            if negb complete && ((threshold <=? zlen positive + zlen negative) || ((zlen positive =? 0) && (zlen negative =? 0))) then
              if 0 <? zlen (s_n2h s) then out (LData interestName (dkeys (s_n2h s))) else ret tt
            else
              content <- positiveNames positive negative ;
              if 0 <? zlen content then sendSyncData n content
              else
                s <- get ;
                set_pending (dset n_equals (s_pending s) n (s_next s, iblt)) ;;
                set_next (s_next s + 1) ;;
                out (LLater interestName (s_next s))
        end
    end.

(** full_psync2017_with_users.py 152-176: _canAddReceivedName *)
Definition canAddReceivedName (n : name) : M bool :=
  prefix <- lift (n_getPrefix n (-1)) ;
  c <- lift (py_getitem n (-1)) ;
  s <- get ;
  match dget n_equals (s_prefixes s) prefix with
  | None => ret true
  | Some old =>
      if old <? c_toNumber c then
        (if negb (old =? 0) then o <- lift (c_fromNumber old) ; removeName (prefix ++ [o]) else ret tt) ;; ret true
      else ret false
  end.
(** full_psync2017.py 352-362: the loop over the received names; the names added *)
Fixpoint receive (content : list name) : M (list name) :=
  match content with
  | [] => ret []
  | n :: r =>
      s <- get ;
      if negb (din n_equals (s_n2h s) n) then
        ok <- (if users then canAddReceivedName n else ret true) ;
        if ok : bool then insertIntoIblt n ;; l <- receive r ; ret (n :: l) else receive r
      else receive r
  end.
(** full_psync2017_with_users.py 187-196: the loop *)
Fixpoint updates (names : list name) : M (list (name * Z * Z)) :=
  match names with
  | [] => ret []
  | n :: r =>
      prefix <- lift (n_getPrefix n (-1)) ;
      c <- lift (py_getitem n (-1)) ;
      s <- get ;
      let u := (prefix, match dget n_equals (s_prefixes s) prefix with Some q => q | None => 0 end + 1, c_toNumber c) in
      set_prefixes (dset n_equals (s_prefixes s) prefix (c_toNumber c)) ;;
      l <- updates r ; ret (u :: l)
  end.
(** 178-201: _onNamesUpdate *)
Definition onNamesUpdate (names : list name) : M unit :=
  if users then l <- updates names ; out (LUpdate l) else out (LNames names).
(** full_psync2017.py 432-446: _deletePendingInterests *)
Definition deletePendingInterests (n : name) : M unit :=
  s <- get ;
  match dget n_equals (s_pending s) n with
  | None => ret tt
  | Some entry => set_removed (fst entry) ;; d <- lift (ddel n_equals (s_pending s) n) ; set_pending d
  end.
(** full_psync2017.py 330-382: _onSyncData; the decoding of the content (347) is PSyncState.wireDecode.
    The except clause (373-375) *)
Definition onSyncData (interestName : name) (content : list name) : M unit :=
  deletePendingInterests interestName ;;
  names <- receive content ;
  if 0 <? zlen names then
    (fun s => (fst (onNamesUpdate names s), Ok tt)) ;; sendSyncInterest
  else ret tt.
(** full_psync2017.py 448-470: _delayedRemovePendingEntry *)
Definition delayedRemove (n : name) (entry : Z) : M unit :=
  s <- get ;
  if existsb (Z.eqb entry) (s_removed s) then ret tt
  else set_removed entry ;; set_pending (dremove n_equals (s_pending s) n).

(** psync_user_prefixes.py 44-55: getSequenceNo; full_psync2017_with_users.py 89-97 *)
Definition getSequenceNo (s : state) (prefix : name) : Z :=
  match dget n_equals (s_prefixes s) prefix with Some q => q | None => -1 end.
(** psync_user_prefixes.py 57-75; full_psync2017_with_users.py 99-112: addUserNode *)
Definition addUserNode (prefix : name) : M bool :=
  s <- get ;
  if negb (din n_equals (s_prefixes s) prefix) then set_prefixes (dset n_equals (s_prefixes s) prefix 0) ;; ret true else ret false.
(** full_psync2017_with_users.py 114-125: removeUserNode *)
Definition removeUserNode (prefix : name) : M unit :=
  s <- get ;
  match dget n_equals (s_prefixes s) prefix with
  | None => ret tt
  | Some q =>
      set_prefixes (dremove n_equals (s_prefixes s) prefix) ;;
      c <- lift (c_fromNumber q) ; removeName (prefix ++ [c])
  end.
(** psync_user_prefixes.py 91-127 and full_psync2017_with_users.py 228-252: _updateSequenceNo *)
Definition updateSequenceNo (prefix : name) (q : Z) : M bool :=
  s <- get ;
  match dget n_equals (s_prefixes s) prefix with
  | None => ret false
  | Some old =>
      if q <=? old then ret false
      else
        set_prefixes (dset n_equals (s_prefixes s) prefix q) ;;
        (if negb (old =? 0) then c <- lift (c_fromNumber old) ; removeName (prefix ++ [c]) else ret tt) ;;
        ret true
  end.
(** full_psync2017_with_users.py 127-150: publishName *)
Definition publishUser (prefix : name) (sequenceNo : Z) : M unit :=
  s <- get ;
  match dget n_equals (s_prefixes s) prefix with
  | None => ret tt
  | Some old =>
      let q := if 0 <=? sequenceNo then sequenceNo else old + 1 in
      ok <- updateSequenceNo prefix q ;
      if ok : bool then c <- lift (c_fromNumber q) ; publishName (prefix ++ [c]) else ret tt
  end.

(** ** Histories *)
Inductive event : Type :=
| EAdd (prefix : name)                             (* addUserNode *)
| ERemove (prefix : name)                          (* removeUserNode *)
| EPublish (prefix : name) (sequenceNo : Z)        (* publishName of FullPSync2017WithUsers *)
| EName (n : name)                                 (* publishName of FullPSync2017 *)
| EUnname (n : name)                               (* removeName of FullPSync2017 *)
| EInterest (fromStore : bool) (prefixName interestName : name)
| EData (interestName : name) (content : list name)
| ETimer                                           (* the timer of _sendSyncInterest *)
| EExpire (n : name) (entry : Z).                  (* the timer of _delayedRemovePendingEntry *)
Definition act (e : event) : M unit :=
  match e with
  | EAdd p => addUserNode p ;; ret tt
  | ERemove p => removeUserNode p
  | EPublish p q => publishUser p q
  | EName n => publishName n
  | EUnname n => removeName n
  | EInterest f p n => onSyncInterest f p n
  | EData n c => onSyncData n c
  | ETimer => sendSyncInterest
  | EExpire n e => delayedRemove n e
  end.
(** Whatever is raised, the application goes on. *)
Definition step (s : state) (e : event) : state := fst (act e s).
(** 113-114: the constructor sends the first sync interest. *)
Definition start : state := fst (sendSyncInterest new_state).
Definition run (es : list event) : state := fold_left step es start.
End Psync.
