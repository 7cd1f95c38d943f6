(** * Model of sync/chrono_sync2013.py

    The digest tree is DigestModel (C34), SHA-256 the parameter [sha]. The protocol buffer code is not
    modelled: a message is the list of its sync states, or [None] if ParseFromString raises. A name
    under the application broadcast prefix is the list of its further components as toEscapedString
    gives them. What ChronoSync2013 does to the Face, to its MemoryContentCache and to the application
    is the list [c_outs] of its calls: expressInterest, putData, add and storePendingInterest do not
    raise here (putData is caught by the code), but signing may. Logging is left out. *)
From Verif Require Import Base BlobModel DigestModel.
Local Open Scope res_scope.

(** sync_state_pb2.SyncState (sync-state.proto 3-20): type 0 is UPDATE, 1 DELETE, 2 OTHER; the
    application_info is empty if it is not given *)
Record sstate : Type := SState { ss_name : str; ss_type : Z; ss_session : Z; ss_seq : Z; ss_info : bytes }.
Notation content := (list sstate).
Definition UPDATE : Z := 0.
Definition is_update (x : sstate) : bool := ss_type x =? UPDATE.
(** Set the fields of a new state: the setters of an uint64 raise ValueError out of its range *)
Definition u64 (v : Z) : bool := (0 <=? v) && (v <? 2 ^ 64).
Definition mk_state (name : str) (seq session : Z) (info : bytes) : res sstate :=
  if u64 seq && u64 session then Ok (SState name UPDATE session seq info) else Err ValueError.

Definition s00 : str := [48; 48].
Definition s_recovery : str := [114; 101; 99; 111; 118; 101; 114; 121].

(** The timeout callback of an Interest: _initialTimeOut (132) or _syncTimeout; the data callback is
    _onData for both. The lifetime is 1000 with MustBeFresh for the first, syncLifetime for the others. *)
Inductive kind : Type := Initial | Sync.
Inductive act : Type :=
| Express (suffix : list str) (k : kind)                      (* Face.expressInterest *)
| Timer (digest : str)                                        (* 432-436: /local/timeout of 2 seconds, then _judgeRecovery *)
| Put (suffix : list str) (c : content) (fresh : option Z)    (* Face.putData of a signed Data, its freshness period *)
| Add (digest : str) (c : content)                            (* MemoryContentCache.add of a signed Data *)
| Keep (suffix : list str)                                    (* MemoryContentCache.storePendingInterest *)
| Unregister                                                  (* MemoryContentCache.unregisterAll *)
| Received (states : list sstate) (isRecovery : bool)         (* the application's onReceivedSyncState *)
| Initialized.                                                (* the application's onInitialized *)
(** What the application does in a callback *)
Inductive call : Type := CPublish (info : bytes) | CShutdown.

(** 103-117. [c_script] and [c_signs] are not in the code: for the callbacks to come, the calls the
    application makes in each, and for the calls of KeyChain.sign to come, whether they succeed. *)
Record chrono : Type := Chrono {
  c_log : list (str * content); c_tree : tree; c_seq : Z; c_enabled : bool;
  c_outs : list act; c_script : list (list call); c_signs : list bool }.
Definition cm (A : Type) : Type := chrono -> chrono * res A.
Definition ret {A} (a : A) : cm A := fun s => (s, Ok a).
Definition raise {A} (x : exn) : cm A := fun s => (s, Err x).
Definition bind {A B} (m : cm A) (f : A -> cm B) : cm B := fun s => match m s with (s', Ok a) => f a s' | (s', Err x) => (s', Err x) end.
Definition lift {A} (r : res A) : cm A := fun s => (s, r).
Definition get {A} (f : chrono -> A) : cm A := fun s => (s, Ok (f s)).
Notation "x <~ m ;; k" := (bind m (fun x => k)) (at level 61, m at next level, right associativity).
Notation "m ;;; k" := (bind m (fun _ => k)) (at level 61, right associativity).
Definition emit (a : act) : cm unit := fun s => (Chrono (c_log s) (c_tree s) (c_seq s) (c_enabled s) (c_outs s ++ [a]) (c_script s) (c_signs s), Ok tt).
Definition set_seq (q : Z) : cm unit := fun s => (Chrono (c_log s) (c_tree s) q (c_enabled s) (c_outs s) (c_script s) (c_signs s), Ok tt).
Definition add_log (e : str * content) : cm unit := fun s => (Chrono (c_log s ++ [e]) (c_tree s) (c_seq s) (c_enabled s) (c_outs s) (c_script s) (c_signs s), Ok tt).
Definition disable : cm unit := fun s => (Chrono (c_log s) (c_tree s) (c_seq s) false (c_outs s) (c_script s) (c_signs s), Ok tt).
(** try: m, except: log the exception (489-492, 527-530, 725-728, 760-763) *)
Definition try_log (m : cm unit) : cm unit := fun s => (fst (m s), Ok tt).
(** KeyChain.sign *)
Definition sign : cm unit := fun s =>
  match c_signs s with
  | [] => (s, Ok tt)
  | b :: r => (Chrono (c_log s) (c_tree s) (c_seq s) (c_enabled s) (c_outs s) (c_script s) r, if b then Ok tt else Err SecurityException)
  end.
(** The calls of the application in the next callback *)
Definition next_calls : cm (list call) := fun s =>
  match c_script s with
  | [] => (s, Ok [])
  | l :: r => (Chrono (c_log s) (c_tree s) (c_seq s) (c_enabled s) (c_outs s) r (c_signs s), Ok l)
  end.

Section Chrono.
Variable sha : bytes -> bytes.
(** 105, 107: the URI of the application data prefix and the session number *)
Variable me : str.
Variable session : Z.

(** DigestTree.update *)
Definition tree_update (p : str) (s q : Z) : cm bool := fun c =>
  let r := update sha (c_tree c) p s q in
  (Chrono (c_log c) (fst r) (c_seq c) (c_enabled c) (c_outs c) (c_script c) (c_signs c), snd r).
Definition root : cm str := get (fun c => t_root (c_tree c)).
(** 387-395: _logFind *)
Fixpoint log_find_from (i : Z) (l : list (str * content)) (d : str) : Z :=
  match l with [] => -1 | e :: r => if zlist_eqb d (fst e) then i else log_find_from (i + 1) r d end.
Definition log_find (l : list (str * content)) (d : str) : Z := log_find_from 0 l d.

(** 100-134: the constructor (registering the broadcast prefix is left out) *)
Definition start : chrono := Chrono [(s00, [])] new (-1) true [Express [s00] Initial] [] [].
(** 216-232: getProducerPrefixes *)
Definition getProducerPrefixes (c : chrono) : list (str * Z) := map (fun n => (n_prefix n, n_session n)) (t_nodes (c_tree c)).
(** 234-249: getProducerSequenceNo *)
Definition getProducerSequenceNo (c : chrono) (p : str) (s : Z) : Z :=
  let i := find (c_tree c) p s in
  if i <? 0 then -1 else match nth_error (t_nodes (c_tree c)) (Z.to_nat i) with Some n => n_seq n | None => -1 end.
(** 300-308: getSequenceNo *)
Definition getSequenceNo (c : chrono) : Z := c_seq c.

(** 369-378: the loop of _update *)
Fixpoint update_all (l : content) : cm unit :=
  match l with
  | [] => ret tt
  | x :: r =>
      (if is_update x then
         b <~ tree_update (ss_name x) (ss_session x) (ss_seq x) ;;
         if (b : bool) && zlist_eqb me (ss_name x) then set_seq (ss_seq x) else ret tt
       else ret tt) ;;;
      update_all r
  end.
(** 358-385: _update *)
Definition upd (l : content) : cm bool :=
  update_all l ;;;
  d <~ root ;;
  g <~ get c_log ;;
  if log_find g d =? -1 then add_log (d, l) ;;; ret true else ret false.
(** 342-356: _broadcastSyncState *)
Definition broadcast (digest : str) (l : content) : cm unit := sign ;;; emit (Add digest l).
(** 251-298: publishNextSequenceNo *)
Definition publish (info : bytes) : cm unit :=
  q <~ get c_seq ;;
  set_seq (q + 1) ;;;
  x <~ lift (mk_state me (q + 1) session info) ;;
  d <~ root ;;
  broadcast d [x] ;;;
  b <~ upd [x] ;;
  if (b : bool) then d' <~ root ;; emit (Express [d'] Sync) else raise RuntimeError.
(** 310-322: shutdown *)
Definition shutdown : cm unit := disable ;;; emit Unregister.
(** A callback of the application: it may call publishNextSequenceNo and shutdown, any number of times *)
Fixpoint do_calls (l : list call) : cm unit :=
  match l with
  | [] => ret tt
  | CPublish info :: r => try_log (publish info) ;;; do_calls r
  | CShutdown :: r => shutdown ;;; do_calls r
  end.
Definition callback (a : act) : cm unit := emit a ;;; l <~ next_calls ;; try_log (do_calls l).

(** 540-572: _processRecoveryInterest. [suffix] is the name of the Interest, which is not empty. *)
Definition all_states (t : tree) : res content :=
  fold_right (fun n r => l <-- r ;; x <-- mk_state (n_prefix n) (n_seq n) (n_session n) [] ;; Ok (x :: l)) (Ok []) (t_nodes t).
Definition recovery_interest (suffix : list str) (digest : str) : cm unit :=
  g <~ get c_log ;;
  if log_find g digest =? -1 then ret tt
  else
    t <~ get c_tree ;;
    l <~ lift (all_states t) ;;
    match l with
    | [] => ret tt
    | _ :: _ => sign ;;; emit (Put suffix l (if zlist_eqb (last suffix []) s00 then Some 1000 else None))
    end.
(** 583-607: nameList, sequenceNoList and sessionNoList, of the same length, as one list *)
Fixpoint merge (l : list (str * (Z * Z))) (p : str) (q s : Z) : list (str * (Z * Z)) :=
  match l with
  | [] => [(p, (q, s))]
  | (p', v) :: r => if zlist_eqb p' p then (p', (q, s)) :: r else (p', v) :: merge r p q s
  end.
Definition merge_all (t : tree) (l : content) (m : list (str * (Z * Z))) : list (str * (Z * Z)) :=
  fold_left (fun m x =>
    if is_update x then
      if negb (find t (ss_name x) (ss_session x) =? -1) then merge m (ss_name x) (ss_seq x) (ss_session x) else m
    else m) l m.
(** 574-640: _processSyncInterest *)
Fixpoint to_states (l : list (str * (Z * Z))) : res content :=
  match l with
  | [] => Ok []
  | (p, (q, s)) :: r => x <-- mk_state p q s [] ;; y <-- to_states r ;; Ok (x :: y)
  end.
Definition sync_interest (index : Z) (digest : str) : cm unit :=
  g <~ get c_log ;;
  t <~ get c_tree ;;
  l <~ lift (to_states (merge_all t (flat_map snd (skipn (Z.to_nat (index + 1)) g)) [])) ;;
  match l with
  | [] => ret tt
  | _ :: _ => sign ;;; emit (Put [digest] l None)
  end.
(** 642-653: _sendRecovery *)
Definition send_recovery (digest : str) : cm unit := emit (Express [s_recovery; digest] Sync).
(** 397-440: _onInterest, called by the MemoryContentCache for an Interest it has no Data for *)
Definition on_interest (suffix : list str) : cm unit :=
  e <~ get c_enabled ;;
  if (e : bool) then
    d0 <~ lift (match suffix with [] => Err IndexError | d :: _ => Ok d end) ;;
    let digest := match suffix with [_; d] => d | _ => d0 end in
    if (zlen suffix =? 2) || zlist_eqb digest s00 then recovery_interest suffix digest
    else
      emit (Keep suffix) ;;;
      r <~ root ;;
      if negb (zlist_eqb digest r) then
        g <~ get c_log ;;
        let index := log_find g digest in
        if index =? -1 then emit (Timer digest) else sync_interest index digest
      else ret tt
  else ret tt.
(** 663-677: _judgeRecovery *)
Definition judge (digest : str) : cm unit :=
  e <~ get c_enabled ;;
  if (e : bool) then
    g <~ get c_log ;;
    let index := log_find g digest in
    if index =? -1 then send_recovery digest
    else r <~ root ;; if negb (zlist_eqb digest r) then sync_interest index digest else ret tt
  else ret tt.
(** 710-728: the loop of _initialOndata *)
Fixpoint old_comer (l : content) : cm unit :=
  match l with
  | [] => ret tt
  | x :: r =>
      (if zlist_eqb (ss_name x) me && (ss_session x =? session) then
         y <~ lift (mk_state me (ss_seq x + 1) session []) ;;
         b <~ upd [y] ;;
         if (b : bool) then callback Initialized else ret tt
       else ret tt) ;;;
      old_comer r
  end.
(** 702-763: _initialOndata *)
Definition initial_data (l : content) : cm unit :=
  upd l ;;;
  digest <~ root ;;
  old_comer l ;;;
  q <~ get c_seq ;;
  x <~ lift (mk_state me (if 0 <=? q then q else 0) session []) ;;
  broadcast digest [x] ;;;
  t <~ get c_tree ;;
  if find t me session =? -1 then
    q' <~ get c_seq ;;
    set_seq (q' + 1) ;;;
    y <~ lift (mk_state me (q' + 1) session []) ;;
    b <~ upd [y] ;;
    if (b : bool) then callback Initialized else ret tt
  else ret tt.
(** 442-500: _onData. [suffix] is the name of the Interest, [c] what ParseFromString gives. *)
Definition on_data (suffix : list str) (c : option content) : cm unit :=
  e <~ get c_enabled ;;
  if (e : bool) then
    match c with
    | None => raise ValueError
    | Some l =>
        d <~ root ;;
        isRecovery <~ (if zlist_eqb d s00 then initial_data l ;;; ret true else upd l ;;; ret (zlen suffix =? 2)) ;;
        callback (Received (filter is_update l) isRecovery) ;;;
        d' <~ root ;;
        emit (Express [d'] Sync)
    end
  else ret tt.
(** 502-538: _initialTimeOut *)
Definition initial_timeout : cm unit :=
  e <~ get c_enabled ;;
  if (e : bool) then
    q <~ get c_seq ;;
    set_seq (q + 1) ;;;
    if negb (q + 1 =? 0) then raise RuntimeError
    else
      x <~ lift (mk_state me (q + 1) session []) ;;
      upd [x] ;;;
      callback Initialized ;;;
      d <~ root ;;
      emit (Express [d] Sync)
  else ret tt.
(** 679-700: _syncTimeout *)
Definition sync_timeout (suffix : list str) : cm unit :=
  e <~ get c_enabled ;;
  if (e : bool) then
    d <~ lift (match suffix with [] => Err IndexError | d :: _ => Ok d end) ;;
    r <~ root ;;
    if zlist_eqb d r then emit (Express suffix Sync) else ret tt
  else ret tt.

(** What happens to the object: a call of the application, or of one of the callbacks by the Face, by
    the MemoryContentCache or (EJudge) after the 2 seconds. *)
Inductive event : Type :=
| EPublish (info : bytes)
| EShutdown
| EInterest (suffix : list str)
| EData (suffix : list str) (k : kind) (c : option content)
| ETimeout (suffix : list str) (k : kind)
| EJudge (digest : str).
Definition act_of (e : event) : cm unit :=
  match e with
  | EPublish info => publish info
  | EShutdown => shutdown
  | EInterest suffix => on_interest suffix
  | EData suffix _ c => on_data suffix c
  | ETimeout _ Initial => initial_timeout
  | ETimeout suffix Sync => sync_timeout suffix
  | EJudge d => judge d
  end.
(** One event, what the application does in the callbacks during it and which signing fails; the
    result is the exception, if there is one, that leaves the call. [c_outs] is then what was done. *)
Record input : Type := Input { i_event : event; i_calls : list (list call); i_signs : list bool }.
Definition begin (i : input) (c : chrono) : chrono := Chrono (c_log c) (c_tree c) (c_seq c) (c_enabled c) [] (i_calls i) (i_signs i).
Definition step (c : chrono) (i : input) : chrono * res unit := act_of (i_event i) (begin i c).
Definition after (l : list input) : chrono := fold_left (fun c i => fst (step c i)) l start.
End Chrono.
