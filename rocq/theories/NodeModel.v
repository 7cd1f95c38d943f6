(** * Model of the client node: pending interest table, delayed calls, connection start,
    interest filters, registered prefixes, and the dispatch of callbacks.

    python/pyndn/node.py, impl/pending_interest_table.py, impl/delayed_call_table.py,
    impl/interest_filter_table.py, impl/registered_prefix_table.py, face.py.

    A machine with one step per API call, per received element and per callback. The loops of
    the node which call application code are frames on a stack: while a callback runs, the
    application may do any API call (which may push frames above), then the loop continues
    ([OContinue]). The clock reading of each call is given with the call. Packets are
    abstract: their matching, encoding and decoding are parameters (see MatchModel,
    WireModel, CtlModel for the real ones). *)
From Verif Require Import Base.

Section Node.
Variables I D F : Type. (* Interest, Data, InterestFilter *)
Variable matches : I -> D -> res bool.    (* Interest.matchesData *)
Variable wire : I -> res bytes.           (* Interest.wireEncode *)
Variable lifetime : I -> option Z.        (* getInterestLifetimeMilliseconds *)
Variable isLocalTimeout : I -> bool.      (* Name("/local/timeout").match(interest.getName()) *)
Variable fmatch : F -> I -> res bool.     (* InterestFilter.doesMatch(interest.getName()) *)
Variable status : D -> res Z.             (* the status code of the ControlResponse in the content *)

(** The callbacks of an expressed interest: of the application, or of a registration
    (node.py 759-842) with its id, prefix and whether there is an onInterest. *)
Inductive owner : Type := User | Reg (rid : Z) (prefix : F) (hasOnInterest : bool).
(** pending_interest_table.py 32-57; [e_ser] is the identity of the Entry object *)
Record entry : Type := Entry { e_ser : nat; e_id : Z; e_int : I; e_timeout : bool; e_nack : bool; e_owner : owner }.
(** the arguments of expressInterest kept in _onConnectedCallbacks: node.py 150-153 *)
Record args : Type := Args { a_id : Z; a_int : I; a_timeout : bool; a_nack : bool; a_owner : owner }.
(** interest_filter_table.py 31-48 *)
Inductive callback : Type := UserCb | RegCb (rid : Z).
Record fentry : Type := FEntry { f_id : Z; f_filter : F; f_cb : callback }.
(** registered_prefix_table.py 111-128 *)
Record rentry : Type := REntry { r_id : Z; r_filterId : Z }.
(** delayed_call_table.py 78-90; [c_seq] is the identity of the entry *)
Inductive what : Type := CTimeout (e : entry) | CUser (cid : Z).
Record dcall : Type := DCall { c_seq : nat; c_time : Z; c_what : what }.
(** The loops that call application code. *)
Inductive frame : Type :=
| FrData (es : list entry) (d : D)          (* node.py 702-707 *)
| FrNack (es : list entry)                  (* node.py 453-458 *)
| FrInterest (fs : list fentry) (i : I)     (* node.py 653-687 *)
| FrTimed (now : Z)                         (* delayed_call_table.py 64-67 *)
| FrConn (k : nat).                         (* node.py 160-166: the index of the for loop *)
(** What the outside sees, and the moment an entry enters the table ([LAdd]). *)
Inductive event : Type :=
| LAdd (e : entry) (now : Z) | LData (e : entry) (d : D) | LNack (e : entry) | LTimeout (e : entry) (now : Z)
| LCall (seq : nat) (cid : Z) (now : Z) | LInterest (f : fentry) (i : I) | LRegOk (rid : Z) | LRegFail (rid : Z)
| LSend (b : bytes) | LRaise (x : exn) | LId (n : Z).
(** node.py 754-757; [Requested true]: the transport has called onConnected *)
Inductive conn : Type := Unconnected | Requested (called : bool) | Complete.

Record state : Type := State {
  s_table : list entry; s_removeReq : list Z; s_removed : list nat; s_nextSer : nat;
  s_delayed : list dcall; s_nextSeq : nat;
  s_conn : conn; s_async : bool; s_queue : list args;
  s_filters : list fentry; s_regs : list rentry; s_regReq : list Z;
  s_lastId : Z; s_loopback : bool;
  s_frames : list frame; s_log : list event }.

Definition set_pit (s : state) table req removed ser : state :=
  State table req removed ser (s_delayed s) (s_nextSeq s) (s_conn s) (s_async s) (s_queue s) (s_filters s) (s_regs s) (s_regReq s) (s_lastId s) (s_loopback s) (s_frames s) (s_log s).
Definition set_delayed (s : state) ds seq : state :=
  State (s_table s) (s_removeReq s) (s_removed s) (s_nextSer s) ds seq (s_conn s) (s_async s) (s_queue s) (s_filters s) (s_regs s) (s_regReq s) (s_lastId s) (s_loopback s) (s_frames s) (s_log s).
Definition set_conn (s : state) c q : state :=
  State (s_table s) (s_removeReq s) (s_removed s) (s_nextSer s) (s_delayed s) (s_nextSeq s) c (s_async s) q (s_filters s) (s_regs s) (s_regReq s) (s_lastId s) (s_loopback s) (s_frames s) (s_log s).
Definition set_filters (s : state) fs : state :=
  State (s_table s) (s_removeReq s) (s_removed s) (s_nextSer s) (s_delayed s) (s_nextSeq s) (s_conn s) (s_async s) (s_queue s) fs (s_regs s) (s_regReq s) (s_lastId s) (s_loopback s) (s_frames s) (s_log s).
Definition set_regs (s : state) rs req : state :=
  State (s_table s) (s_removeReq s) (s_removed s) (s_nextSer s) (s_delayed s) (s_nextSeq s) (s_conn s) (s_async s) (s_queue s) (s_filters s) rs req (s_lastId s) (s_loopback s) (s_frames s) (s_log s).
Definition set_frames (s : state) fr : state :=
  State (s_table s) (s_removeReq s) (s_removed s) (s_nextSer s) (s_delayed s) (s_nextSeq s) (s_conn s) (s_async s) (s_queue s) (s_filters s) (s_regs s) (s_regReq s) (s_lastId s) (s_loopback s) fr (s_log s).
Definition set_loopback (s : state) b : state :=
  State (s_table s) (s_removeReq s) (s_removed s) (s_nextSer s) (s_delayed s) (s_nextSeq s) (s_conn s) (s_async s) (s_queue s) (s_filters s) (s_regs s) (s_regReq s) (s_lastId s) b (s_frames s) (s_log s).
Definition logs (s : state) (l : list event) : state :=
  State (s_table s) (s_removeReq s) (s_removed s) (s_nextSer s) (s_delayed s) (s_nextSeq s) (s_conn s) (s_async s) (s_queue s) (s_filters s) (s_regs s) (s_regReq s) (s_lastId s) (s_loopback s) (s_frames s) (s_log s ++ l).
Definition push (s : state) (f : frame) : state := set_frames s (f :: s_frames s).
(** node.py 628-641: getNextEntryId *)
Definition nextId (s : state) : state :=
  State (s_table s) (s_removeReq s) (s_removed s) (s_nextSer s) (s_delayed s) (s_nextSeq s) (s_conn s) (s_async s) (s_queue s) (s_filters s) (s_regs s) (s_regReq s) (s_lastId s + 1) (s_loopback s) (s_frames s) (s_log s).

(** ** Tables *)
Definition mem (n : Z) (l : list Z) : bool := existsb (Z.eqb n) l.
Definition memn (n : nat) (l : list nat) : bool := existsb (Nat.eqb n) l.
(** del l[l.index(n)] *)
Fixpoint remove1 (n : Z) (l : list Z) : list Z :=
  match l with [] => [] | x :: r => if x =? n then r else x :: remove1 n r end.

(** delayed_call_table.py 41-52: the position is searched from the back *)
Fixpoint insert_back (rev_l : list dcall) (c : dcall) : list dcall :=
  match rev_l with
  | [] => [c]
  | x :: r => if c_time x <=? c_time c then c :: x :: r else x :: insert_back r c
  end.
Definition callLater (s : state) (now delay : Z) (w : what) : state :=
  let c := DCall (s_nextSeq s) (now + delay) w in
  set_delayed s (rev (insert_back (rev (s_delayed s)) c)) (S (s_nextSeq s)).

(** pending_interest_table.py 121-157: add *)
Definition pit_add (s : state) (a : args) : state * option entry :=
  if mem (a_id a) (s_removeReq s) then
    (set_pit s (s_table s) (remove1 (a_id a) (s_removeReq s)) (s_removed s) (s_nextSer s), None)
  else
    let e := Entry (s_nextSer s) (a_id a) (a_int a) (a_timeout a) (a_nack a) (a_owner a) in
    (set_pit s (s_table s ++ [e]) (s_removeReq s) (s_removed s) (S (s_nextSer s)), Some e).

(** pending_interest_table.py 159-218: the loop of both extractEntries methods, backwards
    ([rev_t]); result: what stays (reversed), the extracted entries in order, and the
    exception of the test if there is one. *)
Fixpoint extract (p : entry -> res bool) (rev_t : list entry) : list entry * list entry * option exn :=
  match rev_t with
  | [] => ([], [], None)
  | e :: r =>
      match p e with
      | Err x => (e :: r, [], Some x)
      | Ok b =>
          let '(stay, out, x) := extract p r in
          if b then (stay, e :: out, x) else (e :: stay, out, x)
      end
  end.
Definition pit_extract (s : state) (p : entry -> res bool) : state * list entry * option exn :=
  let '(stay, out, x) := extract p (rev (s_table s)) in
  (set_pit s (rev stay) (s_removeReq s) (map e_ser out ++ s_removed s) (s_nextSer s), out, x).
Definition nack_test (encoding : bytes) (e : entry) : res bool :=
  if e_nack e then rbind (wire (e_int e)) (fun b => Ok (zlist_eqb b encoding)) else Ok false.

(** pending_interest_table.py 220-267: removePendingInterest *)
Definition pit_remove (s : state) (id : Z) : state :=
  let out := filter (fun e => e_id e =? id) (s_table s) in
  let stay := filter (fun e => negb (e_id e =? id)) (s_table s) in
  let req := match out with
             | [] => if mem id (s_removeReq s) then s_removeReq s else s_removeReq s ++ [id]
             | _ => s_removeReq s
             end in
  set_pit s stay req (map e_ser out ++ s_removed s) (s_nextSer s).

(** pending_interest_table.py 269-295: removeEntry *)
Fixpoint del_entry (n : nat) (t : list entry) : option (list entry) :=
  match t with
  | [] => None
  | e :: r => if Nat.eqb (e_ser e) n then Some r else match del_entry n r with Some r' => Some (e :: r') | None => None end
  end.
Definition pit_removeEntry (s : state) (e : entry) : state * bool :=
  if memn (e_ser e) (s_removed s) then (s, false)
  else match del_entry (e_ser e) (s_table s) with
       | None => (s, false)
       | Some t => (set_pit s t (s_removeReq s) (e_ser e :: s_removed s) (s_nextSer s), true)
       end.

(** interest_filter_table.py 99-113: getMatchedFilters *)
Fixpoint matched (fs : list fentry) (i : I) : res (list fentry) :=
  match fs with
  | [] => Ok []
  | f :: r =>
      rbind (fmatch (f_filter f) i) (fun b =>
      rbind (matched r i) (fun l => Ok (if b : bool then f :: l else l)))
  end.
(** interest_filter_table.py 115-137: unsetInterestFilter *)
Definition unset (fs : list fentry) (id : Z) : list fentry := filter (fun f => negb (f_id f =? id)) fs.
(** node.py 643-687: _dispatchInterest *)
Definition dispatch (s : state) (i : I) : state * option exn :=
  match matched (s_filters s) i with
  | Err x => (s, Some x)
  | Ok fs => (push s (FrInterest fs i), None)
  end.

(** registered_prefix_table.py 40-65: add *)
Definition reg_add (s : state) (rid fid : Z) : state * bool :=
  if mem rid (s_regReq s) then (set_regs s (s_regs s) (remove1 rid (s_regReq s)), false)
  else (set_regs s (s_regs s ++ [REntry rid fid]) (s_regReq s), true).
(** registered_prefix_table.py 67-109: removeRegisteredPrefix *)
Definition reg_remove (s : state) (rid : Z) : state :=
  let out := filter (fun r => r_id r =? rid) (s_regs s) in
  let s1 := set_filters s (fold_left (fun fs r => if 0 <? r_filterId r then unset fs (r_filterId r) else fs) (rev out) (s_filters s)) in
  set_regs s1 (filter (fun r => negb (r_id r =? rid)) (s_regs s))
    (match out with [] => if mem rid (s_regReq s) then s_regReq s else s_regReq s ++ [rid] | _ => s_regReq s end).

(** ** Expressing an interest *)
Definition maxPacketSize : Z := 8800.
(** node.py 497-554: _expressInterestHelper; the result is the exception raised *)
Definition expressHelper (s : state) (a : args) (now : Z) : state * option exn :=
  let '(s1, oe) := pit_add s a in
  match oe with
  | None => (s1, None)
  | Some e =>
      let valid := match lifetime (a_int a) with Some l => 0 <=? l | None => false end in
      let s2 := if a_timeout a || valid then
                  let delay := match lifetime (a_int a) with Some l => if l <? 0 then 4000 else l | None => 4000 end in
                  callLater s1 now delay (CTimeout e)
                else s1 in
      let s2 := logs s2 [LAdd e now] in
      if isLocalTimeout (a_int a) then (s2, None)
      else
        match wire (a_int a) with
        | Err x => (s2, Some x)
        | Ok b =>
            if maxPacketSize <? zlen b then (s2, Some RuntimeError)
            else
              let s3 := logs s2 [LSend b] in
              if s_loopback s3 then dispatch s3 (a_int a) else (s3, None)
        end
  end.
Definition raised (r : state * option exn) : state :=
  match snd r with Some x => logs (fst r) [LRaise x] | None => fst r end.
(** node.py 86-178: expressInterest. A transport that is not asynchronous connects and
    becomes Complete after the first interest that does not raise. *)
Definition express (s : state) (a : args) (now : Z) : state :=
  match s_conn s with
  | Complete => raised (expressHelper s a now)
  | c =>
      if negb (s_async s) then
        let r := expressHelper s a now in
        match snd r with
        | Some _ => raised r
        | None => set_conn (fst r) Complete (s_queue s)
        end
      else
        match c with
        | Unconnected => set_conn s (Requested false) (s_queue s ++ [a])
        | _ => set_conn s c (s_queue s ++ [a])
        end
  end.

(** node.py 775-831: _RegisterResponse.onData *)
Definition registerOnData (s : state) (rid : Z) (prefix : F) (hasOnInterest : bool) (d : D) : state :=
  match status d with
  | Err ValueError => logs s [LRegFail rid]
  | Err _ => s
  | Ok code =>
      if negb (code =? 200) then logs s [LRegFail rid]
      else if rid =? 0 then logs s [LRegOk rid]
      else
        let s1 := if hasOnInterest then nextId s else s in
        let fid := if hasOnInterest then s_lastId s1 else 0 in
        let s2 := if hasOnInterest then set_filters s1 (s_filters s1 ++ [FEntry fid prefix (RegCb rid)]) else s1 in
        let '(s3, ok) := reg_add s2 rid fid in
        if ok : bool then logs s3 [LRegOk rid]
        else if 0 <? fid then set_filters s3 (unset (s_filters s3) fid) else s3
  end.
(** The onData and onTimeout of an entry; callTimeout does nothing without onTimeout. *)
Definition callOnData (s : state) (e : entry) (d : D) : state :=
  let s := logs s [LData e d] in
  match e_owner e with User => s | Reg rid p b => registerOnData s rid p b d end.
Definition callTimeout (s : state) (e : entry) (now : Z) : state :=
  if e_timeout e then
    let s := logs s [LTimeout e now] in
    match e_owner e with User => s | Reg rid _ _ => logs s [LRegFail rid] end
  else s.

(** ** Calls and events *)
Inductive op : Type :=
| ONextId                                                                    (* reserve an id *)
| OExpress (id : Z) (i : I) (hasTimeout hasNack : bool) (now : Z)            (* Node.expressInterest *)
| ORemovePending (id : Z)
| OReceiveData (d : D) | OReceiveNack (i : I) | OReceiveInterest (i : I)     (* onReceivedElement *)
| OConnected                                                                 (* the transport connected *)
| OCallLater (delay cid now : Z)
| OProcess (now : Z)                                                         (* processEvents: due delayed calls *)
| OContinue (now : Z)                                                        (* the innermost loop goes on *)
| ORaise                                                                     (* a delayed call raises *)
| OSetFilter (id : Z) (f : F) | OUnsetFilter (id : Z)
| ORegister (rid : Z) (prefix : F) (hasOnInterest : bool) (command : I) (now : Z)
| ORemoveRegistered (rid : Z)
| OSetLoopback (b : bool).

Definition continue (s : state) (now : Z) : state :=
  match s_frames s with
  | [] => s
  | FrData [] _ :: fr | FrNack [] :: fr | FrInterest [] _ :: fr => set_frames s fr
  | FrData (e :: es) d :: fr => callOnData (set_frames s (FrData es d :: fr)) e d
  | FrNack (e :: es) :: fr => logs (set_frames s (FrNack es :: fr)) [LNack e]
  | FrInterest (f :: fs) i :: fr => logs (set_frames s (FrInterest fs i :: fr)) [LInterest f i]
  | FrTimed t :: fr =>
      match s_delayed s with
      | c :: cs =>
          if c_time c <=? t then
            let s1 := set_delayed s cs (s_nextSeq s) in
            match c_what c with
            | CUser cid => logs s1 [LCall (c_seq c) cid t]
            | CTimeout e => let '(s2, b) := pit_removeEntry s1 e in if b : bool then callTimeout s2 e t else s2
            end
          else set_frames s fr
      | [] => set_frames s fr
      end
  | FrConn k :: fr =>
      match nth_error (s_queue s) k with
      | Some a =>
          let r := expressHelper (set_frames s (FrConn (S k) :: fr)) a now in
          match snd r with
          | Some x => logs (set_frames (fst r) fr) [LRaise x]
          | None => fst r
          end
      | None => set_frames (set_conn s Complete []) fr
      end
  end.

(** node.py 403-467 for an element that decoded. *)
Definition receiveData (s : state) (d : D) : state :=
  let '(s1, out, x) := pit_extract s (fun e => matches (e_int e) d) in
  match x with Some x => logs s1 [LRaise x] | None => push s1 (FrData out d) end.
Definition receiveNack (s : state) (i : I) : state :=
  match wire i with
  | Err x => logs s [LRaise x]
  | Ok b =>
      let '(s1, out, x) := pit_extract s (nack_test b) in
      match x with Some x => logs s1 [LRaise x] | None => push s1 (FrNack out) end
  end.

Definition step (s : state) (o : op) : state :=
  match o with
  | ONextId => logs (nextId s) [LId (s_lastId s + 1)]
  | OExpress id i t n now => express s (Args id i t n User) now
  | ORemovePending id => pit_remove s id
  | OReceiveData d => receiveData s d
  | OReceiveNack i => receiveNack s i
  | OReceiveInterest i => raised (dispatch s i)
  | OConnected => match s_conn s with Requested false => push (set_conn s (Requested true) (s_queue s)) (FrConn 0) | _ => s end
  | OCallLater delay cid now => callLater s now delay (CUser cid)
  | OProcess now => push s (FrTimed now)
  | OContinue now => continue s now
  | ORaise => match s_frames s with FrTimed _ :: fr => set_frames s fr | _ => s end
  | OSetFilter id f => set_filters s (s_filters s ++ [FEntry id f UserCb])
  | OUnsetFilter id => set_filters s (unset (s_filters s) id)
  | ORegister rid p b i now => let s1 := nextId s in express s1 (Args (s_lastId s1) i true false (Reg rid p b)) now
  | ORemoveRegistered rid => reg_remove s rid
  | OSetLoopback b => set_loopback s b
  end.
Definition run (s : state) (os : list op) : state := fold_left step os s.
(** A new node, with an asynchronous transport or not. *)
Definition init (async : bool) : state := State [] [] [] 0 [] 0 Unconnected async [] [] [] [] 0 false [] [].
End Node.
