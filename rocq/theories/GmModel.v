(** * Model of the group manager of name-based access control.

    python/pyndn/encrypt/group_manager.py, python/pyndn/encrypt/sqlite3_group_manager_db.py.

    The database is the contents of its three tables; a statement is executed completely or not
    at all.  The row order of a SELECT without ORDER BY is unspecified: it is an argument
    ([orderS], [orderM], which may depend on the query).  GroupManagerDb.Error is RuntimeError
    here.  Sealing a Data packet with keyChain.sign is not modelled (it does not change the name,
    the freshness period or the content).  The Blob arguments are not null.  A time slot is an
    integer number of microseconds, as in SchedModel. *)
From Verif Require Import Base NameModel DictModel CertModel WireModel BlobModel CalModel SchedModel EncrModel.
Local Open Scope res_scope.

(** sqlite3_group_manager_db.py 34-70: the tables.  The member_id and ekey_id columns are never
    read and left out. *)
Record srow : Type := SRow { s_id : Z; s_name : str; s_blob : bytes }.
Record mrow : Type := MRow { m_sid : Z; m_name : bytes; m_key : bytes; m_pub : bytes }.
(** [db_base] is self._privateKeyBase (line 83): not in the database file *)
Record db : Type := Db { db_sched : list srow; db_mem : list mrow; db_ekeys : list (bytes * bytes); db_base : dict name bytes }.
Definition db_empty : db := Db [] [] [] [].
(** lines 78-95: opening an existing file *)
Definition reopen (d : db) : db := Db (db_sched d) (db_mem d) (db_ekeys d) [].

(** WHERE schedule_name=? *)
Definition s_is (n : str) (r : srow) : bool := zlist_eqb (s_name r) n.
Definition m_is (n : name) (r : mrow) : bool := zlist_eqb (m_name r) (encodeName n).
Definition e_is (n : name) (r : bytes * bytes) : bool := zlist_eqb (fst r) (encodeName n).
(** the value of an INTEGER PRIMARY KEY which is not given: one more than the largest *)
Definition nextId (l : list srow) : Z := fold_right Z.max 0 (map s_id l) + 1.

(** 99-121: hasSchedule *)
Definition hasSchedule (d : db) (n : str) : bool := existsb (s_is n) (db_sched d).
(** 592-614: _getScheduleId *)
Definition getScheduleId (d : db) (n : str) : Z := match find (s_is n) (db_sched d) with Some r => s_id r | None => -1 end.
(** 146-175: getSchedule *)
Definition getSchedule (d : db) (n : str) : res sched :=
  match find (s_is n) (db_sched d) with
  | Some r => match sc_wireDecode (s_blob r) with Ok s => Ok s | Err _ => Err RuntimeError end
  | None => Err RuntimeError
  end.
(** 211-234: addSchedule *)
Definition addSchedule (d : db) (n : str) (s : sched) : res db :=
  if zlen n =? 0 then Err RuntimeError
  else match sc_wireEncode s with
       | Err _ => Err RuntimeError
       | Ok w => if hasSchedule d n then Err RuntimeError
                 else Ok (Db (db_sched d ++ [SRow (nextId (db_sched d)) n w]) (db_mem d) (db_ekeys d) (db_base d))
       end.
(** 236-252: deleteSchedule, with ON DELETE CASCADE (line 55) *)
Definition deleteSchedule (d : db) (n : str) : db :=
  Db (filter (fun r => negb (s_is n r)) (db_sched d))
     (filter (fun m => negb (existsb (fun r => s_is n r && (s_id r =? m_sid m)) (db_sched d))) (db_mem d)) (db_ekeys d) (db_base d).
(** 254-278: renameSchedule; the unique index refuses a name another row has *)
Definition renameSchedule (d : db) (oldName newName : str) : res db :=
  if zlen newName =? 0 then Err RuntimeError
  else if hasSchedule d oldName && negb (zlist_eqb oldName newName) && hasSchedule d newName then Err RuntimeError
  else Ok (Db (map (fun r => if s_is oldName r then SRow (s_id r) newName (s_blob r) else r) (db_sched d)) (db_mem d) (db_ekeys d) (db_base d)).
(** 280-305: updateSchedule *)
Definition updateSchedule (d : db) (n : str) (s : sched) : res db :=
  if negb (hasSchedule d n) then addSchedule d n s
  else match sc_wireEncode s with
       | Err _ => Err RuntimeError
       | Ok w => Ok (Db (map (fun r => if s_is n r then SRow (s_id r) (s_name r) w else r) (db_sched d)) (db_mem d) (db_ekeys d) (db_base d))
       end.

(** 309-332: hasMember *)
Definition hasMember (d : db) (identity : name) : bool := existsb (m_is identity) (db_mem d).
(** 359-390: getMemberSchedule *)
Definition getMemberSchedule (d : db) (identity : name) : res str :=
  match find (m_is identity) (db_mem d) with
  | None => Err RuntimeError
  | Some m => match find (fun r => s_id r =? m_sid m) (db_sched d) with Some r => Ok (s_name r) | None => Err RuntimeError end
  end.
(** 392-423: addMember *)
Definition addMember (d : db) (scheduleName : str) (keyName : name) (key : bytes) : res db :=
  if getScheduleId d scheduleName =? -1 then Err RuntimeError
  else
    memberName <-- n_getPrefix keyName (-1) ;;
    if hasMember d memberName then Err RuntimeError
    else Ok (Db (db_sched d) (db_mem d ++ [MRow (getScheduleId d scheduleName) (encodeName memberName) (encodeName keyName) key]) (db_ekeys d) (db_base d)).
(** 425-450: updateMemberSchedule *)
Definition updateMemberSchedule (d : db) (identity : name) (scheduleName : str) : res db :=
  if getScheduleId d scheduleName =? -1 then Err RuntimeError
  else Ok (Db (db_sched d) (map (fun m => if m_is identity m then MRow (getScheduleId d scheduleName) (m_name m) (m_key m) (m_pub m) else m) (db_mem d))
              (db_ekeys d) (db_base d)).
(** 452-469: deleteMember *)
Definition deleteMember (d : db) (identity : name) : db :=
  Db (db_sched d) (filter (fun m => negb (m_is identity m)) (db_mem d)) (db_ekeys d) (db_base d).

(** 471-494: hasEKey *)
Definition hasEKey (d : db) (n : name) : bool := existsb (e_is n) (db_ekeys d).
(** 496-518: addEKey *)
Definition addEKey (d : db) (n : name) (publicKey privateKey : bytes) : res db :=
  if hasEKey d n then Err RuntimeError
  else Ok (Db (db_sched d) (db_mem d) (db_ekeys d ++ [(encodeName n, publicKey)]) (dset n_equals (db_base d) n privateKey)).
(** 520-550: getEKey *)
Definition getEKey (d : db) (n : name) : res (bytes * bytes) :=
  match find (e_is n) (db_ekeys d) with
  | None => Err RuntimeError
  | Some r => p <-- dindex n_equals (db_base d) n ;; Ok (snd r, p)
  end.
(** 571-590: deleteEKey: the row is deleted (and committed) before the dictionary entry *)
Definition deleteEKey (d : db) (n : name) : db * res unit :=
  let rows := filter (fun r => negb (e_is n r)) (db_ekeys d) in
  match ddel n_equals (db_base d) n with
  | Ok b => (Db (db_sched d) (db_mem d) rows b, Ok tt)
  | Err e => (Db (db_sched d) (db_mem d) rows (db_base d), Err e)
  end.
(** 552-569: cleanEKeys: the statement has no parameter but one value is supplied, so sqlite3
    raises ProgrammingError, which becomes GroupManagerDb.Error *)
Definition cleanEKeys (d : db) : db * res unit := (d, Err RuntimeError).

(** A Data packet of the result: name, freshness period in milliseconds, content *)
Record pkt : Type := Pkt { p_name : name; p_fresh : Z; p_content : bytes }.

(** [sorted(keys)] with Name.__lt__ *)
Fixpoint n_insert (x : name) (l : list name) : list name :=
  match l with [] => [x] | y :: l' => if n_ltb x y then x :: l else y :: n_insert x l' end.
Definition n_sorted (l : list name) : list name := fold_right n_insert [] l.

(** [name.append(aString)]: the UTF-8 bytes *)
Definition comp_of_str (s : str) : res comp := b <-- utf8_encode s ;; Ok (c_generic b).

Section Gm.
Variable rsa_enc : bytes -> bytes -> Z -> Z -> rsa_out.
Variable aes_enc : bytes -> bytes -> Z -> bytes -> res bytes.
(** RsaAlgorithm.generateKey(RsaKeyParams(keySize)).getKeyBits() and RsaAlgorithm.deriveEncryptKey *)
Variable generate : Z -> Z -> res bytes.
Variable derive : bytes -> res bytes.
Variable orderS : Z -> list srow -> list srow.
Variable orderM : Z -> list mrow -> list mrow.
(** group_manager.py 52-60: the constructor's prefix, dataType, keySize, freshnessHours *)
Variable prefix dataType : name.
Variables keySize freshnessHours : Z.
Definition namespace : name := prefix ++ [N_READ] ++ dataType.

(** 123-144: listAllScheduleNames *)
Definition listAllScheduleNames (d : db) (q : Z) : list str := map s_name (orderS q (db_sched d)).
(** 334-357: listAllMembers *)
Fixpoint decodeNames (l : list bytes) : res (list name) :=
  match l with [] => Ok [] | b :: l' =>
    match decodeName b with Ok n => ns <-- decodeNames l' ;; Ok (n :: ns) | Err _ => Err RuntimeError end end.
Definition listAllMembers (d : db) (q : Z) : res (list name) := decodeNames (map m_name (orderM q (db_mem d))).
(** 177-209: getScheduleMembers *)
Fixpoint memberDict (l : list mrow) (acc : dict name bytes) : res (dict name bytes) :=
  match l with [] => Ok acc | m :: l' =>
    match decodeName (m_key m) with Ok n => memberDict l' (dset n_equals acc n (m_pub m)) | Err _ => Err RuntimeError end end.
Definition getScheduleMembers (d : db) (n : str) (q : Z) : res (dict name bytes) :=
  memberDict (filter (fun m => existsb (fun r => s_is n r && (s_id r =? m_sid m)) (db_sched d)) (orderM q (db_mem d))) [].

(** group_manager.py 248-249 *)
Definition addAll (keys map : dict name bytes) : dict name bytes := fold_left (fun k e => dset n_equals k (fst e) (snd e)) map keys.

(** group_manager.py 234-253: the loop *)
Fixpoint calcLoop (d : db) (q us : Z) (names : list str) (pos neg : iv) (keys : dict name bytes) : res (iv * iv * dict name bytes) :=
  match names with
  | [] => Ok (pos, neg, keys)
  | n :: names' =>
      s <-- getSchedule d n ;;
      r <-- sc_getCoveringInterval s us ;;
      let '(isPositive, temp) := r in
      if (isPositive : bool) then
        pos' <-- iv_intersectWith (if negb (iv_valid pos) then temp else pos) temp ;;
        m <-- getScheduleMembers d n q ;;
        calcLoop d q us names' pos' neg (addAll keys m)
      else
        neg' <-- iv_intersectWith (if negb (iv_valid neg) then temp else neg) temp ;;
        calcLoop d q us names' pos neg' keys
  end.

(** group_manager.py 210-266: _calculateInterval *)
Definition calculateInterval (d : db) (q us : Z) : res (iv * dict name bytes) :=
  r <-- calcLoop d q us (listAllScheduleNames d q) (iv_default false) (iv_default false) [] ;;
  let '(pos, neg, keys) := r in
  if negb (iv_valid pos) then Ok (iv_default false, keys)
  else if iv_valid neg then i <-- iv_intersectWith pos neg ;; Ok (i, keys)
  else Ok (pos, keys).

(** group_manager.py 268-284: _generateKeyPair: private, public *)
Definition generateKeyPair (seed : Z) : res (bytes * bytes) :=
  priv <-- generate keySize seed ;; pub <-- derive priv ;; Ok (priv, pub).

(** group_manager.py 371, 301-302 *)
Definition freshness : Z := freshnessHours * (3600 * 1000).
(** group_manager.py 93-95, 296-298 *)
Definition eKeyName (start stop : comp) : name := (namespace ++ [N_E_KEY]) ++ [start] ++ [stop].
(** group_manager.py 286-305: _createEKeyData *)
Definition createEKeyData (start stop : comp) (pub : bytes) : pkt := Pkt (eKeyName start stop) freshness pub.
(** group_manager.py 307-333: _createDKeyData *)
Definition createDKeyData (start stop : comp) (keyName : name) (priv certificateKey : bytes) (r : rnd) : res pkt :=
  let n := (namespace ++ [N_D_KEY]) ++ [start] ++ [stop] in
  c <-- encryptContent rsa_enc aes_enc priv keyName certificateKey ALG_RSA_OAEP None r ;;
  Ok (Pkt (encryptedName n keyName) freshness c).

(** group_manager.py 113-121: the loop; the random choices of the packet for a member are
    [rs] of its key name *)
Fixpoint createDKeys (start stop : comp) (names : list name) (keys : dict name bytes) (priv : bytes) (rs : name -> rnd) : res (list pkt) :=
  match names with
  | [] => Ok []
  | n :: names' =>
      k <-- dindex n_equals keys n ;;
      p <-- createDKeyData start stop n priv k (rs n) ;;
      ps <-- createDKeys start stop names' keys priv rs ;;
      Ok (p :: ps)
  end.

(** group_manager.py 97-103: the key pair: public, private *)
Definition takePair (d : db) (ekn : name) (need : bool) (seed : Z) : db * res (bytes * bytes) :=
  if negb need && hasEKey d ekn then (d, getEKey d ekn)
  else
    match generateKeyPair seed with
    | Err e => (d, Err e)
    | Ok (priv, pub) =>
        let '(d1, r1) := if hasEKey d ekn then deleteEKey d ekn else (d, Ok tt) in
        match r1 with
        | Err e => (d1, Err e)
        | Ok _ => match addEKey d1 ekn pub priv with Ok d2 => (d2, Ok (pub, priv)) | Err e => (d1, Err e) end
        end
    end.

(** group_manager.py 62-123: getGroupKey *)
Definition getGroupKey (d : db) (us : Z) (need : bool) (q seed : Z) (rs : name -> rnd) : db * res (list pkt) :=
  match calculateInterval d q us with
  | Err e => (d, Err e)
  | Ok (final, keys) =>
      if negb (iv_valid final) then (d, Ok [])
      else
        match (a <-- iv_getStartTime final ;; s <-- toIsoString a ;;
               b <-- iv_getEndTime final ;; e <-- toIsoString b ;;
               sc <-- comp_of_str s ;; ec <-- comp_of_str e ;; Ok (sc, ec)) with
        | Err e => (d, Err e)
        | Ok (sc, ec) =>
            let '(d', r) := takePair d (eKeyName sc ec) need seed in
            (d', (p <-- r ;;
                  let '(pub, priv) := p in
                  ds <-- createDKeys sc ec (n_sorted (dkeys keys)) keys priv rs ;;
                  Ok (createEKeyData sc ec pub :: ds)))
        end
  end.

(** The calls of a user: group_manager.py 125-208 (addMember with the key name and the key of
    the certificate), renameSchedule of the database, and opening the database again *)
Inductive call : Type :=
| AddSchedule (n : str) (s : sched) | DeleteSchedule (n : str) | RenameSchedule (a b : str) | UpdateSchedule (n : str) (s : sched)
| AddMember (scheduleName : str) (keyName : name) (key : bytes) | UpdateMemberSchedule (identity : name) (scheduleName : str)
| RemoveMember (identity : name)
| GroupKey (us : Z) (need : bool) (q seed : Z) (rs : name -> rnd) | CleanEKeys | Restart.
Inductive ans : Type := Done | Keys (l : list pkt) | Raised (e : exn).

Definition lift (d : db) (r : res db) : db * ans := match r with Ok d' => (d', Done) | Err e => (d, Raised e) end.
Definition step (d : db) (c : call) : db * ans :=
  match c with
  | AddSchedule n s => lift d (addSchedule d n s)
  | DeleteSchedule n => (deleteSchedule d n, Done)
  | RenameSchedule a b => lift d (renameSchedule d a b)
  | UpdateSchedule n s => lift d (updateSchedule d n s)
  | AddMember sn kn k => lift d (addMember d sn kn k)
  | UpdateMemberSchedule i sn => lift d (updateMemberSchedule d i sn)
  | RemoveMember i => (deleteMember d i, Done)
  | GroupKey us need q seed rs =>
      let '(d', r) := getGroupKey d us need q seed rs in (d', match r with Ok l => Keys l | Err e => Raised e end)
  | CleanEKeys => let '(d', r) := cleanEKeys d in (d', match r with Ok _ => Done | Err e => Raised e end)
  | Restart => (reopen d, Done)
  end.
Definition run_from (d : db) (l : list call) : db := fold_left (fun d c => fst (step d c)) l d.
Definition run (l : list call) : db := run_from db_empty l.
End Gm.
