(** * Model of PibSqlite3 (python/pyndn/security/pib/pib_sqlite3.py)

    The SQL statements of the file are modelled by their meaning: tables are lists of rows, and an
    INSERT, UPDATE or DELETE runs the triggers and the foreign key actions of lines 36-205.  Each one
    is followed by commit, so it happens as a whole or not at all, and what it did is in the file.
    A call is a program of such statements: between them, other processes may use the database, and
    the process may end.  Any statement may also raise (the disk, a lock); the call then raises
    PibImpl.Error, which is [RuntimeError].  Pib.Error is [OtherError].

    A certificate is a Data packet.  INTEGER PRIMARY KEY chooses one more than the largest id (that
    there are at most 2^63 of them is not modelled). *)
From Verif Require Import Base NameModel DictModel WireModel HierModel PibModel FrontModel BagModel ChainModel.
Local Open Scope res_scope.

(** 36-205: a row of identities, keys or certificates: id; identity_id or key_id, which identities
    does not have (0); identity, key_name or certificate_name; key_bits or certificate_data, which
    identities does not have (empty); is_default *)
Record row : Type := Row { r_id : Z; r_scope : Z; r_name : bytes; r_data : bytes; r_def : bool }.
Definition table : Type := list row.
Definition with_def (b : bool) (r : row) : row := Row (r_id r) (r_scope r) (r_name r) (r_data r) b.
Definition named (n : bytes) (r : row) : bool := zlist_eqb (r_name r) n.
Definition default_of (s : Z) (r : row) : bool := r_def r && (r_scope r =? s).
Definition new_id (t : table) : Z := fold_right Z.max 0 (map r_id t) + 1.
(** The BEFORE UPDATE trigger (75-84, 131-142, 190-201) and the update of is_default to 1, on one row *)
Definition mark_row (t : table) (x : row) : table :=
  let t1 := if r_def x then t else map (fun r => if r_scope r =? r_scope x then with_def false r else r) t in
  map (fun r => if r_id r =? r_id x then with_def true r else r) t1.
(** UPDATE ... SET is_default=1 WHERE name=? *)
Definition t_mark (t : table) (n : bytes) : table := fold_left mark_row (filter (named n) t) t.
(** INSERT: the unique index (50-53, 101-104, 160-163) and the AFTER INSERT trigger (60-74, 115-130,
    174-189); the BEFORE INSERT triggers do nothing since is_default is 0 *)
Definition t_insert (t : table) (s : Z) (n data : bytes) : option table :=
  if existsb (named n) t then None
  else
    let t1 := t ++ [Row (new_id t) s n data false] in
    Some (if existsb (default_of s) t1 then t1 else t_mark t1 n).
(** UPDATE ... SET data=? WHERE name=? *)
Definition t_update (t : table) (n data : bytes) : table := map (fun r => if named n r then Row (r_id r) (r_scope r) (r_name r) data (r_def r) else r) t.
(** DELETE of the rows with [p] *)
Definition t_delete (p : row -> bool) (t : table) : table := filter (fun r => negb (p r)) t.
(** the id of the row with the name: a (SELECT id ... WHERE name=?) that is one value *)
Definition t_id (t : table) (n : bytes) : option Z := match find (named n) t with Some r => Some (r_id r) | None => None end.
Definition has_id (l : list Z) (i : Z) : bool := existsb (Z.eqb i) l.

Record db : Type := Db { b_tpm : list bytes; b_ids : table; b_keys : table; b_certs : table }.
Definition db_new : db := Db [] [] [] [].
(** ON DELETE CASCADE (96-99, 155-158) *)
Definition drop_certs (keys : list Z) (t : table) : table := t_delete (fun r => has_id keys (r_scope r)) t.
Definition drop_keys (p : row -> bool) (d : db) : db := Db (b_tpm d) (b_ids d) (t_delete p (b_keys d)) (drop_certs (map r_id (filter p (b_keys d))) (b_certs d)).
Definition drop_ids (p : row -> bool) (d : db) : db :=
  let gone := map r_id (filter p (b_ids d)) in
  drop_keys (fun r => has_id gone (r_scope r)) (Db (b_tpm d) (t_delete p (b_ids d)) (b_keys d) (b_certs d)).

(** The statements that write *)
Inductive update : Type :=
  | UInsertTpm (l : bytes) | USetTpm (l : bytes)
  | UInsertIdentity (i : bytes) | UDeleteIdentity (i : bytes) | UDeleteIdentities | UDefaultIdentity (i : bytes)
  | UInsertKey (i k b : bytes) | USetKey (k b : bytes) | UDeleteKey (k : bytes) | UDefaultKey (k : bytes)
  | UInsertCert (k n c : bytes) | USetCert (n c : bytes) | UDeleteCert (n : bytes) | UDefaultCert (n : bytes).
Definition w_ids (d : db) (t : table) : db := Db (b_tpm d) t (b_keys d) (b_certs d).
Definition w_keys (d : db) (t : table) : db := Db (b_tpm d) (b_ids d) t (b_certs d).
Definition w_certs (d : db) (t : table) : db := Db (b_tpm d) (b_ids d) (b_keys d) t.
(** None: a constraint is violated, and nothing happens *)
Definition write (u : update) (d : db) : option db :=
  match u with
  | UInsertTpm l => Some (Db (b_tpm d ++ [l]) (b_ids d) (b_keys d) (b_certs d))
  | USetTpm l => Some (Db (map (fun _ => l) (b_tpm d)) (b_ids d) (b_keys d) (b_certs d))
  | UInsertIdentity i => match t_insert (b_ids d) 0 i [] with Some t => Some (w_ids d t) | None => None end
  | UDeleteIdentity i => Some (drop_ids (named i) d)
  | UDeleteIdentities => Some (drop_ids (fun _ => true) d)
  | UDefaultIdentity i => Some (w_ids d (t_mark (b_ids d) i))
  | UInsertKey i k b =>
      match t_id (b_ids d) i with
      | None => None
      | Some s => match t_insert (b_keys d) s k b with Some t => Some (w_keys d t) | None => None end
      end
  | USetKey k b => Some (w_keys d (t_update (b_keys d) k b))
  | UDeleteKey k => Some (drop_keys (named k) d)
  | UDefaultKey k => Some (w_keys d (t_mark (b_keys d) k))
  | UInsertCert k n c =>
      match t_id (b_keys d) k with
      | None => None
      | Some s => match t_insert (b_certs d) s n c with Some t => Some (w_certs d t) | None => None end
      end
  | USetCert n c => Some (w_certs d (t_update (b_certs d) n c))
  | UDeleteCert n => Some (w_certs d (t_delete (named n) (b_certs d)))
  | UDefaultCert n => Some (w_certs d (t_mark (b_certs d) n))
  end.
(** The statements that read, and the column they give *)
Inductive query : Type :=
  | QTpm | QIdentity (i : bytes) | QIdentities | QDefaultIdentity
  | QKey (k : bytes) | QKeyBits (k : bytes) | QKeysOf (i : bytes) | QDefaultKey (i : bytes)
  | QCert (n : bytes) | QCertData (n : bytes) | QCertsOf (k : bytes) | QDefaultCert (k : bytes).
(** child JOIN parent ON child.scope=parent.id WHERE parent.name=? *)
Definition joined (parent child : table) (n : bytes) : table :=
  flat_map (fun c => map (fun _ => c) (filter (fun p => (r_scope c =? r_id p) && named n p) parent)) child.
Definition read (q : query) (d : db) : list bytes :=
  match q with
  | QTpm => b_tpm d
  | QIdentity i => map r_name (filter (named i) (b_ids d))
  | QIdentities => map r_name (b_ids d)
  | QDefaultIdentity => map r_name (filter r_def (b_ids d))
  | QKey k => map r_name (filter (named k) (b_keys d))
  | QKeyBits k => map r_data (filter (named k) (b_keys d))
  | QKeysOf i => map r_name (joined (b_ids d) (b_keys d) i)
  | QDefaultKey i => map r_name (filter r_def (joined (b_ids d) (b_keys d) i))
  | QCert n => map r_name (filter (named n) (b_certs d))
  | QCertData n => map r_data (filter (named n) (b_certs d))
  | QCertsOf k => map r_name (joined (b_keys d) (b_certs d) k)
  | QDefaultCert k => map r_data (filter r_def (joined (b_keys d) (b_certs d) k))
  end.

(** A call: its next statement, and how it goes on *)
Inductive prog (A : Type) : Type :=
  | Done (r : res A)
  | Ask (q : query) (k : list bytes -> prog A)
  | Run (u : update) (k : prog A).
Arguments Done {A} _.
Arguments Ask {A} _ _.
Arguments Run {A} _ _.
Fixpoint pbind {A B} (p : prog A) (f : A -> prog B) : prog B :=
  match p with
  | Done (Ok a) => f a
  | Done (Err e) => Done (Err e)
  | Ask q k => Ask q (fun rows => pbind (k rows) f)
  | Run u k => Run u (pbind k f)
  end.
Declare Scope prog_scope.
Notation "x <~ m ;; k" := (pbind m (fun x => k)) (at level 100, m at next level, right associativity) : prog_scope.
Notation "m ;;; k" := (pbind m (fun _ => k)) (at level 100, right associativity) : prog_scope.
Local Open Scope prog_scope.
Definition stop {A} (e : Base.exn) : prog A := Done (Err e).
Definition give {A} (a : A) : prog A := Done (Ok a).
Definition some_row (q : query) : prog bool := Ask q (fun rows => give (match rows with [] => false | _ => true end)).
Definition one_row (q : query) : prog (option bytes) := Ask q (fun rows => give (match rows with [] => None | r :: _ => Some r end)).
Definition do (u : update) : prog unit := Run u (give tt).
(** sqlite3.Binary(bytearray(name.wireEncode().buf())) *)
Definition enc (n : name) : bytes := encodeName n.
Definition plift {A} (r : res A) : prog A := Done r.

(** 280-299: getTpmLocator; 256-278: setTpmLocator *)
Definition p_getTpmLocator : prog bytes := r <~ one_row QTpm ;; give (match r with Some l => l | None => [] end).
Definition p_setTpmLocator (l : bytes) : prog unit := x <~ p_getTpmLocator ;; if zlist_eqb x [] then do (UInsertTpm l) else do (USetTpm l).
(** 303-322: hasIdentity; 900-916: _hasDefaultIdentity *)
Definition p_hasIdentity (i : name) : prog bool := some_row (QIdentity (enc i)).
Definition p_hasDefaultIdentity : prog bool := some_row QDefaultIdentity.
(** 400-427: setDefaultIdentity *)
Definition p_setDefaultIdentity (i : name) : prog unit :=
  b <~ p_hasIdentity i ;; (if (b : bool) then give tt else do (UInsertIdentity (enc i))) ;;; do (UDefaultIdentity (enc i)).
(** 324-344: addIdentity *)
Definition p_addIdentity (i : name) : prog unit :=
  b <~ p_hasIdentity i ;; (if (b : bool) then give tt else do (UInsertIdentity (enc i))) ;;;
  b <~ p_hasDefaultIdentity ;; if (b : bool) then give tt else p_setDefaultIdentity i.
(** 346-362: removeIdentity; 364-374: clearIdentities *)
Definition p_removeIdentity (i : name) : prog unit := do (UDeleteIdentity (enc i)).
Definition p_clearIdentities : prog unit := do UDeleteIdentities.
(** A loop that decodes each row *)
Fixpoint decode_all (rows : list bytes) : res (list name) :=
  match rows with [] => Ok [] | r :: l => match decodeName r with Ok n => match decode_all l with Ok ns => Ok (n :: ns) | Err e => Err e end | Err e => Err e end end.
(** An error of wireDecode in the loop is a PibImpl.Error too. *)
Definition names_of (q : query) : prog (list name) := Ask q (fun rows => match decode_all rows with Ok l => give l | Err _ => stop RuntimeError end).
(** 376-398: getIdentities *)
Definition p_getIdentities : prog (list name) := names_of QIdentities.
(** 429-454: getDefaultIdentity *)
Definition p_getDefaultIdentity : prog name := r <~ one_row QDefaultIdentity ;; match r with Some b => plift (decodeName b) | None => stop OtherError end.
(** 458-478: hasKey; 918-939: _hasDefaultKeyOfIdentity *)
Definition p_hasKey (k : name) : prog bool := some_row (QKey (enc k)).
Definition p_hasDefaultKey (i : name) : prog bool := some_row (QDefaultKey (enc i)).
(** 601-621: setDefaultKeyOfIdentity *)
Definition p_setDefaultKey (i k : name) : prog unit := b <~ p_hasKey k ;; if (b : bool) then do (UDefaultKey (enc k)) else stop OtherError.
(** 480-523: addKey *)
Definition p_addKey (i k : name) (bits : bytes) : prog unit :=
  p_addIdentity i ;;;
  b <~ p_hasKey k ;; (if (b : bool) then do (USetKey (enc k) bits) else do (UInsertKey (enc i) (enc k) bits)) ;;;
  b <~ p_hasDefaultKey i ;; if (b : bool) then give tt else p_setDefaultKey i k.
(** 525-540: removeKey *)
Definition p_removeKey (k : name) : prog unit := do (UDeleteKey (enc k)).
(** 542-568: getKeyBits *)
Definition p_getKeyBits (k : name) : prog bytes := r <~ one_row (QKeyBits (enc k)) ;; match r with Some b => give b | None => stop OtherError end.
(** 570-599: getKeysOfIdentity *)
Definition p_getKeysOfIdentity (i : name) : prog (list name) := names_of (QKeysOf (enc i)).
(** 623-659: getDefaultKeyOfIdentity *)
Definition p_getDefaultKey (i : name) : prog name :=
  b <~ p_hasIdentity i ;; if negb b then stop OtherError
  else r <~ one_row (QDefaultKey (enc i)) ;; match r with Some b => plift (decodeName b) | None => stop OtherError end.
(** 663-682: hasCertificate; 941-962: _hasDefaultCertificateOfKey *)
Definition p_hasCertificate (n : name) : prog bool := some_row (QCert (enc n)).
Definition p_hasDefaultCert (k : name) : prog bool := some_row (QDefaultCert (enc k)).
(** 813-836: setDefaultCertificateOfKey *)
Definition p_setDefaultCert (k n : name) : prog unit := b <~ p_hasCertificate n ;; if (b : bool) then do (UDefaultCert (enc n)) else stop OtherError.
(** 684-731: addCertificate.  An error of certificate.wireEncode is a PibImpl.Error; that bytearray
    of the None of a null content raises is not modelled (x_content). *)
Definition p_addCertificate (c : data) : prog unit :=
  i <~ plift (cert_getIdentity (d_name c)) ;; k <~ plift (cert_getKeyName (d_name c)) ;;
  p_addKey i k (x_content c) ;;;
  b <~ p_hasCertificate (d_name c) ;;
  w <~ plift (match encodeData c with Ok w => Ok (fst w) | Err _ => Err RuntimeError end) ;;
  (if (b : bool) then do (USetCert (enc (d_name c)) w) else do (UInsertCert (enc k) (enc (d_name c)) w)) ;;;
  b <~ p_hasDefaultCert k ;; if (b : bool) then give tt else p_setDefaultCert k (d_name c).
(** 733-748: removeCertificate *)
Definition p_removeCertificate (n : name) : prog unit := do (UDeleteCert (enc n)).
(** certificate_v2.py 86-93, 202-216: CertificateV2().wireDecode: the Data, with the format checked *)
Definition cert_blank : data := Data [] (MI 2 (-1) None (c_generic [])) None (SigRsa kl_empty vp_none None).
Definition cert_wireDecode (b : bytes) : res data := (d <-- decodeData cert_blank b ;; _ <-- cert_checkFormat (fst d) ;; Ok (fst d))%res.
(** 750-779: getCertificate *)
Definition p_getCertificate (n : name) : prog data := r <~ one_row (QCertData (enc n)) ;; match r with Some b => plift (cert_wireDecode b) | None => stop OtherError end.
(** 781-811: getCertificatesOfKey *)
Definition p_getCertificatesOfKey (k : name) : prog (list name) := names_of (QCertsOf (enc k)).
(** 838-869: getDefaultCertificateOfKey *)
Definition p_getDefaultCert (k : name) : prog data := r <~ one_row (QDefaultCert (enc k)) ;; match r with Some b => plift (cert_wireDecode b) | None => stop OtherError end.

(** The calls of PibModel *)
Definition p_call (o : call data) : prog unit :=
  match o with
  | AddIdentity i => p_addIdentity i
  | RemoveIdentity i => p_removeIdentity i
  | Clear => p_clearIdentities
  | SetDefaultIdentity i => p_setDefaultIdentity i
  | AddKey i k b => p_addKey i k b
  | RemoveKey k => p_removeKey k
  | SetDefaultKey i k => p_setDefaultKey i k
  | AddCert c => p_addCertificate c
  | RemoveCert n => p_removeCertificate n
  | SetDefaultCert k n => p_setDefaultCert k n
  end.
(** A call when nobody else uses the database and nothing fails *)
Fixpoint perform {A} (p : prog A) (d : db) : db * res A :=
  match p with
  | Done r => (d, r)
  | Ask q k => perform (k (read q d)) d
  | Run u k => match write u d with Some d' => perform k d' | None => (d, Err RuntimeError) end
  end.
(** What is in the file if the process ends, or a statement raises, at some point of the call *)
Fixpoint crashes {A} (p : prog A) (d : db) : list db :=
  match p with
  | Done _ => [d]
  | Ask q k => d :: crashes (k (read q d)) d
  | Run u k => d :: match write u d with Some d' => crashes k d' | None => [] end
  end.
Definition s_run (h : list (call data)) (d : db) : db := fold_left (fun d o => fst (perform (p_call o) d)) h d.

(** ** Several processes on one file *)
(** The database, and for each process the rest of the call it is in *)
Record sys : Type := Sys { y_db : db; y_procs : list (prog unit) }.
Inductive y_step (ok : call data -> Prop) : sys -> sys -> Prop :=
  (* a process begins a call *)
  | YBegin : forall d ps o, ok o -> y_step ok (Sys d ps) (Sys d (p_call o :: ps))
  (* the next statement of a process *)
  | YAsk : forall d a q k b, y_step ok (Sys d (a ++ Ask q k :: b)) (Sys d (a ++ k (read q d) :: b))
  | YRun : forall d a u k b d', write u d = Some d' -> y_step ok (Sys d (a ++ Run u k :: b)) (Sys d' (a ++ k :: b))
  (* it is at the end, or its statement violates a constraint or raises for another reason, or the process ends *)
  | YGone : forall d a p b, y_step ok (Sys d (a ++ p :: b)) (Sys d (a ++ b)).
Inductive y_reach (ok : call data -> Prop) : sys -> Prop :=
  | YStart : y_reach ok (Sys db_new [])
  | YNext : forall s s', y_reach ok s -> y_step ok s s' -> y_reach ok s'.
