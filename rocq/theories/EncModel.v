(** * Model of EncryptorV2 (python/pyndn/encrypt/encryptor_v2.py)

    The RSA-OAEP encryption [penc], the AES-CBC encryption [cbc] and SHA-256 are parameters.  Random
    numbers, the clock, the signing by the KeyChain (which may raise) and what expressInterest returns
    (None if it raises) are arguments of the events.  The onError of the user is an event in the
    output; it does not raise. *)
From Verif Require Import Base NameModel DictModel WireModel CtlModel StoreModel NacModel.

(** encryptor_v2.py 309-316, 71: the delays, and the number of tries of NacModel *)
Definition RETRY_NACK : Z := 1000.
Definition RETRY_KEK : Z := 60000.
Definition CK_FRESHNESS : Z := 3600000.

(** What the Face has to call later: _retryFetchingKek (239, 253), or _fetchKekAndPublishCkData after
    a Nack, with its nTriesLeft (244-246) *)
Inductive later : Type := Retry | Again (tries : Z).
(** What is seen from outside: an Interest with its id; onError; callLater with its delay; the result
    of encrypt *)
Inductive eout : Type := OSend (id : Z) (n : name) | OError (code : Z) | ODelay (ms : Z) | OContent (r : res encryptedContent).
Inductive eevent : Type :=
  | VRegen (now : Z) (bits : bytes) (x : option Z) (rnd : Z) (sign : data -> res data)
  | VData (id : Z) (kek : data) (rnd : Z) (sign : data -> res data)
  | VTimeout (id : Z) (x : option Z)
  | VNack (id : Z)
  | VLater (i : nat) (x : option Z)
  | VEncrypt (iv m : bytes)
  | VShutdown.
(** 74-89: the fields.  [e_id] is _kekPendingInterestId, [e_pend] has the Interests in the Face with
    the nTriesLeft of their callbacks, [e_later] what the Face will call. *)
Record estate : Type := EState { e_name : name; e_bits : bytes; e_busy : bool; e_kek : option data; e_store : dict name data; e_id : Z; e_pend : dict Z Z; e_later : list later; e_out : list eout }.
Definition e_emit (o : eout) (s : estate) : estate := EState (e_name s) (e_bits s) (e_busy s) (e_kek s) (e_store s) (e_id s) (e_pend s) (e_later s) (e_out s ++ [o]).
Definition set_busy (b : bool) (s : estate) : estate := EState (e_name s) (e_bits s) b (e_kek s) (e_store s) (e_id s) (e_pend s) (e_later s) (e_out s).
Definition set_id (i : Z) (s : estate) : estate := EState (e_name s) (e_bits s) (e_busy s) (e_kek s) (e_store s) i (e_pend s) (e_later s) (e_out s).
Definition set_kek (d : data) (s : estate) : estate := EState (e_name s) (e_bits s) (e_busy s) (Some d) (e_store s) (e_id s) (e_pend s) (e_later s) (e_out s).
Definition set_ck (n : name) (b : bytes) (s : estate) : estate := EState n b (e_busy s) (e_kek s) (e_store s) (e_id s) (e_pend s) (e_later s) (e_out s).
Definition set_store (m : dict name data) (s : estate) : estate := EState (e_name s) (e_bits s) (e_busy s) (e_kek s) m (e_id s) (e_pend s) (e_later s) (e_out s).
Definition set_pend (p : dict Z Z) (s : estate) : estate := EState (e_name s) (e_bits s) (e_busy s) (e_kek s) (e_store s) (e_id s) p (e_later s) (e_out s).
Definition set_later (l : list later) (s : estate) : estate := EState (e_name s) (e_bits s) (e_busy s) (e_kek s) (e_store s) (e_id s) (e_pend s) l (e_out s).
(** Face.callLater *)
Definition call_later (ms : Z) (c : later) (s : estate) : estate := e_emit (ODelay ms) (set_later (e_later s ++ [c]) s).

Section Enc.
Variable penc : Z -> bytes -> bytes -> res bytes.
Variable cbc : bytes -> bytes -> bytes -> res bytes.
Variable sha : bytes -> bytes.
Variable accessPrefix ckPrefix : name.
(** data.py 214-249: getFullName (see HeapModel for its cache) *)
Definition full_name (d : data) : res name := rbind (encodeData d) (fun w => rbind (c_fromImplicitSha256Digest (sha (fst w))) (fun c => Ok (d_name d ++ [c]))).
(** 192-195: the onError of _retryFetchingKek *)
Definition kek_error (code : Z) (s : estate) : estate := e_emit (OError code) (set_busy false s).
(** 280-283: the content of a CK Data *)
Definition ck_content (c : bytes) : bytes := encodeEncryptedContentV2 (EC None kl_empty None (Some c) None).
(** 278-291: the CK Data and its full name *)
Definition make_ck (k : name) (bits : bytes) (kek : data) (rnd : Z) (sign : data -> res data) : res (name * data) :=
  rbind (to_bytes (d_content kek)) (fun pub => rbind (penc rnd pub bits) (fun c =>
  rbind (sign (Data (k ++ [N_ENCRYPTED_BY] ++ d_name kek) (MI 0 (-1) (Some CK_FRESHNESS) (c_generic [])) (Some (ck_content c)) (SigRsa kl_empty vp_none None))) (fun d =>
  rbind (full_name d) (fun n => Ok (n, d))))).
(** 265-301: _makeAndPublishCkData: with the KEK, to the storage, or None if it raises *)
Definition publish (kek : data) (rnd : Z) (sign : data -> res data) (s : estate) : option estate :=
  match make_ck (e_name s) (e_bits s) kek rnd sign with Ok (n, d) => Some (set_store (dset n_equals (e_store s) n d) s) | Err _ => None end.
(** 199-263: _fetchKekAndPublishCkData *)
Definition fetch (tries : Z) (x : option Z) (s : estate) : estate :=
  if 0 <? e_id s then kek_error E_General s
  else match x with
  | None => kek_error E_General s
  | Some id => set_id id (e_emit (OSend id (accessPrefix ++ [N_KEK])) (set_pend (dset Z.eqb (e_pend s) id tries) s))
  end.
(** 181-197: _retryFetchingKek *)
Definition retry (x : option Z) (s : estate) : estate := if e_busy s then s else fetch N_RETRIES x (set_busy true s).
(** 155-158: the name of the CK of a time; Name.appendVersion raises only for a negative number *)
Definition ck_name (now : Z) : res name := rbind (c_fromVersion now) (fun v => Ok (ckPrefix ++ [N_CK; v])).
(** 147-170: regenerateCk *)
Definition regenerate (now : Z) (bits : bytes) (x : option Z) (rnd : Z) (sign : data -> res data) (s : estate) : estate :=
  match ck_name now with
  | Err _ => s
  | Ok k =>
      let s1 := set_ck k bits s in
      match e_kek s with
      | None => retry x s1
      | Some kek => match publish kek rnd sign s1 with Some s2 => s2 | None => e_emit (OError E_EncryptionFailure) s1 end
      end
  end.
(** The Face calls a callback of the Interest [id] and forgets it. *)
Definition e_take (id : Z) (s : estate) : estate := set_pend (dremove Z.eqb (e_pend s) id) s.
(** 221-227: onData *)
Definition on_kek (kek : data) (rnd : Z) (sign : data -> res data) (s : estate) : estate :=
  let s1 := set_kek kek (set_id 0 s) in
  match publish kek rnd sign s1 with Some s2 => set_busy false s2 | None => kek_error E_EncryptionFailure s1 end.
(** 229-239: onTimeout *)
Definition on_timeout (tries : Z) (x : option Z) (s : estate) : estate :=
  let s1 := set_id 0 s in
  if 1 <? tries then fetch (tries - 1) x s1 else call_later RETRY_KEK Retry (kek_error E_KekRetrievalTimeout s1).
(** 241-253: onNetworkNack *)
Definition on_nack (tries : Z) (s : estate) : estate :=
  let s1 := set_id 0 s in
  if 1 <? tries then call_later RETRY_NACK (Again (tries - 1)) s1 else call_later RETRY_KEK Retry (kek_error E_KekRetrievalFailure s1).
(** 120-145: encrypt *)
Definition e_encrypt (k : name) (bits iv m : bytes) : res encryptedContent :=
  rbind (aes_encrypt cbc bits iv m) (fun c => Ok (EC None (KL (Some 1) k None) (Some iv) (Some c) None)).
Definition e_step (o : eevent) (s : estate) : estate :=
  match o with
  | VRegen now bits x rnd sign => regenerate now bits x rnd sign s
  | VData id kek rnd sign => match dget Z.eqb (e_pend s) id with None => s | Some _ => on_kek kek rnd sign (e_take id s) end
  | VTimeout id x => match dget Z.eqb (e_pend s) id with None => s | Some t => on_timeout t x (e_take id s) end
  | VNack id => match dget Z.eqb (e_pend s) id with None => s | Some t => on_nack t (e_take id s) end
  | VLater i x =>
      match nth_error (e_later s) i with
      | None => s
      | Some c =>
          let s1 := set_later (firstn i (e_later s) ++ skipn (S i) (e_later s)) s in
          match c with Retry => retry x s1 | Again t => fetch t x s1 end
      end
  | VEncrypt iv m => e_emit (OContent (e_encrypt (e_name s) (e_bits s) iv m)) s
  (* 115-118: shutdown *)
  | VShutdown => if 0 <? e_id s then e_take (e_id s) s else s
  end.
(** 74-91: before the constructor calls regenerateCk *)
Definition e_start : estate := EState [] (repeat 0 32) false None [] 0 [] [] [].
Definition e_run (l : list eevent) : estate := fold_left (fun s o => e_step o s) l e_start.
(** 93-99: onInterest: what is served *)
Definition serve (s : estate) (n : name) : option data := st_find (e_store s) n.
End Enc.
