(** * Model of Pib, PibIdentity, PibKey and their containers, over PibMemory

    The objects PibIdentityImpl and PibKeyImpl are in two heaps and are known by their index: a
    PibIdentity (a PibKey) is a wrapper of the index.  Copies of names and certificates are the
    values themselves.  A certificate is a value of any type [C], as in PibModel.  [ktype] is
    PublicKey(bits).getKeyType(), which raises for bits it cannot decode.  Pib.Error is
    [OtherError].  A dangling index (which there is none of) is a TypeError. *)
From Verif Require Import Base NameModel DictModel HierModel PibModel.

(** State and exceptions: an exception keeps the changes made before it. *)
Definition sm (S A : Type) : Type := S -> S * res A.
Definition ret {S A} (a : A) : sm S A := fun s => (s, Ok a).
Definition raise {S A} (e : exn) : sm S A := fun s => (s, Err e).
Definition bind {S A B} (m : sm S A) (k : A -> sm S B) : sm S B := fun s => match m s with (s', Ok a) => k a s' | (s', Err e) => (s', Err e) end.
Definition lift {S A} (r : res A) : sm S A := fun s => (s, r).
(** try: m except Pib.Error (or any exception [cl] holds of): h *)
Definition catch {S A} (cl : exn -> bool) (m : sm S A) (h : sm S A) : sm S A := fun s => match m s with (s', Err e) => if cl e then h s' else (s', Err e) | r => r end.
Definition get {S A} (f : S -> A) : sm S A := fun s => (s, Ok (f s)).
Definition put {S} (f : S -> S) : sm S unit := fun s => (f s, Ok tt).
Declare Scope sm_scope.
Notation "x <~ m ;; k" := (bind m (fun x => k)) (at level 100, m at next level, right associativity) : sm_scope.
Notation "m ;;; k" := (bind m (fun _ => k)) (at level 100, right associativity) : sm_scope.
Local Open Scope sm_scope.

Fixpoint update {A} (l : list A) (n : nat) (x : A) : list A :=
  match l, n with [], _ => [] | _ :: l', O => x :: l' | y :: l', S n' => y :: update l' n' x end.

Section Front.
Context {C : Type}.
Variable ct_name : C -> name.
Variable ct_content : C -> bytes.
Variable ct_check : C -> res unit.
Variable ord : list name -> list name.
Variable ktype : bytes -> res Z.

(** A set of names *)
Definition nset_ : Type := dict name unit.
Definition set_of (l : list name) : nset_ := map (fun n => (n, tt)) l.
Notation nget := (dget n_equals).
Notation nin := (din n_equals).
Notation nset := (dset n_equals).
Notation ndrop := (dremove n_equals).

(** pib_identity_impl.py 45-51 with pib_key_container.py 39-50 *)
Record idobj : Type := IdObj { io_name : name; io_default : option nat; io_names : nset_; io_keys : dict name nat }.
(** pib_key_impl.py 54-98 with pib_certificate_container.py 38-48 *)
Record keyobj : Type := KeyObj {
  ko_identity : name; ko_name : name; ko_bits : bytes; ko_type : Z; ko_names : nset_; ko_certs : dict name C; ko_default : option C }.
(** pib.py 49-57 with pib_identity_container.py 38-47 *)
Record front : Type := Front {
  impl : pib C; idheap : list idobj; keyheap : list keyobj; p_default : option nat; p_ids : dict name nat; p_names : nset_ }.
Definition front_new (b : pib C) : front := Front b [] [] None [] (set_of (getIdentities b)).

Definition w_impl (s : front) (b : pib C) : front := Front b (idheap s) (keyheap s) (p_default s) (p_ids s) (p_names s).
Definition w_ids (s : front) (d : dict name nat) (ns : nset_) : front := Front (impl s) (idheap s) (keyheap s) (p_default s) d ns.
Definition w_default (s : front) (d : option nat) : front := Front (impl s) (idheap s) (keyheap s) d (p_ids s) (p_names s).
Definition w_id (s : front) (r : nat) (o : idobj) : front := Front (impl s) (update (idheap s) r o) (keyheap s) (p_default s) (p_ids s) (p_names s).
Definition w_key (s : front) (q : nat) (o : keyobj) : front := Front (impl s) (idheap s) (update (keyheap s) q o) (p_default s) (p_ids s) (p_names s).

Notation fm := (sm front).
(** A call of the back end *)
Definition back (o : call C) : fm unit := fun s => let (b, r) := exec ct_name ct_content ct_check ord (impl s) o in (w_impl s b, r).
Definition ask {A} (f : pib C -> res A) : fm A := fun s => (s, f (impl s)).
Definition the_id (r : nat) : fm idobj := fun s => (s, match nth_error (idheap s) r with Some o => Ok o | None => Err TypeError end).
Definition the_key (q : nat) : fm keyobj := fun s => (s, match nth_error (keyheap s) q with Some o => Ok o | None => Err TypeError end).
Definition set_id (r : nat) (o : idobj) : fm unit := put (fun s => w_id s r o).
Definition set_key (q : nat) (o : keyobj) : fm unit := put (fun s => w_key s q o).
Definition new_id (o : idobj) : fm nat := fun s => (Front (impl s) (idheap s ++ [o]) (keyheap s) (p_default s) (p_ids s) (p_names s), Ok (length (idheap s))).
Definition new_key (o : keyobj) : fm nat := fun s => (Front (impl s) (idheap s) (keyheap s ++ [o]) (p_default s) (p_ids s) (p_names s), Ok (length (keyheap s))).

(** pib_certificate_container.py 69-77: PibCertificateContainer.add, called by pib_key_impl.py
    138-151: addCertificate *)
Definition key_addCertificate (q : nat) (c : C) : fm unit :=
  o <~ the_key q ;;
  k <~ lift (cert_getKeyName (ct_name c)) ;;
  if negb (n_equals (ko_name o) k) then raise ValueError
  else
    set_key q (KeyObj (ko_identity o) (ko_name o) (ko_bits o) (ko_type o) (nset (ko_names o) (ct_name c) tt) (ko_certs o) (ko_default o)) ;;;
    lift (ct_check c) ;;;
    set_key q (KeyObj (ko_identity o) (ko_name o) (ko_bits o) (ko_type o) (nset (ko_names o) (ct_name c) tt) (nset (ko_certs o) (ct_name c) c) (ko_default o)) ;;;
    back (AddCert c).
(** pib_certificate_container.py 87-91, 128-132: the test of a certificate name *)
Definition check_cert_name (o : keyobj) (n : name) : res unit :=
  rbind (cert_isValidName n) (fun v => if negb v then Err ValueError else rbind (cert_extractKeyName n) (fun k => if n_equals k (ko_name o) then Ok tt else Err ValueError)).
(** pib_key_impl.py 153-167: removeCertificate, with pib_certificate_container.py 79-105 *)
Definition key_removeCertificate (q : nat) (n : name) : fm unit :=
  o <~ the_key q ;;
  let d := match ko_default o with Some c => if n_equals (ct_name c) n then None else Some c | None => None end in
  set_key q (KeyObj (ko_identity o) (ko_name o) (ko_bits o) (ko_type o) (ko_names o) (ko_certs o) d) ;;;
  lift (check_cert_name o n) ;;;
  set_key q (KeyObj (ko_identity o) (ko_name o) (ko_bits o) (ko_type o) (ndrop (ko_names o) n) (ndrop (ko_certs o) n) d) ;;;
  back (RemoveCert n).
(** pib_certificate_container.py 107-139: get; pib_key_impl.py 169-180: getCertificate *)
Definition key_getCertificate (q : nat) (n : name) : fm C :=
  o <~ the_key q ;;
  match nget (ko_certs o) n with
  | Some c => lift (ct_check c) ;;; ret c
  | None =>
      lift (check_cert_name o n) ;;;
      c <~ ask (fun b => getCertificate ct_check b n) ;;
      set_key q (KeyObj (ko_identity o) (ko_name o) (ko_bits o) (ko_type o) (ko_names o) (nset (ko_certs o) n c) (ko_default o)) ;;;
      lift (ct_check c) ;;; ret c
  end.
(** pib_key_impl.py 182-208: setDefaultCertificate *)
Definition key_setDefault (q : nat) (n : name) : fm C :=
  c <~ key_getCertificate q n ;;
  o <~ the_key q ;;
  set_key q (KeyObj (ko_identity o) (ko_name o) (ko_bits o) (ko_type o) (ko_names o) (ko_certs o) (Some c)) ;;;
  back (SetDefaultCert (ko_name o) n) ;;;
  ret c.
Definition key_setDefaultCert (q : nat) (c : C) : fm C := key_addCertificate q c ;;; key_setDefault q (ct_name c).
(** pib_key_impl.py 210-226: getDefaultCertificate *)
Definition key_getDefault (q : nat) : fm C :=
  o <~ the_key q ;;
  match ko_default o with
  | Some c => ret c
  | None =>
      c <~ ask (fun b => getDefaultCertificateOfKey ct_check b (ko_name o)) ;;
      set_key q (KeyObj (ko_identity o) (ko_name o) (ko_bits o) (ko_type o) (ko_names o) (ko_certs o) (Some c)) ;;;
      ret c
  end.
(** pib_key_impl.py 129-136 *)
Definition key_bits_of (q : nat) : fm bytes := o <~ the_key q ;; ret (ko_bits o).

(** pib_key_impl.py 58-77: PibKeyImpl(keyName, pibImpl) *)
Definition keyimpl_load (k : name) : fm nat :=
  i <~ lift (key_extractIdentity k) ;;
  ns <~ ask (fun b => getCertificatesOfKey ct_name b k) ;;
  bits <~ ask (fun b => getKeyBits b k) ;;
  t <~ lift (match ktype bits with Ok t => Ok t | Err _ => Err OtherError end) ;;
  new_key (KeyObj i k bits t (set_of ns) [] None).
(** pib_key_impl.py 79-98: PibKeyImpl(keyName, keyEncoding, pibImpl) *)
Definition keyimpl_new (k : name) (bits : bytes) : fm nat :=
  i <~ lift (key_extractIdentity k) ;;
  ns <~ ask (fun b => getCertificatesOfKey ct_name b k) ;;
  t <~ lift (match ktype bits with Ok t => Ok t | Err _ => Err ValueError end) ;;
  back (AddKey i k bits) ;;;
  new_key (KeyObj i k bits t (set_of ns) [] None).

(** pib_key_container.py 74-77, 93-95, 121-123: the test of a key name *)
Definition check_key_name (o : idobj) (k : name) : res unit := rbind (key_extractIdentity k) (fun i => if n_equals (io_name o) i then Ok tt else Err ValueError).
(** pib_key_container.py 111-135: get; pib_identity_impl.py 104-116: getKey *)
Definition id_getKey (r : nat) (k : name) : fm nat :=
  o <~ the_id r ;;
  lift (check_key_name o k) ;;;
  match nget (io_keys o) k with
  | Some q => ret q
  | None =>
      q <~ keyimpl_load k ;;
      set_id r (IdObj (io_name o) (io_default o) (io_names o) (nset (io_keys o) k q)) ;;;
      ret q
  end.
(** pib_key_container.py 61-83: add; pib_identity_impl.py 73-87: addKey *)
Definition id_addKey (r : nat) (bits : bytes) (k : name) : fm nat :=
  o <~ the_id r ;;
  lift (check_key_name o k) ;;;
  set_id r (IdObj (io_name o) (io_default o) (nset (io_names o) k tt) (io_keys o)) ;;;
  q <~ keyimpl_new k bits ;;
  set_id r (IdObj (io_name o) (io_default o) (nset (io_names o) k tt) (nset (io_keys o) k q)) ;;;
  id_getKey r k.
(** pib_identity_impl.py 89-102: removeKey, with pib_key_container.py 85-109 *)
Definition id_removeKey (r : nat) (k : name) : fm unit :=
  o <~ the_id r ;;
  d <~ (match io_default o with None => ret None | Some q => x <~ the_key q ;; ret (if n_equals (ko_name x) k then None else Some q) end) ;;
  set_id r (IdObj (io_name o) d (io_names o) (io_keys o)) ;;;
  lift (check_key_name o k) ;;;
  set_id r (IdObj (io_name o) d (ndrop (io_names o) k) (ndrop (io_keys o) k)) ;;;
  back (RemoveKey k).
(** pib_identity_impl.py 118-151: setDefaultKey *)
Definition id_setDefault (r : nat) (k : name) : fm nat :=
  q <~ id_getKey r k ;;
  o <~ the_id r ;;
  set_id r (IdObj (io_name o) (Some q) (io_names o) (io_keys o)) ;;;
  back (SetDefaultKey (io_name o) k) ;;;
  ret q.
Definition id_setDefaultKey (r : nat) (bits : bytes) (k : name) : fm nat := id_addKey r bits k ;;; id_setDefault r k.
(** pib_identity_impl.py 153-169: getDefaultKey *)
Definition id_getDefault (r : nat) : fm nat :=
  o <~ the_id r ;;
  match io_default o with
  | Some q => ret q
  | None =>
      k <~ ask (fun b => getDefaultKeyOfIdentity b (io_name o)) ;;
      q <~ id_getKey r k ;;
      o <~ the_id r ;;
      set_id r (IdObj (io_name o) (Some q) (io_names o) (io_keys o)) ;;;
      ret q
  end.
(** pib_key_container.py 137-150: getKeyNames *)
Definition id_keyNames (r : nat) : fm (list name) := o <~ the_id r ;; ret (dkeys (io_keys o)).

(** pib_identity_impl.py 45-61: PibIdentityImpl(identityName, pibImpl, needInit) *)
Definition idimpl_new (i : name) (needInit : bool) : fm nat :=
  ks <~ ask (fun b => getKeysOfIdentity b i) ;;
  (if needInit then back (AddIdentity i) else h <~ get (fun s => hasIdentity (impl s) i) ;; if (h : bool) then ret tt else raise OtherError) ;;;
  new_id (IdObj i None (set_of ks) []).
(** pib_identity_container.py 98-117: get; pib.py 114-125: getIdentity *)
Definition getIdentity (i : name) : fm nat :=
  d <~ get p_ids ;;
  match nget d i with
  | Some r => ret r
  | None => r <~ idimpl_new i false ;; put (fun s => w_ids s (nset (p_ids s) i r) (p_names s)) ;;; ret r
  end.
(** pib_identity_container.py 58-73: add; pib.py 155-166: _addIdentity *)
Definition addIdentity_ (i : name) : fm nat :=
  ns <~ get p_names ;;
  (if nin ns i then ret tt
   else
     put (fun s => w_ids s (p_ids s) (nset (p_names s) i tt)) ;;;
     r <~ idimpl_new i true ;; put (fun s => w_ids s (nset (p_ids s) i r) (p_names s))) ;;;
  getIdentity i.
(** pib.py 168-183: _removeIdentity, with pib_identity_container.py 75-96 *)
Definition removeIdentity_ (i : name) : fm unit :=
  d <~ get p_default ;;
  d' <~ (match d with None => ret None | Some r => o <~ the_id r ;; ret (if n_equals (io_name o) i then None else Some r) end) ;;
  put (fun s => w_default s d') ;;;
  put (fun s => w_ids s (ndrop (p_ids s) i) (ndrop (p_names s) i)) ;;;
  back (RemoveIdentity i).
(** pib.py 185-200: _setDefaultIdentity *)
Definition setDefaultIdentity_ (i : name) : fm nat :=
  r <~ addIdentity_ i ;;
  put (fun s => w_default s (Some r)) ;;;
  back (SetDefaultIdentity i) ;;;
  ret r.
(** pib.py 127-143: getDefaultIdentity *)
Definition getDefaultIdentity_ : fm nat :=
  d <~ get p_default ;;
  match d with
  | Some r => ret r
  | None => i <~ ask (fun b => getDefaultIdentity b) ;; r <~ getIdentity i ;; put (fun s => w_default s (Some r)) ;;; ret r
  end.
(** pib.py 145-153: _reset, with pib_identity_container.py 119-125 *)
Definition reset_ : fm unit :=
  back Clear ;;;
  put (fun s => w_impl s (setTpmLocator (impl s) [])) ;;;
  put (fun s => w_default s None) ;;;
  put (fun s => w_ids s [] (set_of (getIdentities (impl s)))).
(** pib.py 86-98: setTpmLocator.  Line 97 names the method _reset but does not call it. *)
Definition setTpmLocator_ (l : bytes) : fm unit :=
  t <~ get (fun s => tpm (impl s)) ;; if zlist_eqb l t then ret tt else put (fun s => w_impl s (setTpmLocator (impl s) l)).
(** isConsistent: pib_identity_container.py 127-136, pib_key_container.py 152-161,
    pib_certificate_container.py 141-151 *)
Definition same_set (a : nset_) (l : list name) : bool := forallb (fun n => nin (set_of l) n) (dkeys a) && forallb (fun n => nin a n) l.
Definition ids_consistent (s : front) : bool := same_set (p_names s) (getIdentities (impl s)).
Definition keys_consistent (r : nat) : fm bool := o <~ the_id r ;; l <~ ask (fun b => getKeysOfIdentity b (io_name o)) ;; ret (same_set (io_names o) l).
Definition certs_consistent (q : nat) : fm bool := o <~ the_key q ;; l <~ ask (fun b => getCertificatesOfKey ct_name b (ko_name o)) ;; ret (same_set (ko_names o) l).

(** ** The calls of the API.  A handle is the name it gives (PibIdentity.getName, PibKey.getName)
    and the object behind it. *)
Record handle : Type := Handle { h_name : name; h_ref : nat }.
Inductive fcall : Type :=
  | FAddIdentity (i : name) | FRemoveIdentity (i : name) | FSetDefaultIdentity (i : name) | FReset | FGetIdentity (i : name) | FDefaultIdentity
  | FAddKey (h : handle) (b : bytes) (k : name) | FRemoveKey (h : handle) (k : name) | FSetDefaultKey (h : handle) (k : name) | FGetKey (h : handle) (k : name) | FDefaultKey (h : handle)
  | FAddCert (h : handle) (c : C) | FRemoveCert (h : handle) (n : name) | FSetDefaultCert (h : handle) (n : name) | FGetCert (h : handle) (n : name) | FDefaultCert (h : handle) | FPublicKey (h : handle).
Inductive answer : Type := ANone | AId (h : handle) | AKey (h : handle) | ACert (c : C) | ABits (b : bytes).
Definition id_handle (m : fm nat) : fm answer := r <~ m ;; o <~ the_id r ;; ret (AId (Handle (io_name o) r)).
Definition key_handle (m : fm nat) : fm answer := q <~ m ;; o <~ the_key q ;; ret (AKey (Handle (ko_name o) q)).
Definition none (m : fm unit) : fm answer := m ;;; ret ANone.
Definition fexec (o : fcall) : fm answer :=
  match o with
  | FAddIdentity i => id_handle (addIdentity_ i)
  | FRemoveIdentity i => none (removeIdentity_ i)
  | FSetDefaultIdentity i => id_handle (setDefaultIdentity_ i)
  | FReset => none reset_
  | FGetIdentity i => id_handle (getIdentity i)
  | FDefaultIdentity => id_handle getDefaultIdentity_
  | FAddKey h b k => key_handle (id_addKey (h_ref h) b k)
  | FRemoveKey h k => none (id_removeKey (h_ref h) k)
  | FSetDefaultKey h k => key_handle (id_setDefault (h_ref h) k)
  | FGetKey h k => key_handle (id_getKey (h_ref h) k)
  | FDefaultKey h => key_handle (id_getDefault (h_ref h))
  | FAddCert h c => none (key_addCertificate (h_ref h) c)
  | FRemoveCert h n => none (key_removeCertificate (h_ref h) n)
  | FSetDefaultCert h n => c <~ key_setDefault (h_ref h) n ;; ret (ACert c)
  | FGetCert h n => c <~ key_getCertificate (h_ref h) n ;; ret (ACert c)
  | FDefaultCert h => c <~ key_getDefault (h_ref h) ;; ret (ACert c)
  | FPublicKey h => b <~ key_bits_of (h_ref h) ;; ret (ABits b)
  end.
(** The calls made so far with their results, the newest first *)
Definition trace : Type := list (fcall * res answer).
Definition fstep (x : front * trace) (o : fcall) : front * trace := let (s, t) := x in let (s', r) := fexec o s in (s', (o, r) :: t).
Definition frun (b : pib C) (l : list fcall) : front * trace := fold_left fstep l (front_new b, []).
End Front.
Arguments fcall : clear implicits.
Arguments answer : clear implicits.
Arguments trace : clear implicits.
Arguments front : clear implicits.
Arguments keyobj : clear implicits.
