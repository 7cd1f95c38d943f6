(** * Model of BasicIdentityStorage (python/pyndn/security/identity/basic_identity_storage.py)

    The tables (46-85) are lists of rows, in the order of insertion.  cert_issuer, not_before,
    not_after and valid_flag are written but never read, and are left out; so are the TPM locator
    (401-420) and the opening of the file (97-141).  The statements of a call that changes rows are one
    transaction, which ends with commit (618, 652...): addKey and addCertificate have one for each row
    that they insert.  That SQLite fails is not modelled, nor another user of the file.  A certificate
    is given by what its accessors answer: name, public key name, key type, key DER and encoding; that
    these raise, and that the stored encoding does not decode (388-392), is not modelled. *)
From Verif Require Import Base NameModel UriModel.
Local Open Scope res_scope.
Notation str := (list Z).
Notation uri n := (n_toUri n false).

(** 46-52, 57-67, 72-85 *)
Record idrow : Type := IdRow { i_name : str; i_default : bool }.
Record keyrow : Type := KeyRow { k_identity : str; k_id : str; k_type : Z; k_der : bytes; k_default : bool; k_active : bool }.
Record certrow : Type := CertRow { c_name : str; c_identity : str; c_keyid : str; c_data : bytes; c_default : bool }.
Record db : Type := Db { ids : list idrow; keys : list keyrow; certs : list certrow }.
Definition empty : db := Db [] [] [].
Record cert : Type := Cert { x_name : name; x_key : name; x_type : Z; x_der : bytes; x_wire : bytes }.

(** keyName[-1].toEscapedString() and keyName[:-1].toUri(); keyName[-1] of an empty name raises *)
Definition split_key (k : name) : res (str * str) :=
  match rev k with [] => Err IndexError | c :: p => Ok (uri (rev p), c_toEscapedString c) end.
(** The WHERE clauses *)
Definition is_id (u : str) (r : idrow) : bool := zlist_eqb (i_name r) u.
Definition key_of_id (u : str) (r : keyrow) : bool := zlist_eqb (k_identity r) u.
Definition is_key (u : str * str) (r : keyrow) : bool := zlist_eqb (k_identity r) (fst u) && zlist_eqb (k_id r) (snd u).
Definition cert_of_id (u : str) (r : certrow) : bool := zlist_eqb (c_identity r) u.
Definition cert_of_key (u : str * str) (r : certrow) : bool := zlist_eqb (c_identity r) (fst u) && zlist_eqb (c_keyid r) (snd u).
Definition is_cert (u : str) (r : certrow) : bool := zlist_eqb (c_name r) u.
(** UPDATE ... WHERE p *)
Definition update {A} (p : A -> bool) (f : A -> A) (l : list A) : list A := map (fun r => if p r then f r else r) l.
Definition i_set (b : bool) (r : idrow) : idrow := IdRow (i_name r) b.
Definition k_set (b : bool) (r : keyrow) : keyrow := KeyRow (k_identity r) (k_id r) (k_type r) (k_der r) b (k_active r).
Definition k_setActive (b : bool) (r : keyrow) : keyrow := KeyRow (k_identity r) (k_id r) (k_type r) (k_der r) (k_default r) b.
Definition c_set (b : bool) (r : certrow) : certrow := CertRow (c_name r) (c_identity r) (c_keyid r) (c_data r) b.

(** 143-162 *)
Definition doesIdentityExist (i : name) (s : db) : bool := 0 <? zlen (filter (is_id (uri i)) (ids s)).
(** 164-178 *)
Definition addIdentity (i : name) (s : db) : db :=
  if doesIdentityExist i s then s else Db (ids s ++ [IdRow (uri i) false]) (keys s) (certs s).
(** 189-210 *)
Definition doesKeyExist (k : name) (s : db) : res bool := u <-- split_key k ;; Ok (0 <? zlen (filter (is_key u) (keys s))).
(** 212-242 *)
Definition addKey (k : name) (t : Z) (d : bytes) (s : db) : db * res unit :=
  match split_key k with
  | Err _ => (s, Ok tt)
  | Ok u =>
      match doesKeyExist k s with
      | Err e => (s, Err e)
      | Ok true => (s, Ok tt)
      | Ok false => let s := addIdentity (removelast k) s in (Db (ids s) (keys s ++ [KeyRow (fst u) (snd u) t d false false]) (certs s), Ok tt)
      end
  end.
(** 244-271 *)
Definition getKey (k : name) (s : db) : res bytes :=
  match split_key k with
  | Err _ => Err SecurityException
  | Ok u => match filter (is_key u) (keys s) with [] => Err SecurityException | r :: _ => Ok (k_der r) end
  end.
(** 291-310 *)
Definition deletePublicKeyInfo (k : name) (s : db) : db :=
  match split_key k with
  | Err _ => s
  | Ok u => Db (ids s) (filter (fun r => negb (is_key u r)) (keys s)) (filter (fun r => negb (cert_of_key u r)) (certs s))
  end.
(** 312-330 *)
Definition doesCertificateExist (n : name) (s : db) : bool := 0 <? zlen (filter (is_cert (uri n)) (certs s)).
(** 332-369 *)
Definition addCertificate (c : cert) (s : db) : db * res unit :=
  let '(s, r) := addKey (x_key c) (x_type c) (x_der c) s in
  match r with
  | Err e => (s, Err e)
  | Ok _ =>
      if doesCertificateExist (x_name c) s then (s, Ok tt)
      else match split_key (x_key c) with
           | Err e => (s, Err e)
           | Ok u => (Db (ids s) (keys s) (certs s ++ [CertRow (uri (x_name c)) (fst u) (snd u) (x_wire c) false]), Ok tt)
           end
  end.
(** 371-399: the stored encoding *)
Definition getCertificate (n : name) (s : db) : res bytes :=
  match filter (is_cert (uri n)) (certs s) with [] => Err SecurityException | r :: _ => Ok (c_data r) end.
(** 422-435 *)
Definition deleteCertificateInfo (n : name) (s : db) : db :=
  match n with [] => s | _ => Db (ids s) (keys s) (filter (fun r => negb (is_cert (uri n) r)) (certs s)) end.
(** 437-456 *)
Definition deleteIdentityInfo (i : name) (s : db) : db :=
  Db (filter (fun r => negb (is_id (uri i) r)) (ids s)) (filter (fun r => negb (key_of_id (uri i) r)) (keys s)) (filter (fun r => negb (cert_of_id (uri i) r)) (certs s)).
(** 462-482 *)
Definition getDefaultIdentity (s : db) : res name :=
  match filter i_default (ids s) with [] => Err SecurityException | r :: _ => n_set (i_name r) end.
(** 484-507: Name.append of a str makes a component of its bytes, which are not unescaped *)
Definition getDefaultKeyNameForIdentity (i : name) (s : db) : res name :=
  match filter (fun r => key_of_id (uri i) r && k_default r) (keys s) with [] => Err SecurityException | r :: _ => Ok (i ++ [c_generic (k_id r)]) end.
(** 509-535 *)
Definition getDefaultCertificateNameForKey (k : name) (s : db) : res name :=
  u <-- split_key k ;;
  match filter (fun r => cert_of_key u r && c_default r) (certs s) with [] => Err SecurityException | r :: _ => n_set (c_name r) end.
(** for ... nameList.append(Name(...)) *)
Fixpoint names_of (l : list str) : res (list name) :=
  match l with [] => Ok [] | u :: l => n <-- n_set u ;; ns <-- names_of l ;; Ok (n :: ns) end.
(** 537-555: what is appended *)
Definition getAllIdentities (isDefault : bool) (s : db) : res (list name) :=
  names_of (map i_name (filter (fun r => Bool.eqb (i_default r) isDefault) (ids s))).
(** 557-576 *)
Definition getAllKeyNamesOfIdentity (i : name) (isDefault : bool) (s : db) : list name :=
  map (fun r => i ++ [c_generic (k_id r)]) (filter (fun r => Bool.eqb (k_default r) isDefault && key_of_id (uri i) r) (keys s)).
(** 578-600 *)
Definition getAllCertificateNamesOfKey (k : name) (isDefault : bool) (s : db) : res (list name) :=
  u <-- split_key k ;; names_of (map c_name (filter (fun r => Bool.eqb (c_default r) isDefault && cert_of_key u r) (certs s))).
(** 602-619 *)
Definition setDefaultIdentity (i : name) (s : db) : db :=
  Db (update (is_id (uri i)) (i_set true) (update i_default (i_set false) (ids s))) (keys s) (certs s).
(** 621-653 *)
Definition setDefaultKeyNameForIdentity (k : name) (check : option name) (s : db) : db * res unit :=
  match split_key k with
  | Err e => (s, Err e)
  | Ok u =>
      if match check with None => false | Some i => negb (zlen i =? 0) && negb (n_equals i (removelast k)) end then (s, Err SecurityException)
      else (Db (ids s) (update (is_key u) (k_set true) (update (fun r => k_default r && key_of_id (fst u) r) (k_set false) (keys s))) (certs s), Ok tt)
  end.
(** 655-678 *)
Definition setDefaultCertificateNameForKey (k n : name) (s : db) : db * res unit :=
  match split_key k with
  | Err e => (s, Err e)
  | Ok u => (Db (ids s) (keys s) (update (fun r => cert_of_key u r && is_cert (uri n) r) (c_set true) (update (fun r => c_default r && cert_of_key u r) (c_set false) (certs s))), Ok tt)
  end.
(** 710-726; activateKey 273-280, deactivateKey 282-289 *)
Definition updateKeyStatus (k : name) (active : bool) (s : db) : db * res unit :=
  match split_key k with
  | Err e => (s, Err e)
  | Ok u => (Db (ids s) (update (is_key u) (k_setActive active) (keys s)) (certs s), Ok tt)
  end.

(** The calls that change the database *)
Inductive call : Type :=
  | AddIdentity (i : name)
  | AddKey (k : name) (t : Z) (d : bytes)
  | AddCertificate (c : cert)
  | DeleteKey (k : name)
  | DeleteCertificate (n : name)
  | DeleteIdentity (i : name)
  | SetDefaultIdentity (i : name)
  | SetDefaultKey (k : name) (check : option name)
  | SetDefaultCertificate (k n : name)
  | SetActive (k : name) (active : bool).
Definition do_call (c : call) (s : db) : db * res unit :=
  match c with
  | AddIdentity i => (addIdentity i s, Ok tt)
  | AddKey k t d => addKey k t d s
  | AddCertificate c => addCertificate c s
  | DeleteKey k => (deletePublicKeyInfo k s, Ok tt)
  | DeleteCertificate n => (deleteCertificateInfo n s, Ok tt)
  | DeleteIdentity i => (deleteIdentityInfo i s, Ok tt)
  | SetDefaultIdentity i => (setDefaultIdentity i s, Ok tt)
  | SetDefaultKey k check => setDefaultKeyNameForIdentity k check s
  | SetDefaultCertificate k n => setDefaultCertificateNameForKey k n s
  | SetActive k a => updateKeyStatus k a s
  end.
Definition run (cs : list call) : db := fold_left (fun s c => fst (do_call c s)) cs empty.
