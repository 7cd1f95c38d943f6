(** * Model of PibMemory

    A certificate is a value of any type [C] with a name and a content.  A set of names is a
    dictionary to unit.  The order in which Python iterates over a set of names is not known: it
    is the arbitrary function [ord].  Copies of names and certificates are the values
    themselves.  Pib.Error is [OtherError]. *)
From Verif Require Import Base NameModel DictModel HierModel.
Local Open Scope res_scope.
Section Pib.
Context {C : Type}.
Variable ct_name : C -> name.
Variable ct_content : C -> bytes.
(** certificate_v2.py 90-93: CertificateV2(certificate) checks the format *)
Variable ct_check : C -> res unit.
Variable ord : list name -> list name.

(** pib_memory.py 38-58 *)
Record pib : Type := Pib {
  tpm : bytes; defId : option name; ids : dict name unit; defKeys : dict name name; keys : dict name bytes;
  defCerts : dict name name; certs : dict name C }.
Definition pib_new : pib := Pib [] None [] [] [] [] [].

Notation nget := (dget n_equals).
Notation nin := (din n_equals).
Notation nset := (dset n_equals).
Notation ndrop := (dremove n_equals).

(** pib_memory.py 66-73 *)
Definition setTpmLocator (s : pib) (l : bytes) : pib := Pib l (defId s) (ids s) (defKeys s) (keys s) (defCerts s) (certs s).
(** pib_memory.py 86-94: hasIdentity *)
Definition hasIdentity (s : pib) (i : name) : bool := nin (ids s) i.
(** pib_memory.py 96-108: addIdentity *)
Definition addIdentity (s : pib) (i : name) : pib :=
  Pib (tpm s) (match defId s with None => Some i | Some d => Some d end) (nset (ids s) i tt) (defKeys s) (keys s) (defCerts s) (certs s).
(** pib_memory.py 311-319: hasCertificate *)
Definition hasCertificate (s : pib) (c : name) : bool := nin (certs s) c.
(** pib_memory.py 345-366: removeCertificate *)
Definition removeCertificate (s : pib) (c : name) : pib * res unit :=
  let s1 := Pib (tpm s) (defId s) (ids s) (defKeys s) (keys s) (defCerts s) (ndrop (certs s) c) in
  match cert_extractKeyName c with
  | Err e => (s1, Err e)
  | Ok k =>
      match nget (defCerts s1) k with
      | Some d => if n_equals d c then (Pib (tpm s1) (defId s1) (ids s1) (defKeys s1) (keys s1) (ndrop (defCerts s1) k) (certs s1), Ok tt) else (s1, Ok tt)
      | None => (s1, Ok tt)
      end
  end.
(** pib_memory.py 383-402: getCertificatesOfKey *)
Fixpoint certificatesOf (l : dict name C) (k : name) : res (list name) :=
  match l with
  | [] => Ok []
  | (n, c) :: l' => k' <-- cert_extractKeyName (ct_name c) ;; r <-- certificatesOf l' k ;; Ok (if n_equals k' k then n :: r else r)
  end.
Definition getCertificatesOfKey (s : pib) (k : name) : res (list name) := certificatesOf (certs s) k.
Fixpoint removeCertificates (s : pib) (l : list name) : pib * res unit :=
  match l with
  | [] => (s, Ok tt)
  | c :: l' => match removeCertificate s c with (s', Ok _) => removeCertificates s' l' | (s', Err e) => (s', Err e) end
  end.
(** pib_memory.py 184-193: hasKey *)
Definition hasKey (s : pib) (k : name) : bool := nin (keys s) k.
(** pib_memory.py 195-216: addKey *)
Definition addKey (s : pib) (i k : name) (b : bytes) : pib :=
  let s := addIdentity s i in
  Pib (tpm s) (defId s) (ids s) (if nin (defKeys s) i then defKeys s else nset (defKeys s) i k) (nset (keys s) k b) (defCerts s) (certs s).
(** pib_memory.py 218-239: removeKey *)
Definition removeKey (s : pib) (k : name) : pib * res unit :=
  match key_extractIdentity k with
  | Err e => (s, Err e)
  | Ok i =>
      let s1 := Pib (tpm s) (defId s) (ids s) (ndrop (defKeys s) i) (ndrop (keys s) k) (defCerts s) (certs s) in
      match getCertificatesOfKey s1 k with
      | Err e => (s1, Err e)
      | Ok l => removeCertificates s1 (ord l)
      end
  end.
(** pib_memory.py 241-254: getKeyBits *)
Definition getKeyBits (s : pib) (k : name) : res bytes := match nget (keys s) k with Some b => Ok b | None => Err OtherError end.
(** pib_memory.py 256-273: getKeysOfIdentity *)
Fixpoint keysOf (l : dict name bytes) (i : name) : res (list name) :=
  match l with
  | [] => Ok []
  | (k, _) :: l' => i' <-- key_extractIdentity k ;; r <-- keysOf l' i ;; Ok (if n_equals i i' then k :: r else r)
  end.
Definition getKeysOfIdentity (s : pib) (i : name) : res (list name) := keysOf (keys s) i.
Fixpoint removeKeys (s : pib) (l : list name) : pib * res unit :=
  match l with
  | [] => (s, Ok tt)
  | k :: l' => match removeKey s k with (s', Ok _) => removeKeys s' l' | (s', Err e) => (s', Err e) end
  end.
(** pib_memory.py 110-128: removeIdentity *)
Definition removeIdentity (s : pib) (i : name) : pib * res unit :=
  let s1 := Pib (tpm s) (match defId s with Some d => if n_equals i d then None else Some d | None => None end) (ndrop (ids s) i) (defKeys s) (keys s) (defCerts s) (certs s) in
  match getKeysOfIdentity s1 i with
  | Err e => (s1, Err e)
  | Ok l => removeKeys s1 (ord l)
  end.
(** pib_memory.py 130-139: clearIdentities *)
Definition clearIdentities (s : pib) : pib := Pib (tpm s) None [] [] [] [] [].
(** pib_memory.py 141-154: getIdentities *)
Definition getIdentities (s : pib) : list name := map fst (ids s).
(** pib_memory.py 156-166: setDefaultIdentity *)
Definition setDefaultIdentity (s : pib) (i : name) : pib :=
  let s := addIdentity s i in Pib (tpm s) (Some i) (ids s) (defKeys s) (keys s) (defCerts s) (certs s).
(** pib_memory.py 168-180: getDefaultIdentity *)
Definition getDefaultIdentity (s : pib) : res name := match defId s with Some i => Ok i | None => Err OtherError end.
(** pib_memory.py 275-288: setDefaultKeyOfIdentity *)
Definition setDefaultKeyOfIdentity (s : pib) (i k : name) : pib * res unit :=
  if hasKey s k then (Pib (tpm s) (defId s) (ids s) (nset (defKeys s) i k) (keys s) (defCerts s) (certs s), Ok tt) else (s, Err OtherError).
(** pib_memory.py 290-307: getDefaultKeyOfIdentity *)
Definition getDefaultKeyOfIdentity (s : pib) (i : name) : res name := match nget (defKeys s) i with Some k => Ok k | None => Err OtherError end.
(** pib_memory.py 321-343: addCertificate *)
Definition addCertificate (s : pib) (c : C) : pib * res unit :=
  match cert_getKeyName (ct_name c), cert_getIdentity (ct_name c) with
  | Ok k, Ok i =>
      let s1 := addKey s i k (ct_content c) in
      match ct_check c with
      | Err e => (s1, Err e)
      | Ok _ =>
          (Pib (tpm s1) (defId s1) (ids s1) (defKeys s1) (keys s1)
               (if nin (defCerts s1) k then defCerts s1 else nset (defCerts s1) k (ct_name c)) (nset (certs s1) (ct_name c) c), Ok tt)
      end
  | Err e, _ => (s, Err e)
  | _, Err e => (s, Err e)
  end.
(** pib_memory.py 368-381: getCertificate *)
Definition getCertificate (s : pib) (c : name) : res C :=
  match nget (certs s) c with Some x => _ <-- ct_check x ;; Ok x | None => Err OtherError end.
(** pib_memory.py 404-420: setDefaultCertificateOfKey *)
Definition setDefaultCertificateOfKey (s : pib) (k c : name) : pib * res unit :=
  if hasCertificate s c then (Pib (tpm s) (defId s) (ids s) (defKeys s) (keys s) (nset (defCerts s) k c) (certs s), Ok tt) else (s, Err OtherError).
(** pib_memory.py 422-438: getDefaultCertificateOfKey *)
Definition getDefaultCertificateOfKey (s : pib) (k : name) : res C :=
  match nget (defCerts s) k with
  | None => Err OtherError
  | Some c => match nget (certs s) c with Some x => _ <-- ct_check x ;; Ok x | None => Err KeyError end
  end.

(** ** Calls *)
Inductive call : Type :=
  | AddIdentity (i : name) | RemoveIdentity (i : name) | Clear | SetDefaultIdentity (i : name)
  | AddKey (i k : name) (b : bytes) | RemoveKey (k : name) | SetDefaultKey (i k : name)
  | AddCert (c : C) | RemoveCert (c : name) | SetDefaultCert (k c : name).
Definition exec (s : pib) (o : call) : pib * res unit :=
  match o with
  | AddIdentity i => (addIdentity s i, Ok tt)
  | RemoveIdentity i => removeIdentity s i
  | Clear => (clearIdentities s, Ok tt)
  | SetDefaultIdentity i => (setDefaultIdentity s i, Ok tt)
  | AddKey i k b => (addKey s i k b, Ok tt)
  | RemoveKey k => removeKey s k
  | SetDefaultKey i k => setDefaultKeyOfIdentity s i k
  | AddCert c => addCertificate s c
  | RemoveCert c => removeCertificate s c
  | SetDefaultCert k c => setDefaultCertificateOfKey s k c
  end.
Definition run (h : list call) : pib := fold_left (fun s o => fst (exec s o)) h pib_new.
End Pib.
Arguments call : clear implicits.
Arguments pib : clear implicits.
