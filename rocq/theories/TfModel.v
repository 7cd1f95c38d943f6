(** * Model of TpmBackEndFile (python/pyndn/security/tpm/tpm_back_end_file.py), with TpmBackEnd and
    the base64 functions it uses

    The directory of the key files is a map from file names to texts; its path, the directory itself
    and file permissions are left out.  What is used of TpmPrivateKey is PkcsModel (C71), with its
    oracles for the cryptography package; [sha] is SHA-256, [derive] TpmKeyHandleMemory.derivePublicKey.
    A call is a program of operations on files, each of which may fail, and the process may end
    between two of them and inside a write.  TpmBackEnd.Error, TpmBackEndFile.Error and Tpm.Error are
    [RuntimeError], binascii.Error is [ValueError], OSError is [OtherError]. *)
From Verif Require Import Base BlobModel NameModel WireModel HierModel ChainModel PkcsModel.
Local Open Scope res_scope.

(** ** base64: base64.b64encode and b64decode of the Python library (binascii.a2b_base64, not strict) *)
Definition b64_char (v : Z) : Z :=
  if v <? 26 then 65 + v else if v <? 52 then 97 + (v - 26) else if v <? 62 then 48 + (v - 52) else if v =? 62 then 43 else 47.
Definition b64_val (c : Z) : option Z :=
  if (65 <=? c) && (c <=? 90) then Some (c - 65)
  else if (97 <=? c) && (c <=? 122) then Some (c - 97 + 26)
  else if (48 <=? c) && (c <=? 57) then Some (c - 48 + 52)
  else if c =? 43 then Some 62 else if c =? 47 then Some 63 else None.
Fixpoint b64encode (b : bytes) : str :=
  match b with
  | [] => []
  | [x] => [b64_char (x / 4); b64_char (x mod 4 * 16); 61; 61]
  | [x; y] => [b64_char (x / 4); b64_char (x mod 4 * 16 + y / 16); b64_char (y mod 16 * 4); 61]
  | x :: y :: z :: r => b64_char (x / 4) :: b64_char (x mod 4 * 16 + y / 16) :: b64_char (y mod 16 * 4 + z / 64) :: b64_char (z mod 64) :: b64encode r
  end.
(** [q] characters of a group of four are read, [left] are the bits that are left, [pads] the '=' seen *)
Fixpoint b64_read (s : str) (q left pads : Z) : res bytes :=
  match s with
  | [] => if q =? 0 then Ok [] else Err ValueError
  | c :: r =>
      if c =? 61 then
        if 2 <=? q then (if 4 <=? q + (pads + 1) then Ok [] else b64_read r q left (pads + 1)) else b64_read r q left pads
      else match b64_val c with
        | None => b64_read r q left pads
        | Some v =>
            if q =? 0 then b64_read r 1 v 0
            else if q =? 1 then l <-- b64_read r 2 (v mod 16) 0 ;; Ok (left * 4 + v / 16 :: l)
            else if q =? 2 then l <-- b64_read r 3 (v mod 4) 0 ;; Ok (left * 16 + v / 4 :: l)
            else l <-- b64_read r 0 0 0 ;; Ok (left * 64 + v :: l)
        end
  end.
Definition b64decode (s : str) : res bytes := if forallb (fun c => c <=? 127) s then b64_read s 0 0 0 else Err ValueError.
(** util/common.py 170-195: base64Encode; 190-195 is the loop, with enough [fuel] *)
Fixpoint add_newlines (fuel : nat) (s : str) : str :=
  match fuel with
  | O => []
  | S f => match s with [] => [] | _ :: _ => firstn 64 s ++ [10] ++ add_newlines f (skipn 64 s) end
  end.
Definition base64Encode (b : bytes) (addNewlines : bool) : str :=
  let s := b64encode b in if addNewlines then add_newlines (length s) s else s.

(** ** Files *)
Definition files : Type := str -> option str.
Definition set_file (f : files) (p : str) (t : option str) : files := fun q => if zlist_eqb p q then t else f q.
(** os.path.isfile, open and read, open to write (which leaves the file empty), write, os.remove *)
Inductive prog (A : Type) : Type :=
  | Done (r : res A)
  | IsFile (p : str) (k : bool -> prog A)
  | ReadFile (p : str) (k : res str -> prog A)
  | OpenFile (p : str) (k : res unit -> prog A)
  | WriteFile (p : str) (t : str) (k : res unit -> prog A)
  | RemoveFile (p : str) (k : res unit -> prog A).
Arguments Done {A} _.
Arguments IsFile {A} _ _.
Arguments ReadFile {A} _ _.
Arguments OpenFile {A} _ _.
Arguments WriteFile {A} _ _ _.
Arguments RemoveFile {A} _ _.
(** The rest of a call gets the value or the exception *)
Fixpoint pthen {A B} (p : prog A) (f : res A -> prog B) : prog B :=
  match p with
  | Done r => f r
  | IsFile p k => IsFile p (fun b => pthen (k b) f)
  | ReadFile p k => ReadFile p (fun b => pthen (k b) f)
  | OpenFile p k => OpenFile p (fun b => pthen (k b) f)
  | WriteFile p t k => WriteFile p t (fun b => pthen (k b) f)
  | RemoveFile p k => RemoveFile p (fun b => pthen (k b) f)
  end.
Definition pbind {A B} (p : prog A) (f : A -> prog B) : prog B := pthen p (fun r => match r with Ok a => f a | Err e => Done (Err e) end).
Notation "x <~ m ;; k" := (pbind m (fun x => k)) (at level 61, m at next level, right associativity).
Notation "m ;;; k" := (pbind m (fun _ => k)) (at level 61, right associativity).
Definition give {A} (a : A) : prog A := Done (Ok a).
Definition stop {A} (e : Base.exn) : prog A := Done (Err e).
Definition plift {A} (r : res A) : prog A := Done r.
(** A call while nothing fails *)
Fixpoint perform {A} (p : prog A) (f : files) : files * res A :=
  match p with
  | Done r => (f, r)
  | IsFile p k => perform (k (match f p with Some _ => true | None => false end)) f
  | ReadFile p k => perform (k (match f p with Some t => Ok t | None => Err OtherError end)) f
  | OpenFile p k => perform (k (Ok tt)) (set_file f p (Some []))
  | WriteFile p t k => perform (k (Ok tt)) (set_file f p (Some t))
  | RemoveFile p k => match f p with Some _ => perform (k (Ok tt)) (set_file f p None) | None => perform (k (Err OtherError)) f end
  end.
(** A call with failures: [None] is that the process ends during it.  Of a text a part at the beginning
    may be written.  [rd]: may a read fail? *)
Definition prefix_of (t' t : str) : Prop := exists u, t = t' ++ u.
Inductive exec {A} (rd : bool) : prog A -> files -> files -> option (res A) -> Prop :=
  | XDone r f : exec rd (Done r) f f (Some r)
  | XEnd p f : exec rd p f f None
  | XIsFile p k f f' r : exec rd (k (match f p with Some _ => true | None => false end)) f f' r -> exec rd (IsFile p k) f f' r
  | XRead p k f f' r : exec rd (k (match f p with Some t => Ok t | None => Err OtherError end)) f f' r -> exec rd (ReadFile p k) f f' r
  | XReadFails p k f f' r e : rd = true -> exec rd (k (Err e)) f f' r -> exec rd (ReadFile p k) f f' r
  | XOpen p k f f' r : exec rd (k (Ok tt)) (set_file f p (Some [])) f' r -> exec rd (OpenFile p k) f f' r
  | XOpenFails p k f f' r e : exec rd (k (Err e)) f f' r -> exec rd (OpenFile p k) f f' r
  | XWrite p t k f f' r : exec rd (k (Ok tt)) (set_file f p (Some t)) f' r -> exec rd (WriteFile p t k) f f' r
  | XWriteFails p t k f f' r e t' : prefix_of t' t -> exec rd (k (Err e)) (set_file f p (Some t')) f' r -> exec rd (WriteFile p t k) f f' r
  | XWriteEnds p t k f t' : prefix_of t' t -> exec rd (WriteFile p t k) f (set_file f p (Some t')) None
  | XRemove p k f f' r : f p <> None -> exec rd (k (Ok tt)) (set_file f p None) f' r -> exec rd (RemoveFile p k) f f' r
  | XRemoveFails p k f f' r e : exec rd (k (Err e)) f f' r -> exec rd (RemoveFile p k) f f' r.

Section Tf.
Variable K : Type.
Variable load_der : bytes -> res K.
Variable to_der : K -> bytes.
Variable pbkdf2 : Z -> bytes -> Z -> bytes -> res bytes.
Variable des des_inv : bytes -> bytes -> bytes -> res bytes.
Variable floor40 : Z -> Z.
Variable sha : bytes -> bytes.
Variable derive : tkey K -> bytes.
Notation tkey := (tkey K).
Notation loadPkcs1 := (loadPkcs1 K load_der floor40).
Notation toPkcs1 := (toPkcs1 K to_der).

(** 249-264: _toFilePath, without the directory *)
Definition privkey : str := [46; 112; 114; 105; 118; 107; 101; 121].
Definition path (n : name) : str := blob_toHex (Some (sha (encodeName n))) ++ privkey.
(** 201-226: _loadKey *)
Definition decode_key (t : str) : res tkey :=
  pkcs <-- b64decode t ;; match loadPkcs1 pkcs None with Ok k => Ok k | Err _ => Err RuntimeError end.
Definition load_key (n : name) : prog tkey :=
  ReadFile (path n) (fun r => match r with Err _ => stop RuntimeError | Ok t => plift (decode_key t) end).
(** 228-247: _saveKey *)
Definition encode_key (k : tkey) : res str := match toPkcs1 k with Ok b => Ok (base64Encode b true) | Err _ => Err RuntimeError end.
Definition save_key (n : name) (k : tkey) : prog unit :=
  t <~ plift (encode_key k) ;;
  OpenFile (path n) (fun r => match r with Err _ => stop RuntimeError | Ok _ =>
    WriteFile (path n) t (fun r => match r with Err _ => stop RuntimeError | Ok _ => give tt end) end).
(** 77-93: _doHasKey; tpm_back_end.py 52-60 *)
Definition hasKey (n : name) : prog bool :=
  IsFile (path n) (fun b => if negb b then give false
    else pthen (load_key n) (fun r => match r with Ok _ => give true | Err RuntimeError => give false | Err e => stop e end)).
(** 95-106: _doGetKeyHandle *)
Definition getKeyHandle (n : name) : prog (option tkey) := b <~ hasKey n ;; if (b : bool) then k <~ load_key n ;; give (Some k) else give None.
(** tpm_back_end.py 93-106: the first random key id that is not in use; [rs] are the numbers drawn *)
Fixpoint fresh_id (i : name) (rs : list bytes) : prog comp :=
  match rs with
  | [] => stop OutOfFuel
  | r :: rs' => let c := c_generic r in b <~ hasKey (key_construct i c) ;; if (b : bool) then fresh_id i rs' else give c
  end.
(** tpm_back_end.py 74-110, 206-231: createKey and setKeyName; tpm_back_end_file.py 108-130: _doCreateKey.
    [gen] is what generatePrivateKey gives. *)
Definition createKey (i : name) (kp : keyparams) (gen : res tkey) (rs : list bytes) : prog (name * tkey) :=
  c <~ (if kp_idType kp =? KI_USER then b <~ hasKey (key_construct i (kp_id kp)) ;; if (b : bool) then stop RuntimeError else give (kp_id kp)
        else if kp_idType kp =? KI_SHA256 then give (kp_id kp)
        else if kp_idType kp =? KI_RANDOM then fresh_id i rs
        else stop RuntimeError) ;;
  k <~ plift (match gen with Ok k => Ok k | Err _ => Err RuntimeError end) ;;
  keyId <~ (if kp_idType kp =? KI_SHA256 then give (c_generic (sha (derive k)))
            else if (kp_idType kp =? KI_RANDOM) && (zlen (c_value c) =? 0) then stop RuntimeError else give c) ;;
  let n := key_construct i keyId in
  save_key n k ;;; give (n, k).
(** 132-141: _doDeleteKey *)
Definition deleteKey (n : name) : prog unit :=
  IsFile (path n) (fun b => if (b : bool) then RemoveFile (path n) (fun r => plift r) else give tt).
(** tpm_back_end.py 123-142: exportKey; 143-171: _doExportKey; [salt] and [iv] are random *)
Definition dump (k : tkey) (pw : option bytes) (salt iv : bytes) : res bytes :=
  match pw with Some w => toEncryptedPkcs8 K to_der pbkdf2 des k w salt iv | None => Ok (toPkcs8 K to_der k) end.
Definition exportKey (n : name) (pw : option bytes) (salt iv : bytes) : prog bytes :=
  b <~ hasKey n ;; if negb b then stop RuntimeError else k <~ load_key n ;; plift (dump k pw salt iv).
(** tpm_back_end.py 144-164: importKey; 173-199: _doImportKey *)
Definition parse_bag (pkcs8 : bytes) (pw : option bytes) : res tkey :=
  match pw with Some w => loadEncryptedPkcs8 K load_der pbkdf2 des_inv floor40 pkcs8 w | None => loadPkcs8 K load_der floor40 pkcs8 None end.
Definition importKey (n : name) (pkcs8 : bytes) (pw : option bytes) : prog unit :=
  b <~ hasKey n ;; if (b : bool) then stop RuntimeError else k <~ plift (parse_bag pkcs8 pw) ;; save_key n k.

(** The calls that change files *)
Inductive call : Type :=
  | Create (i : name) (kp : keyparams) (gen : res tkey) (rs : list bytes)
  | Delete (n : name)
  | Import (n : name) (pkcs8 : bytes) (pw : option bytes).
Definition p_call (c : call) : prog unit :=
  match c with
  | Create i kp gen rs => createKey i kp gen rs ;;; give tt
  | Delete n => deleteKey n
  | Import n b pw => importKey n b pw
  end.
Definition no_files : files := fun _ => None.
Definition run (h : list call) (f : files) : files := fold_left (fun f c => fst (perform (p_call c) f)) h f.
End Tf.
