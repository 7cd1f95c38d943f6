(** * Model of FilePrivateKeyStorage (python/pyndn/security/identity/file_private_key_storage.py)

    The files are a map from paths to texts with a mode; [dir] is the path of the directory (44-55,
    which makes it, is not modelled). Of the cryptography: [P] are TpmPrivateKeys, [to8] is toPkcs8,
    [derive] is derivePublicKey, [load8] is loadPkcs8 (PkcsModel, C71), [psign] is TpmPrivateKey.sign,
    [sha] is SHA-256, [pk_new] is PublicKey (IcertModel).  A call is a program of operations on files,
    each of which may fail, and the process may end between two of them and inside a write.  That the
    mode of a file makes an operation fail is one of the failures.  OSError is [OtherError],
    binascii.Error is [ValueError]. *)
From Verif Require Import Base BlobModel NameModel UriModel WireModel DerModel PkcsModel IcertModel TfModel.
Local Open Scope res_scope.
Notation str := (list Z).

(** ** Files *)
(** The mode of a new file is that of the process's umask; os.chmod sets another *)
Inductive fmode : Type := NewFile | Mode (m : Z).
Record file : Type := File { f_text : str; f_mode : fmode }.
Definition fs : Type := str -> option file.
Definition put (f : fs) (p : str) (x : option file) : fs := fun q => if zlist_eqb p q then x else f q.
Definition mode_of (f : fs) (p : str) : fmode := match f p with Some x => f_mode x | None => NewFile end.
Definition text_of (f : fs) (p : str) : str := match f p with Some x => f_text x | None => [] end.

(** os.path.isfile; open and read; open(p, 'w'); write to it; open(p, 'a') and write; os.chmod; os.remove *)
Inductive op : Type :=
  | OIsFile (p : str)
  | ORead (p : str)
  | OOpen (p : str)
  | OWrite (p : str) (t : str)
  | OAppend (p : str) (t : str)
  | OChmod (p : str) (m : Z)
  | ORemove (p : str).
Inductive ans : Type := AUnit | ABool (b : bool) | AText (t : str).
(** An operation that does not fail *)
Definition does (o : op) (f : fs) : fs * res ans :=
  match o with
  | OIsFile p => (f, Ok (ABool (match f p with Some _ => true | None => false end)))
  | ORead p => (f, match f p with Some x => Ok (AText (f_text x)) | None => Err OtherError end)
  | OOpen p => (put f p (Some (File [] (mode_of f p))), Ok AUnit)
  | OWrite p t => (put f p (Some (File t (mode_of f p))), Ok AUnit)
  | OAppend p t => (put f p (Some (File (text_of f p ++ t) (mode_of f p))), Ok AUnit)
  | OChmod p m => match f p with Some x => (put f p (Some (File (f_text x) (Mode m))), Ok AUnit) | None => (f, Err OtherError) end
  | ORemove p => match f p with Some _ => (put f p None, Ok AUnit) | None => (f, Err OtherError) end
  end.
(** What an operation that fails, or during which the process ends, may have done: nothing, or a part
    of a text at the beginning is written *)
Inductive partly : op -> fs -> fs -> Prop :=
  | P_nothing o f : partly o f f
  | P_write p t t' u f : t = t' ++ u -> partly (OWrite p t) f (put f p (Some (File t' (mode_of f p))))
  | P_append p t t' u f : t = t' ++ u -> partly (OAppend p t) f (put f p (Some (File (text_of f p ++ t') (mode_of f p)))).

Inductive prog (A : Type) : Type := Done (r : res A) | Op (o : op) (k : res ans -> prog A).
Arguments Done {A} _.
Arguments Op {A} _ _.
Fixpoint pbind {A B} (p : prog A) (g : A -> prog B) : prog B :=
  match p with
  | Done (Ok a) => g a
  | Done (Err e) => Done (Err e)
  | Op o k => Op o (fun r => pbind (k r) g)
  end.
Notation "x <~ m ;; k" := (pbind m (fun x => k)) (at level 61, m at next level, right associativity).
Notation "m ;;; k" := (pbind m (fun _ => k)) (at level 61, right associativity).
Definition give {A} (a : A) : prog A := Done (Ok a).
Definition stop {A} (e : Base.exn) : prog A := Done (Err e).
(** A failing operation raises *)
Definition isfile (p : str) : prog bool := Op (OIsFile p) (fun r => match r with Ok (ABool b) => give b | _ => give false end).
Definition read (p : str) : prog str := Op (ORead p) (fun r => match r with Ok (AText t) => give t | _ => stop OtherError end).
Definition act (o : op) : prog unit := Op o (fun r => match r with Ok _ => give tt | Err e => stop e end).
(** A call while nothing fails *)
Fixpoint perform {A} (p : prog A) (f : fs) : fs * res A :=
  match p with
  | Done r => (f, r)
  | Op o k => let '(f', r) := does o f in perform (k r) f'
  end.
(** A call with failures: [None] is that the process ends during it *)
Definition can_fail (o : op) : Prop := match o with OIsFile _ => False | _ => True end.
Inductive exec {A} : prog A -> fs -> fs -> option (res A) -> Prop :=
  | X_done r f : exec (Done r) f f (Some r)
  | X_end p f : exec p f f None
  | X_op o k f f1 r1 f' r : does o f = (f1, r1) -> exec (k r1) f1 f' r -> exec (Op o k) f f' r
  | X_fail o k f f1 e f' r : can_fail o -> partly o f f1 -> exec (k (Err e)) f1 f' r -> exec (Op o k) f f' r
  | X_end_in o k f f1 : partly o f f1 -> exec (Op o k) f f1 None.

Section Fpk.
Variable P : Type.
Variable to8 : P -> res bytes.
Variable load8 : bytes -> res P.
Variable derive : P -> res bytes.
Variable psign : P -> bytes -> Z -> res bytes.
Variable sha : bytes -> bytes.
Variable load_public : bytes -> res unit.
Variable floor40 : Z -> Z.
Variable dir : str.
Notation pk_new := (pk_new load_public floor40).

(** security_types.py: KeyClass *)
Definition KC_PUBLIC : Z := 1.
Definition KC_PRIVATE : Z := 2.
Definition KC_SYMMETRIC : Z := 3.

(** 217-234: nameTransform; the URI is ASCII, so its UTF-8 is its code points *)
Definition nameTransform (keyName : str) (extension : str) : str :=
  let digest := base64Encode (sha keyName) false in
  let digest := strip digest in
  let digest := map (fun c => if c =? 47 then 37 else c) digest in
  dir ++ [47] ++ (digest ++ extension).
Definition pub : str := [46; 112; 117; 98].
Definition pri : str := [46; 112; 114; 105].
Definition uri (n : name) : str := n_toUri n false.
(** 236-251: maintainMapping; "mapping.txt" *)
Definition mapping_path : str := dir ++ [47] ++ [109; 97; 112; 112; 105; 110; 103; 46; 116; 120; 116].
Definition maintainMapping (keyName : str) : prog str :=
  let p := nameTransform keyName [] in
  act (OAppend mapping_path (keyName ++ [32] ++ p ++ [10])) ;;; give p.
(** 196-215: doesKeyExist; a str has no c_str *)
Definition doesKeyExist (n : name) (keyClass : Z) : prog bool :=
  if keyClass =? KC_PUBLIC then isfile (nameTransform (uri n) pub)
  else if keyClass =? KC_PRIVATE then isfile (nameTransform (uri n) pri)
  else if keyClass =? KC_SYMMETRIC then stop AttributeError
  else give false.
(** 57-87: generateKeyPair; [g] is what generatePrivateKey gives *)
Definition generateKeyPair (n : name) (g : res P) : prog unit :=
  b <~ doesKeyExist n KC_PUBLIC ;;
  if (b : bool) then stop SecurityException else
  b <~ doesKeyExist n KC_PRIVATE ;;
  if (b : bool) then stop SecurityException else
  match (k <-- g ;; privateKeyDer <-- to8 k ;; publicKeyDer <-- derive k ;; Ok (privateKeyDer, publicKeyDer)) with
  | Err _ => stop SecurityException
  | Ok (privateKeyDer, publicKeyDer) =>
      p <~ maintainMapping (uri n) ;;
      act (OOpen (p ++ pub)) ;;;
      act (OWrite (p ++ pub) (base64Encode publicKeyDer true)) ;;;
      act (OOpen (p ++ pri)) ;;;
      act (OWrite (p ++ pri) (base64Encode privateKeyDer true)) ;;;
      act (OChmod (p ++ pub) 292) ;;;
      act (OChmod (p ++ pri) 256)
  end.
(** 89-100: deleteKeyPair *)
Definition deleteKeyPair (n : name) : prog unit :=
  b <~ doesKeyExist n KC_PUBLIC ;;
  (if (b : bool) then act (ORemove (nameTransform (uri n) pub)) else give tt) ;;;
  b <~ doesKeyExist n KC_PRIVATE ;;
  (if (b : bool) then act (ORemove (nameTransform (uri n) pri)) else give tt).
(** 102-121: getPublicKey *)
Definition getPublicKey (n : name) : prog publicKey :=
  b <~ doesKeyExist n KC_PUBLIC ;;
  if negb b then stop SecurityException else
  t <~ read (nameTransform (uri n) pub) ;;
  Done (der <-- b64decode t ;; pk_new der).
(** 123-154: sign *)
Definition sign (data : bytes) (n : name) (digestAlgorithm : Z) : prog bytes :=
  b <~ doesKeyExist n KC_PRIVATE ;;
  if negb b then stop SecurityException else
  t <~ read (nameTransform (uri n) pri) ;;
  Done (der <-- b64decode t ;; match (k <-- load8 der ;; psign k data digestAlgorithm) with Ok s => Ok s | Err _ => Err SecurityException end).

(** The calls that change files *)
Inductive call : Type := Generate (n : name) (g : res P) | Delete (n : name).
Definition p_call (c : call) : prog unit := match c with Generate n g => generateKeyPair n g | Delete n => deleteKeyPair n end.
Definition no_files : fs := fun _ => None.
Definition run (h : list call) : fs := fold_left (fun f c => fst (perform (p_call c) f)) h no_files.
End Fpk.
