(** * Model of the version 1 certificates: python/pyndn/security/certificate/certificate.py,
    public_key.py and identity_certificate.py

    The nodes are DerModel; toVal, getChildren and getSequence are in PkcsModel. Of the
    cryptography package only [load_public] is used: serialization.load_der_public_key, which may
    raise. [floor40] is math.floor(x/40), a division of floats. The times are whole milliseconds.
    UnrecognizedKeyFormatException is a SecurityException; the DER exceptions are OtherError. *)
From Verif Require Import Base NameModel UriModel BlobModel DerModel PkcsModel WireModel.
Local Open Scope res_scope.

(** public_key.py 48-56, 111-127: the key type (KeyType.RSA 0, EC 1) *)
Record publicKey : Type := PK { pk_der : option bytes; pk_type : option Z }.
Definition pk_empty : publicKey := PK None None.
(** An OID object, or another value which was given in its place (certificate.py 288-292) *)
Inductive oidv : Type := IsOid (l : list Z) | NotOid (v : pyval).
(** certificate.py 279-323, 325-388 *)
Record subject : Type := Subject { sd_oid : oidv; sd_value : bytes }.
Record extension : Type := Extension { ex_oid : oidv; ex_critical : pyval; ex_value : bytes }.
(** certificate.py 33-48: a Certificate is a Data with these fields; 1e37 stands for itself *)
Record cert : Type := ICert {
  ic_data : data; ic_notBefore : Z; ic_notAfter : Z; ic_subjects : list subject; ic_extensions : list extension; ic_key : publicKey;
  ic_publicKeyName : option name    (* identity_certificate.py 106-110; None before it is set *) }.
Definition ic_new (d : data) : cert := ICert d (10 ^ 37) (- 10 ^ 37) [] [] pk_empty None.
Definition ic_setData (c : cert) (d : data) : cert := ICert d (ic_notBefore c) (ic_notAfter c) (ic_subjects c) (ic_extensions c) (ic_key c) (ic_publicKeyName c).

(** oid.py 22-29: OID(str) *)
Fixpoint split_dots (s cur : list Z) : list (list Z) :=
  match s with [] => [rev cur] | c :: s' => if c =? 46 then rev cur :: split_dots s' [] else split_dots s' (c :: cur) end.
Fixpoint ints (l : list (list Z)) : res (list Z) :=
  match l with [] => Ok [] | s :: l' => match int10 s with Some n => r <-- ints l' ;; Ok (n :: r) | None => Err ValueError end end.
Definition oid_of_str (s : list Z) : res (list Z) := ints (split_dots s []).
(** certificate.py 288-292, 336-340 *)
Definition oid_given (v : pyval) : res oidv := match v with PStr s => l <-- oid_of_str s ;; Ok (IsOid l) | _ => Ok (NotOid v) end.
(** der_node.py 473-479: DerOid(oid) *)
Definition oid_node (o : oidv) : res node := match o with IsOid l => der_oid l | NotOid _ => Err AttributeError end.
(** truth of a value: der_node.py 380 *)
Definition truthy (v : pyval) : bool :=
  match v with PBool b => b | PInt n => negb (n =? 0) | PStr s => negb (zlen s =? 0) | PBytes b => negb (zlen b =? 0) | PBlob b => negb (zlen b =? 0) | PFloat m => negb (m =? 0) end.

Section Cert.
Variable load_public : bytes -> res unit.
Variable floor40 : Z -> Z.
Notation node_toVal := (node_toVal floor40).

(** public_key.py 48-80 *)
Definition pk_new (keyDer : bytes) : res publicKey :=
  let oid := n <-- node_parse keyDer 0 ;; l <-- getChildren n ;; s <-- getSequence l 0 ;; a <-- getChildren s ;; x <-- item a 0 ;; node_toVal x in
  v <-- match oid with Err OtherError => Err SecurityException | r => r end ;;
  if is_oid_str v RSA_ENCRYPTION_OID then _ <-- load_public keyDer ;; Ok (PK (Some keyDer) (Some 0))
  else if is_oid_str v EC_ENCRYPTION_OID then Ok (PK (Some keyDer) (Some 1))
  else Err (match v with PStr _ => SecurityException | _ => TypeError end).
(** public_key.py 82-89: a null Blob has no buffer: len(None) raises TypeError *)
Definition pk_toDer (k : publicKey) : res node := match pk_der k with Some d => node_parse d 0 | None => Err TypeError end.

(** certificate.py 310-323 *)
Definition sd_toDer (s : subject) : res node :=
  o <-- oid_node (sd_oid s) ;; Ok (addChild (addChild (Seq [] 0 false []) o) (der_byteString T_PRINTABLE (sd_value s))).
(** certificate.py 345-361 *)
Definition ex_toDer (e : extension) : res node :=
  o <-- oid_node (ex_oid e) ;;
  Ok (addChild (addChild (addChild (Seq [] 0 false []) o) (der_boolean (truthy (ex_critical e)))) (der_byteString T_OCTETSTRING (ex_value e))).
(** for x in list: parent.addChild(x.toDer()) *)
Fixpoint add_all {A} (f : A -> res node) (l : list A) (parent : node) : res node :=
  match l with [] => Ok parent | x :: l' => c <-- f x ;; add_all f l' (addChild parent c) end.
(** certificate.py 118-149 *)
Definition ic_toDer (c : cert) : res node :=
  let seq := Seq [] 0 false [] in
  nb <-- der_time (ic_notBefore c) ;;
  na <-- der_time (ic_notAfter c) ;;
  let validity := addChild (addChild seq nb) na in
  sl <-- add_all sd_toDer (ic_subjects c) seq ;;
  k <-- pk_toDer (ic_key c) ;;
  let root := addChild (addChild (addChild seq validity) sl) k in
  if 0 <? zlen (ic_extensions c) then el <-- add_all ex_toDer (ic_extensions c) seq ;; Ok (addChild root el) else Ok root.
(** certificate.py 151-159 *)
Definition ic_encode (c : cert) : res cert :=
  root <-- ic_toDer c ;;
  let d := ic_data c in let m := d_meta d in
  Ok (ic_setData c (Data (d_name d) (MI 2 (mi_other m) (mi_freshness m) (mi_final m)) (Some (snd (node_encode root))) (d_sig d))).

(** The object is changed also when an exception is raised: state and result *)
Notation M A := (cert -> cert * res A).
Definition mret {A} (a : A) : M A := fun c => (c, Ok a).
Definition mlift {A} (r : res A) : M A := fun c => (c, r).
Definition mbind {A B} (m : M A) (k : A -> M B) : M B := fun c => let '(c', r) := m c in match r with Ok a => k a c' | Err x => (c', Err x) end.
Definition mmod (f : cert -> cert) : M unit := fun c => (f c, Ok tt).
Fixpoint mfor {A} (f : A -> M unit) (l : list A) : M unit := match l with [] => mret tt | x :: l' => mbind (f x) (fun _ => mfor f l') end.
Definition set_notBefore (t : Z) (c : cert) : cert := ICert (ic_data c) t (ic_notAfter c) (ic_subjects c) (ic_extensions c) (ic_key c) (ic_publicKeyName c).
Definition set_notAfter (t : Z) (c : cert) : cert := ICert (ic_data c) (ic_notBefore c) t (ic_subjects c) (ic_extensions c) (ic_key c) (ic_publicKeyName c).
(** certificate.py 104-116, 257 *)
Definition add_subject (s : subject) (c : cert) : cert := ICert (ic_data c) (ic_notBefore c) (ic_notAfter c) (ic_subjects c ++ [s]) (ic_extensions c) (ic_key c) (ic_publicKeyName c).
Definition add_extension (e : extension) (c : cert) : cert := ICert (ic_data c) (ic_notBefore c) (ic_notAfter c) (ic_subjects c) (ic_extensions c ++ [e]) (ic_key c) (ic_publicKeyName c).
Definition set_key (k : publicKey) (c : cert) : cert := ICert (ic_data c) (ic_notBefore c) (ic_notAfter c) (ic_subjects c) (ic_extensions c) k (ic_publicKeyName c).
Definition set_keyName (n : name) (c : cert) : cert := ICert (ic_data c) (ic_notBefore c) (ic_notAfter c) (ic_subjects c) (ic_extensions c) (ic_key c) (Some n).
(** The validity times may be any value; simplified: another value than a time is an error here
    (TypeError), in the code it is when the time is used. *)
Definition as_time (v : pyval) : res Z := match v with PFloat m => Ok m | PInt m => Ok m | _ => Err TypeError end.
(** certificate.py 182-187 *)
Definition decode_subject (sd : node) : M unit :=
  mbind (mlift (l <-- getChildren sd ;; a <-- item l 0 ;; o <-- node_toVal a ;; b <-- item l 1 ;; v <-- node_toVal b ;; oid <-- oid_given o ;; value <-- blob_bytes v ;; Ok (Subject oid value)))
        (fun s => mmod (add_subject s)).
(** certificate.py 195-201 *)
Definition decode_extension (e : node) : M unit :=
  mbind (mlift (l <-- getChildren e ;; a <-- item l 0 ;; o <-- node_toVal a ;; b <-- item l 1 ;; cr <-- node_toVal b ;; d <-- item l 2 ;; v <-- node_toVal d ;;
                oid <-- oid_given o ;; value <-- blob_bytes v ;; Ok (Extension oid cr value)))
        (fun x => mmod (add_extension x)).
(** certificate.py 161-201 *)
Definition ic_decode : M unit :=
  fun c =>
  (mbind (mlift (content <-- match d_content (ic_data c) with Some b => Ok b | None => Err TypeError end ;; root <-- node_parse content 0 ;; getChildren root)) (fun root =>
   mbind (mlift (v <-- getSequence root 0 ;; getChildren v)) (fun validity =>
   mbind (mlift (x <-- item validity 0 ;; v <-- node_toVal x ;; as_time v)) (fun nb =>
   mbind (mmod (set_notBefore nb)) (fun _ =>
   mbind (mlift (x <-- item validity 1 ;; v <-- node_toVal x ;; as_time v)) (fun na =>
   mbind (mmod (set_notAfter na)) (fun _ =>
   mbind (mlift (s <-- getSequence root 1 ;; getChildren s)) (fun subjects =>
   mbind (mfor decode_subject subjects) (fun _ =>
   mbind (mlift (k <-- item root 2 ;; pk_new (snd (node_encode k)))) (fun key =>
   mbind (mmod (set_key key)) (fun _ =>
   if 3 <? zlen root then
     mbind (mlift (e <-- getSequence root 3 ;; getChildren e)) (fun extensions => mfor decode_extension extensions)
   else mret tt))))))))))) c.
(** certificate.py 203-208; [tlv_0_2_wire_format] *)
Definition ic_wireDecode (w : bytes) : M unit :=
  fun c => match decodeData (ic_data c) w with Ok r => ic_decode (ic_setData c (fst r)) | Err x => (c, Err x) end.
(** certificate.py 33-48: Certificate(data) *)
Definition ic_of_data (d : data) : res cert := let '(c, r) := ic_decode (ic_new d) in _ <-- r ;; Ok c.
(** isTooEarly and isTooLate (certificate.py 50-71) are not modelled: total_seconds is not called, and
    the comparison of a method with a number raises TypeError (Python 3) for every certificate. *)
(** certificate.py 233-243 *)
Definition getPublicKeyDer (c : cert) : res bytes := match pk_der (ic_key c) with Some d => Ok d | None => Err RuntimeError end.

(** ** Identity certificates *)
Definition id_cert : list Z := [73; 68; 45; 67; 69; 82; 84].
Definition key_text : list Z := [75; 69; 89].
Definition is_text (t : list Z) (x : comp) : bool := zlist_eqb (c_toEscapedString x) t.
(** The index of the last / first component with the text *)
Fixpoint first_index (t : list Z) (n : name) (i : Z) : option Z :=
  match n with [] => None | x :: n' => if is_text t x then Some i else first_index t n' (i + 1) end.
Fixpoint last_index (t : list Z) (n : name) (i : Z) (acc : option Z) : option Z :=
  match n with [] => acc | x :: n' => last_index t n' (i + 1) (if is_text t x then Some i else acc) end.
(** identity_certificate.py 51-77 *)
Definition isCorrectName (n : name) : bool :=
  match last_index id_cert n 0 None with None => false | Some _ => match first_index key_text n 0 with None => false | Some _ => true end end.
(** identity_certificate.py 112-150 *)
Definition certificateNameToPublicKeyName (n : name) : res name :=
  match last_index id_cert n 0 None with
  | None => Err RuntimeError
  | Some i =>
      temp <-- n_getSubName n 0 (Some i) ;;
      match first_index key_text temp 0 with
      | None => Err RuntimeError
      | Some k => a <-- n_getSubName temp 0 (Some k) ;; b <-- n_getSubName temp (k + 1) (Some (zlen temp - k - 1)) ;; Ok (a ++ b)
      end
  end.
(** identity_certificate.py 106-110 *)
Definition setPublicKeyName : M unit := fun c => mbind (mlift (certificateNameToPublicKeyName (d_name (ic_data c)))) (fun n => mmod (set_keyName n)) c.
(** identity_certificate.py 93-104 *)
Definition id_setName (n : name) : M unit :=
  fun c => if isCorrectName n then let d := ic_data c in setPublicKeyName (ic_setData c (Data n (d_meta d) (d_content d) (d_sig d))) else (c, Err SecurityException).
(** identity_certificate.py 79-84 *)
Definition id_wireDecode (w : bytes) : M unit := mbind (ic_wireDecode w) (fun _ => setPublicKeyName).
(** identity_certificate.py 32-49: IdentityCertificate(data) of a Data, not of an IdentityCertificate *)
Definition id_of_data (d : data) : res cert :=
  c <-- ic_of_data d ;; if isCorrectName (d_name d) then let '(c', r) := setPublicKeyName c in _ <-- r ;; Ok c' else Err SecurityException.
End Cert.
