(** * Model of the change counters and of the cached wire encodings of Data and Interest.

    python/pyndn/util/change_counter.py, data.py, interest.py, key_locator.py, meta_info.py,
    name.py, validity_period.py, exclude.py, delegation_set.py, *_signature.py.

    Objects live in a heap (a list; the index is the identity), so that a Name shared by
    several packets, or a sub-object obtained from a getter, is one object. Each object has
    the values of its own fields, its ChangeCounter fields (identity of the target and the
    change count seen last) and its change count. Simplification: a new object starts with
    change count 0 and a call that makes several increments may make one (only the
    comparison of counts with counts seen before is observable). *)
From Verif Require Import Base TlvModel NameModel WireModel.
Local Open Scope res_scope.

Inductive sigkind : Type := KRsa | KEcdsa | KHmac | KDigest | KGeneric (encoding : option bytes) (typeCode : option Z).
(** The own fields of each class. In [OInt] the name, key locator, exclude, forwarding hint
    and nonce of the record are not used (they are sub-objects, and the nonce is below). *)
Inductive own : Type :=
| OName (n : name) | OMeta (m : metaInfo) | OVal (v : validity) | OKl (t : option Z) (d : option bytes)
| OSig (k : sigkind) (bits : option bytes) | OData (content : option bytes)
| OExcl (es : list exentry) | ODel (ds : list delegation) | OInt (i : interest).
Inductive class : Type := CName | CMeta | CVal | CKl | CSig | CData | CExcl | CDel | CInt.
Definition class_of (v : own) : class :=
  match v with OName _ => CName | OMeta _ => CMeta | OVal _ => CVal | OKl _ _ => CKl | OSig _ _ => CSig | OData _ => CData
             | OExcl _ => CExcl | ODel _ => CDel | OInt _ => CInt end.
(** The ChangeCounter fields: key_locator.py 40; sha256_with_rsa_signature.py 44-45 (ECDSA the
    same); hmac_with_sha256_signature.py 43; data.py 48-51; interest.py 65-77 (the link is a
    ChangeCounter which getChangeCount does not look at: its wire encoding is a plain field). *)
Definition kid_classes (v : own) : list class :=
  match v with
  | OKl _ _ => [CName]
  | OSig KRsa _ | OSig KEcdsa _ => [CKl; CVal]
  | OSig KHmac _ => [CKl]
  | OData _ => [CName; CMeta; CSig]
  | OInt _ => [CName; CKl; CExcl; CDel]
  | _ => []
  end.

Definition wire : Type := (bytes * (Z * Z))%type.
(** data.py 53-58, interest.py 75, 83-88: _defaultWireEncoding, its format, the change count
    it is for, the Name object of the default full name, the nonce and the count it is for. *)
Record cache : Type := Cache {
  ca_wire : option wire; ca_fmt : option Z; ca_seen : Z; ca_full : option nat;
  ca_nonce : option bytes; ca_nonceSeen : Z }.
Definition cache0 : cache := Cache None None 0 None None 0.
Record obj : Type := Obj { o_own : own; o_kids : list (nat * Z); o_count : Z; o_cache : cache }.
Definition heap : Type := list obj.

Fixpoint upd (h : heap) (i : nat) (o : obj) : heap :=
  match h, i with
  | [], _ => []
  | _ :: h', O => o :: h'
  | x :: h', S i' => x :: upd h' i' o
  end.

(** ** Change counts *)
(** change_counter.py 61-80: checkChanged of each ChangeCounter in turn; [g] is the
    getChangeCount of the targets. Result: the new seen counts, and whether one changed. *)
Fixpoint check_kids (g : heap -> nat -> heap * Z) (h : heap) (ks : list (nat * Z)) : heap * list (nat * Z) * bool :=
  match ks with
  | [] => (h, [], false)
  | (k, s) :: ks' =>
      let '(h1, c) := g h k in
      let '(h2, r, ch) := check_kids g h1 ks' in
      (h2, (k, c) :: r, negb (s =? c) || ch)
  end.
(** getChangeCount: data.py 316-332, interest.py 879-896, key_locator.py 168-182,
    sha256_with_rsa_signature.py 131-146; name.py, meta_info.py, ...: the count itself.
    The recursion follows the object graph; [fuel] is its depth. *)
Fixpoint gcc (fuel : nat) (h : heap) (i : nat) : heap * Z :=
  match fuel with
  | O => (h, 0)
  | S f =>
      match nth_error h i with
      | None => (h, 0)
      | Some o =>
          let '(h1, ks, ch) := check_kids (gcc f) h (o_kids o) in
          let c := if ch : bool then o_count o + 1 else o_count o in
          (upd h1 i (Obj (o_own o) ks c (o_cache o)), c)
      end
  end.
Definition getChangeCount (h : heap) (i : nat) : heap * Z := gcc 4 h i.

(** ** Values: what the encoder reads *)
Inductive tree : Type := Tree (v : own) (ts : list tree).
Fixpoint deep (fuel : nat) (h : heap) (i : nat) : tree :=
  match fuel with
  | O => Tree (OName []) []
  | S f =>
      match nth_error h i with
      | None => Tree (OName []) []
      | Some o => Tree (o_own o) (map (fun ks => deep f h (fst ks)) (o_kids o))
      end
  end.
Definition t_name (t : tree) : name := match t with Tree (OName n) _ => n | _ => [] end.
Definition t_meta (t : tree) : metaInfo := match t with Tree (OMeta m) _ => m | _ => mi_empty end.
Definition t_val (t : tree) : validity := match t with Tree (OVal v) _ => v | _ => vp_none end.
Definition t_kl (t : tree) : keyLocator := match t with Tree (OKl ty d) [n] => KL ty (t_name n) d | _ => kl_empty end.
Definition t_sig (t : tree) : signature :=
  match t with
  | Tree (OSig KRsa b) [kl; vp] => SigRsa (t_kl kl) (t_val vp) b
  | Tree (OSig KEcdsa b) [kl; vp] => SigEcdsa (t_kl kl) (t_val vp) b
  | Tree (OSig KHmac b) [kl] => SigHmac (t_kl kl) b
  | Tree (OSig (KGeneric e ty) b) _ => SigGeneric e ty b
  | Tree (OSig _ b) _ => SigDigest b
  | _ => SigDigest None
  end.
Definition t_data (t : tree) : data :=
  match t with Tree (OData c) [n; m; s] => Data (t_name n) (t_meta m) c (t_sig s) | _ => Data [] mi_empty None (SigDigest None) end.
Definition t_excl (t : tree) : list exentry := match t with Tree (OExcl es) _ => es | _ => [] end.
Definition t_del (t : tree) : list delegation := match t with Tree (ODel ds) _ => ds | _ => [] end.
Definition t_int (t : tree) (nonce : option bytes) : interest :=
  match t with
  | Tree (OInt i) [n; kl; ex; ds] =>
      Interest (t_name n) (i_min i) (i_max i) (t_kl kl) (t_excl ex) (i_child i) (i_mustBeFresh i) nonce (i_lifetime i) (t_del ds)
               (i_params i) (i_link i) (i_selected i)
  | _ => i_empty
  end.
(** The current field values of a Data and of an Interest object. *)
Definition data_value (h : heap) (i : nat) : data := t_data (deep 4 h i).
Definition int_value (h : heap) (i : nat) (nonce : option bytes) : interest := t_int (deep 4 h i) nonce.

(** ** Creating objects *)
Definition alloc (h : heap) (v : own) (ks : list nat) : heap * nat :=
  (h ++ [Obj v (map (fun k => (k, match nth_error h k with Some o => o_count o | None => 0 end)) ks) 0 cache0], length h).
Definition alloc_kl (h : heap) (kl : keyLocator) : heap * nat :=
  let '(h, n) := alloc h (OName (kl_name kl)) [] in alloc h (OKl (kl_type kl) (kl_data kl)) [n].
Definition alloc_sig (h : heap) (s : signature) : heap * nat :=
  match s with
  | SigRsa kl v b => let '(h, k) := alloc_kl h kl in let '(h, p) := alloc h (OVal v) [] in alloc h (OSig KRsa b) [k; p]
  | SigEcdsa kl v b => let '(h, k) := alloc_kl h kl in let '(h, p) := alloc h (OVal v) [] in alloc h (OSig KEcdsa b) [k; p]
  | SigHmac kl b => let '(h, k) := alloc_kl h kl in alloc h (OSig KHmac b) [k]
  | SigDigest b => alloc h (OSig KDigest b) []
  | SigGeneric e t b => alloc h (OSig (KGeneric e t) b) []
  end.
(** Data(): data.py 48-58; Data(value): 39-46 copies the name, meta info and signature *)
Definition alloc_data (h : heap) (d : data) : heap * nat :=
  let '(h, n) := alloc h (OName (d_name d)) [] in
  let '(h, m) := alloc h (OMeta (d_meta d)) [] in
  let '(h, s) := alloc_sig h (d_sig d) in
  alloc h (OData (d_content d)) [n; m; s].
(** Interest(): interest.py 65-89; Interest(value): 42-63 *)
Definition alloc_int (h : heap) (i : interest) : heap * nat :=
  let '(h, n) := alloc h (OName (i_name i)) [] in
  let '(h, kl) := alloc_kl h (i_keyLocator i) in
  let '(h, ex) := alloc h (OExcl (i_exclude i)) [] in
  let '(h, ds) := alloc h (ODel (i_hint i)) [] in
  alloc h (OInt i) [n; kl; ex; ds].

(** ** Mutating objects *)
(** A setter: the own fields change and the change count is incremented. *)
Definition set_own (h : heap) (i : nat) (v : own) : heap :=
  match nth_error h i with Some o => upd h i (Obj v (o_kids o) (o_count o + 1) (o_cache o)) | None => h end.
Definition replace_nth {A} (l : list A) (p : nat) (x : A) : list A := firstn p l ++ match skipn p l with [] => [] | _ :: r => x :: r end.
(** change_counter.py 50-59: ChangeCounter.set(target), then the change count is incremented *)
Definition set_kid (h : heap) (i p k : nat) : heap :=
  let '(h1, c) := getChangeCount h k in
  match nth_error h1 i with
  | Some o => upd h1 i (Obj (o_own o) (replace_nth (o_kids o) p (k, c)) (o_count o + 1) (o_cache o))
  | None => h1
  end.
Definition set_cache (h : heap) (i : nat) (c : cache) : heap :=
  match nth_error h i with Some o => upd h i (Obj (o_own o) (o_kids o) (o_count o) c) | None => h end.
(** The target of a ChangeCounter field. *)
Definition kid (h : heap) (i p : nat) : option nat :=
  match nth_error h i with Some o => match nth_error (o_kids o) p with Some (k, _) => Some k | None => None end | None => None end.
Definition class_at (h : heap) (i : nat) : option class := match nth_error h i with Some o => Some (class_of (o_own o)) | None => None end.
Definition is_class (h : heap) (i : nat) (c : class) : bool :=
  match class_at h i, c with
  | Some CName, CName | Some CMeta, CMeta | Some CVal, CVal | Some CKl, CKl | Some CSig, CSig
  | Some CData, CData | Some CExcl, CExcl | Some CDel, CDel | Some CInt, CInt => true
  | _, _ => false
  end.

(** ** The calls *)
Inductive op : Type :=
(* constructors *)
| NewName (n : name) | NewMeta (m : metaInfo) | NewVal (v : validity) | NewKl (kl : keyLocator) | NewSig (s : signature)
| NewData (d : data) | NewInt (i : interest)
(* Name.append, clear, set...; MetaInfo, ValidityPeriod, Exclude, DelegationSet setters: the
   new value of the object *)
| SetName (i : nat) (n : name) | SetMeta (i : nat) (m : metaInfo) | SetVal (i : nat) (v : validity)
| SetExcl (i : nat) (es : list exentry) | SetDel (i : nat) (ds : list delegation)
(* KeyLocator.setType, setKeyData; setKeyName (the Name object itself); clear *)
| KlSet (i : nat) (t : option Z) (d : option bytes) | KlSetName (i n : nat) | KlClear (i : nat)
(* signatures: setSignature (and GenericSignature.setSignatureInfoEncoding); setKeyLocator and
   setValidityPeriod copy their argument *)
| SigSetBits (i : nat) (b : option bytes) | SigSetKl (i kl : nat) | SigSetVal (i vp : nat)
| GenSet (i : nat) (e : option bytes) (t : option Z)
(* Data.setName (the object itself), setMetaInfo (copy), setSignature (clone), setContent *)
| DSetName (i n : nat) | DSetMeta (i m : nat) | DSetSig (i s : nat) | DSetContent (i : nat) (c : option bytes)
(* Interest: setName, setKeyLocator (copy), setExclude (copy), setForwardingHint (copy),
   the setters of plain fields, setNonce, getNonce, refreshNonce (with the random draws) *)
| ISetName (i n : nat) | ISetKl (i kl : nat) | ISetExcl (i e : nat) | ISetDel (i d : nat) | ISet (i : nat) (f : interest)
| ISetNonce (i : nat) (n : option bytes) | IGetNonce (i : nat) | IRefreshNonce (i : nat) (draws : list bytes)
| GetChangeCount (i : nat)
(* wireEncode, wireDecode with an explicit format; getFullName; the copy constructors *)
| DEncode (i : nat) (f : Z) | DDecode (i : nat) (f : Z) (input : bytes) | DFullName (i : nat) (f : Z) | DCopy (i : nat)
| IEncode (i : nat) (f : Z) (rnd : list Z) | IDecode (i : nat) (f : Z) (input : bytes) | ICopy (i : nat)
| SetDefaultFormat (f : Z)
(* changes that no change counter sees: to the Name of a Delegation obtained from a
   DelegationSet (delegation_set.py 71-79), and to the Link of an Interest obtained with
   getLink (interest.py 264-288: the Link's wire encoding becomes l) *)
| DelegationTouch (i : nat) (ds : list delegation) | LinkTouch (i : nat) (l : option bytes).
Inductive out : Type := RUnit | RWire (w : wire) | RName (i : nat) | RNonce (n : option bytes) | RCount (c : Z).

Record state : Type := State { s_heap : heap; s_default : Z }.

Section Formats.
(** The wire formats (WireFormat objects, numbered), arbitrary; and what a failing decoder
    leaves in the object (None: nothing was changed). *)
Variable encD : Z -> data -> res wire.
Variable decD : Z -> data -> bytes -> res (data * (Z * Z)).
Variable partD : Z -> data -> bytes -> option data.
Variable encI : Z -> list Z -> interest -> res wire.
Variable decI : Z -> interest -> bytes -> res (interest * (Z * Z)).
Variable partI : Z -> interest -> bytes -> option (interest * bool). (* and whether setNonce was reached *)
Variable sha256 : bytes -> bytes.

(** data.py 334-340, interest.py 898-904: _setDefaultWireEncoding *)
Definition setDefaultWireEncoding (h : heap) (i : nat) (w : option wire) (f : option Z) : heap :=
  let '(h1, c) := getChangeCount h i in
  match nth_error h1 i with
  | Some o => let ca := o_cache o in
              set_cache h1 i (Cache w f c (ca_full ca) (ca_nonce ca) (ca_nonceSeen ca))
  | None => h1
  end.
(** data.py 164-180, interest.py 837-853: getDefaultWireEncoding *)
Definition getDefaultWireEncoding (h : heap) (i : nat) : heap * option wire * option Z :=
  let '(h1, c) := getChangeCount h i in
  match nth_error h1 i with
  | Some o =>
      let ca := o_cache o in
      if negb (ca_seen ca =? c) then
        (set_cache h1 i (Cache None None c (ca_full ca) (ca_nonce ca) (ca_nonceSeen ca)), None, None)
      else (h1, ca_wire ca, ca_fmt ca)
  | None => (h1, None, None)
  end.
Definition fmt_eqb (a : option Z) (f : Z) : bool := match a with Some g => g =? f | None => false end.

(** data.py 61-91: Data.wireEncode *)
Definition data_wireEncode (s : state) (i : nat) (f : Z) : state * res wire :=
  let '(h1, w, wf) := getDefaultWireEncoding (s_heap s) i in
  match w, fmt_eqb wf f with
  | Some w, true => (State h1 (s_default s), Ok w)
  | _, _ =>
      match encD f (data_value h1 i) with
      | Err e => (State h1 (s_default s), Err e)
      | Ok w' =>
          let h2 := if f =? s_default s then setDefaultWireEncoding h1 i (Some w') (Some f) else h1 in
          (State h2 (s_default s), Ok w')
      end
  end.
(** data.py 338-378 of the wire format: decodeData assigns the fields of the object: the Name and
    MetaInfo objects are modified in place, the signature is replaced *)
Definition data_assign (h : heap) (i : nat) (d : data) : heap :=
  match kid h i 0, kid h i 1 with
  | Some n, Some m =>
      let h := set_own h n (OName (d_name d)) in
      let h := set_own h m (OMeta (d_meta d)) in
      let h := set_own h i (OData (d_content d)) in
      let '(h, s) := alloc_sig h (d_sig d) in
      set_kid h i 2 s
  | _, _ => h
  end.
(** data.py 93-126: Data.wireDecode *)
Definition data_wireDecode (s : state) (i : nat) (f : Z) (input : bytes) : state * res out :=
  match decD f (data_value (s_heap s) i) input with
  | Err e =>
      let h := match partD f (data_value (s_heap s) i) input with Some d => data_assign (s_heap s) i d | None => s_heap s end in
      (State h (s_default s), Err e)
  | Ok (d, offs) =>
      let h := data_assign (s_heap s) i d in
      let h := if f =? s_default s then setDefaultWireEncoding h i (Some (input, offs)) (Some f)
               else setDefaultWireEncoding h i None None in
      (State h (s_default s), Ok RUnit)
  end.
(** The value of a Name object. *)
Definition name_at (h : heap) (i : nat) : name := match nth_error h i with Some (Obj (OName n) _ _ _) => n | _ => [] end.
Definition set_full (h : heap) (i fn : nat) : heap :=
  match nth_error h i with
  | Some o => let ca := o_cache o in set_cache h i (Cache (ca_wire ca) (ca_fmt ca) (ca_seen ca) (Some fn) (ca_nonce ca) (ca_nonceSeen ca))
  | None => h
  end.
(** data.py 239-249: the part of getFullName that computes the full name *)
Definition compute_fullName (s : state) (i : nat) (f : Z) : state * res nat :=
  let fullName := d_name (data_value (s_heap s) i) in
  let '(s2, r) := data_wireEncode s i f in
  match r with
  | Err e => (s2, Err e)
  | Ok w =>
      match c_fromImplicitSha256Digest (sha256 (fst w)) with
      | Err e => (s2, Err e)
      | Ok c =>
          let '(h3, fn) := alloc (s_heap s2) (OName (fullName ++ [c])) [] in
          (State (if f =? s_default s then set_full h3 i fn else h3) (s_default s), Ok fn)
      end
  end.
(** data.py 214-249: Data.getFullName; the result is a Name object *)
Definition data_getFullName (s : state) (i : nat) (f : Z) : state * res nat :=
  let '(h1, w, wf) := getDefaultWireEncoding (s_heap s) i in
  let s1 := State h1 (s_default s) in
  let cached := match nth_error h1 i with Some o => ca_full (o_cache o) | None => None end in
  match w, cached with
  | Some _, Some n => if (0 <? zlen (name_at h1 n)) && fmt_eqb wf f then (s1, Ok n) else compute_fullName s1 i f
  | _, _ => compute_fullName s1 i f
  end.

(** ** Interest *)
Definition set_nonce (h : heap) (i : nat) (n : option bytes) (seen : Z) : heap :=
  match nth_error h i with
  | Some o => let ca := o_cache o in set_cache h i (Cache (ca_wire ca) (ca_fmt ca) (ca_seen ca) (ca_full ca) n seen)
  | None => h
  end.
(** interest.py 197-210: getNonce *)
Definition int_getNonce (h : heap) (i : nat) : heap * option bytes :=
  let '(h1, c) := getChangeCount h i in
  match nth_error h1 i with
  | Some o => if negb (ca_nonceSeen (o_cache o) =? c) then (set_nonce h1 i None c, None) else (h1, ca_nonce (o_cache o))
  | None => (h1, None)
  end.
(** interest.py 556-566 (and 726-730): setNonce *)
Definition int_setNonce (h : heap) (i : nat) (n : option bytes) : heap :=
  match nth_error h i with
  | Some o => let '(h1, c) := getChangeCount (set_own h i (o_own o)) i in set_nonce h1 i n c
  | None => h
  end.
Definition optlen (n : option bytes) : Z := match n with Some b => zlen b | None => 0 end.
(** interest.py 718-724: the first drawn value that differs from the current nonce; a draw is
    a bytearray of the size of the current nonce *)
Fixpoint next_nonce (cur : bytes) (draws : list bytes) : option bytes :=
  match draws with
  | [] => None
  | d :: ds => if zlist_eqb d cur then next_nonce cur ds else Some d
  end.
(** interest.py 708-730: refreshNonce; the loop needs one more draw: [OutOfFuel] *)
Definition int_refreshNonce (h : heap) (i : nat) (draws : list bytes) : heap * res out :=
  let '(h1, cur) := int_getNonce h i in
  match cur with
  | None => (h1, Ok RUnit)
  | Some c =>
      if zlen c =? 0 then (h1, Ok RUnit) else
      match next_nonce c (filter (fun d => zlen d =? zlen c) draws) with
      | Some n => (int_setNonce h1 i (Some n), Ok RUnit)
      | None => (h1, Err OutOfFuel)
      end
  end.
(** interest.py 603-633: Interest.wireEncode. encodeInterest calls getNonce (tlv_0_2_wire_format.py
    163, 1494) which may reset the stored nonce. *)
Definition int_wireEncode (s : state) (i : nat) (f : Z) (rnd : list Z) : state * res wire :=
  let '(h1, w, wf) := getDefaultWireEncoding (s_heap s) i in
  match w, fmt_eqb wf f with
  | Some w, true => (State h1 (s_default s), Ok w)
  | _, _ =>
      let '(h2, n) := int_getNonce h1 i in
      match encI f rnd (int_value h2 i n) with
      | Err e => (State h2 (s_default s), Err e)
      | Ok w' =>
          let h3 := if f =? s_default s then setDefaultWireEncoding h2 i (Some w') (Some f) else h2 in
          (State h3 (s_default s), Ok w')
      end
  end.
(** tlv_0_2_wire_format.py 239-297, 1519-1587: the decoder assigns the fields of the object: the
    Name, KeyLocator (and the KeyLocator's Name: key_locator.py 120-127), Exclude and
    DelegationSet objects are modified in place, in this order, then the nonce *)
Definition int_assign (h : heap) (i : nat) (v : interest) (nonce : bool) : heap :=
  match kid h i 0, kid h i 1, kid h i 2, kid h i 3 with
  | Some n, Some kl, Some ex, Some ds =>
      let h := set_own h n (OName (i_name v)) in
      let h := match kid h kl 0 with Some kn => set_own h kn (OName (kl_name (i_keyLocator v))) | None => h end in
      let h := set_own h kl (OKl (kl_type (i_keyLocator v)) (kl_data (i_keyLocator v))) in
      let h := set_own h ex (OExcl (i_exclude v)) in
      let h := set_own h ds (ODel (i_hint v)) in
      let h := set_own h i (OInt v) in
      if nonce then int_setNonce h i (i_nonce v) else h
  | _, _, _, _ => h
  end.
(** interest.py 635-668: Interest.wireDecode *)
Definition int_wireDecode (s : state) (i : nat) (f : Z) (input : bytes) : state * res out :=
  let '(h0, n) := int_getNonce (s_heap s) i in
  match decI f (int_value h0 i n) input with
  | Err e =>
      let h := match partI f (int_value h0 i n) input with Some (v, b) => int_assign (s_heap s) i v b | None => s_heap s end in
      (State h (s_default s), Err e)
  | Ok (v, offs) =>
      let h := int_assign (s_heap s) i v true in
      let h := if f =? s_default s then setDefaultWireEncoding h i (Some (input, offs)) (Some f)
               else setDefaultWireEncoding h i None None in
      (State h (s_default s), Ok RUnit)
  end.

(** data.py 38-46, 57-58: Data(value) *)
Definition data_copy (h : heap) (i : nat) : heap * nat :=
  let d := data_value h i in
  let '(h1, w, wf) := getDefaultWireEncoding h i in
  let full := match nth_error h1 i with Some o => ca_full (o_cache o) | None => None end in
  let '(h2, j) := alloc_data h1 d in
  let '(h3, fn) := match full with
                   | Some n => let '(h3, m) := alloc h2 (OName (name_at h2 n)) [] in (h3, Some m)
                   | None => (h2, None) end in
  (set_cache h3 j (Cache w wf 0 fn None 0), j).
(** interest.py 41-63, 86-88: Interest(value) *)
Definition int_copy (h : heap) (i : nat) : heap * nat :=
  let '(h0, n) := int_getNonce h i in
  let v := int_value h0 i n in
  let '(h1, w, wf) := getDefaultWireEncoding h0 i in
  let '(h2, j) := alloc_int h1 v in
  (set_cache h2 j (Cache w wf 0 None n 0), j).

(** ** Running calls. A call on an object that has no such method raises AttributeError. *)
Definition guard (b : bool) (s : state) (r : state * res out) : state * res out := if b then r else (s, Err AttributeError).
Definition unit_op (s : state) (h : heap) : state * res out := (State h (s_default s), Ok RUnit).
Definition new_op (s : state) (r : heap * nat) : state * res out := (State (fst r) (s_default s), Ok (RName (snd r))).
Definition wire_op (r : state * res wire) : state * res out := (fst r, match snd r with Ok w => Ok (RWire w) | Err e => Err e end).
Definition name_op (r : state * res nat) : state * res out := (fst r, match snd r with Ok n => Ok (RName n) | Err e => Err e end).
Definition exec (s : state) (o : op) : state * res out :=
  let h := s_heap s in
  match o with
  | NewName n => new_op s (alloc h (OName n) [])
  | NewMeta m => new_op s (alloc h (OMeta m) [])
  | NewVal v => new_op s (alloc h (OVal v) [])
  | NewKl kl => new_op s (alloc_kl h kl)
  | NewSig g => new_op s (alloc_sig h g)
  | NewData d => new_op s (alloc_data h d)
  | NewInt v => let '(h1, j) := alloc_int h v in new_op s (set_nonce h1 j (i_nonce v) 0, j)
  | SetName i n => guard (is_class h i CName) s (unit_op s (set_own h i (OName n)))
  | SetMeta i m => guard (is_class h i CMeta) s (unit_op s (set_own h i (OMeta m)))
  | SetVal i v => guard (is_class h i CVal) s (unit_op s (set_own h i (OVal v)))
  | SetExcl i es => guard (is_class h i CExcl) s (unit_op s (set_own h i (OExcl es)))
  | SetDel i ds => guard (is_class h i CDel) s (unit_op s (set_own h i (ODel ds)))
  | KlSet i t d => guard (is_class h i CKl) s (unit_op s (set_own h i (OKl t d)))
  | KlSetName i n => guard (is_class h i CKl && is_class h n CName) s (unit_op s (set_kid h i 0 n))
  | KlClear i =>
      guard (is_class h i CKl) s
        (unit_op s (set_own (match kid h i 0 with Some n => set_own h n (OName []) | None => h end) i (OKl None None)))
  | SigSetBits i b =>
      match nth_error h i with
      | Some (Obj (OSig k _) _ _ _) => unit_op s (set_own h i (OSig k b))
      | _ => (s, Err AttributeError)
      end
  | SigSetKl i kl =>
      match nth_error h i with
      | Some (Obj (OSig (KRsa | KEcdsa | KHmac) _) _ _ _) =>
          guard (is_class h kl CKl) s (let '(h1, k) := alloc_kl h (t_kl (deep 4 h kl)) in unit_op s (set_kid h1 i 0 k))
      | _ => (s, Err AttributeError)
      end
  | SigSetVal i vp =>
      match nth_error h i with
      | Some (Obj (OSig (KRsa | KEcdsa) _) _ _ _) =>
          guard (is_class h vp CVal) s (let '(h1, k) := alloc h (OVal (t_val (deep 4 h vp))) [] in unit_op s (set_kid h1 i 1 k))
      | _ => (s, Err AttributeError)
      end
  | GenSet i e t =>
      match nth_error h i with
      | Some (Obj (OSig (KGeneric _ _) b) _ _ _) => unit_op s (set_own h i (OSig (KGeneric e t) b))
      | _ => (s, Err AttributeError)
      end
  | DSetName i n => guard (is_class h i CData && is_class h n CName) s (unit_op s (set_kid h i 0 n))
  | DSetMeta i m => guard (is_class h i CData && is_class h m CMeta) s
      (let '(h1, k) := alloc h (OMeta (t_meta (deep 4 h m))) [] in unit_op s (set_kid h1 i 1 k))
  | DSetSig i g => guard (is_class h i CData && is_class h g CSig) s
      (let '(h1, k) := alloc_sig h (t_sig (deep 4 h g)) in unit_op s (set_kid h1 i 2 k))
  | DSetContent i c => guard (is_class h i CData) s (unit_op s (set_own h i (OData c)))
  | ISetName i n => guard (is_class h i CInt && is_class h n CName) s (unit_op s (set_kid h i 0 n))
  | ISetKl i kl => guard (is_class h i CInt && is_class h kl CKl) s
      (let '(h1, k) := alloc_kl h (t_kl (deep 4 h kl)) in unit_op s (set_kid h1 i 1 k))
  | ISetExcl i e => guard (is_class h i CInt && is_class h e CExcl) s
      (let '(h1, k) := alloc h (OExcl (t_excl (deep 4 h e))) [] in unit_op s (set_kid h1 i 2 k))
  | ISetDel i d => guard (is_class h i CInt && is_class h d CDel) s
      (let '(h1, k) := alloc h (ODel (t_del (deep 4 h d))) [] in unit_op s (set_kid h1 i 3 k))
  | ISet i f => guard (is_class h i CInt) s (unit_op s (set_own h i (OInt f)))
  | ISetNonce i n => guard (is_class h i CInt) s (unit_op s (int_setNonce h i n))
  | IGetNonce i => guard (is_class h i CInt) s
      (let '(h1, n) := int_getNonce h i in (State h1 (s_default s), Ok (RNonce n)))
  | IRefreshNonce i draws => guard (is_class h i CInt) s
      (let '(h1, r) := int_refreshNonce h i draws in (State h1 (s_default s), r))
  | GetChangeCount i => let '(h1, c) := getChangeCount h i in (State h1 (s_default s), Ok (RCount c))
  | DEncode i f => guard (is_class h i CData) s (wire_op (data_wireEncode s i f))
  | DDecode i f input => guard (is_class h i CData) s (data_wireDecode s i f input)
  | DFullName i f => guard (is_class h i CData) s (name_op (data_getFullName s i f))
  | DCopy i => guard (is_class h i CData) s (new_op s (data_copy h i))
  | IEncode i f rnd => guard (is_class h i CInt) s (wire_op (int_wireEncode s i f rnd))
  | IDecode i f input => guard (is_class h i CInt) s (int_wireDecode s i f input)
  | ICopy i => guard (is_class h i CInt) s (new_op s (int_copy h i))
  | SetDefaultFormat f => (State h f, Ok RUnit)
  | DelegationTouch i ds =>
      guard (is_class h i CDel) s
        (unit_op s (match nth_error h i with Some o => upd h i (Obj (ODel ds) (o_kids o) (o_count o) (o_cache o)) | None => h end))
  | LinkTouch i l =>
      match nth_error h i with
      | Some (Obj (OInt v) ks c ca) =>
          unit_op s (upd h i (Obj (OInt (Interest (i_name v) (i_min v) (i_max v) (i_keyLocator v) (i_exclude v) (i_child v)
            (i_mustBeFresh v) (i_nonce v) (i_lifetime v) (i_hint v) (i_params v) l (i_selected v))) ks c ca))
      | _ => (s, Err AttributeError)
      end
  end.
Definition run (s : state) (os : list op) : state := fold_left (fun s o => fst (exec s o)) os s.
(** A program starts with no object and some default wire format. *)
Definition init (f : Z) : state := State [] f.
End Formats.
