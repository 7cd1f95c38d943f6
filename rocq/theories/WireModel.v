(** * Model of the packet wire format (Name, Exclude, KeyLocator, MetaInfo,
    SignatureInfo, DelegationSet, Interest, Data).

    python/pyndn/encoding/tlv_0_2_wire_format.py. The encoder is the byte-list form
    of TlvEncoder ([e_write...], see TlvModel); it writes backwards. The optional C
    bindings (_pyndn) are not modelled. *)
From Verif Require Import Base TlvModel NameModel UriModel CalModel.
Local Open Scope dec_scope.

(** A pure computation inside a decoder. *)
Definition dlift {A} (r : res A) : dec A := fun _ off => match r with Ok a => Ok (a, off) | Err e => Err e end.
(** A loop whose bound is the input size (every iteration consumes input). *)
Definition dfuel {A} (f : nat -> dec A) : dec A := fun inp off => f (S (length inp)) inp off.

(** ** Name components and names *)
(** tlv_0_2_wire_format.py 810-825: _encodeNameComponent *)
Definition enc_comp (c : comp) (out : bytes) : bytes :=
  e_writeBlobTlv (if c_type c =? CT_OTHER then c_other c else c_type c) (Some (c_value c)) out.

(** tlv_0_2_wire_format.py 827-854: _decodeNameComponent *)
Definition dec_comp : dec comp :=
  savePosition <~ d_getOffset ;;
  type <~ d_readVarNumber ;;
  d_seek savePosition ;;;
  value <~ d_readBlobTlv type ;;
  if type =? 1 then dlift (c_fromImplicitSha256Digest value)
  else if type =? 2 then dlift (c_fromParametersSha256Digest value)
  else if type =? 8 then dret (c_generic value)
  else dlift (c_new value (Some CT_OTHER) (Some type)).

(** 874-878: the loop over the components, last first, keeping len(encoder) after
    the last component. *)
Fixpoint enc_name_loop (rn : list comp) (isLast : bool) (endFromBack : Z) (out : bytes) : bytes * Z :=
  match rn with
  | [] => (out, endFromBack)
  | c :: rn' => let out' := enc_comp c out in enc_name_loop rn' false (if isLast then zlen out' else endFromBack) out'
  end.

(** 856-892: _encodeName; also returns the signed portion offsets *)
Definition enc_name (n : name) (out : bytes) : bytes * (Z * Z) :=
  let saveLength := zlen out in
  let '(out1, endFromBack) := enc_name_loop (rev n) true 0 out in
  let beginFromBack := zlen out1 in
  let out2 := e_writeTypeAndLength 7 (zlen out1 - saveLength) out1 in
  let beginOffset := zlen out2 - beginFromBack in
  let endOffset := match n with [] => beginOffset | _ => zlen out2 - endFromBack end in
  (out2, (beginOffset, endOffset)).

(** 921-923: the loop of _decodeName: components so far (reversed), offset of the last one *)
Fixpoint dec_name_loop (fuel : nat) (endOffset : Z) (acc : list comp) (signedEnd : Z) : dec (name * Z) :=
  off <~ d_getOffset ;;
  if off <? endOffset then
    match fuel with
    | O => derr OutOfFuel
    | S fuel' => c <~ dec_comp ;; dec_name_loop fuel' endOffset (c :: acc) off
    end
  else dret (rev acc, signedEnd).

(** 894-926: _decodeName *)
Definition dec_name : dec (name * (Z * Z)) :=
  endOffset <~ d_readNestedTlvsStart 7 ;;
  begin <~ d_getOffset ;;
  r <~ dfuel (fun fuel => dec_name_loop fuel endOffset [] begin) ;;
  d_finishNestedTlvs endOffset false ;;;
  dret (fst r, (begin, snd r)).

(** 65-101: encodeName, decodeName *)
Definition encodeName (n : name) : bytes := fst (enc_name n []).
Definition decodeName (inp : bytes) : res name :=
  (r <-- dec_name inp 0 ;; Ok (fst (fst r)))%res.

(** ** KeyLocator *)
(** key_locator.py 37-52; KeyLocatorType KEYNAME = 1, KEY_LOCATOR_DIGEST = 2 *)
Record keyLocator : Type := KL { kl_type : option Z; kl_name : name; kl_data : option bytes }.
Definition kl_empty : keyLocator := KL None [] None.

(** 1196-1212: _encodeKeyLocator *)
Definition enc_keyLocator (type : Z) (kl : keyLocator) (out : bytes) : res bytes :=
  (let saveLength := zlen out in
   out1 <-- match kl_type kl with
            | None => Ok out
            | Some t =>
                if t =? 1 then Ok (fst (enc_name (kl_name kl) out))
                else if (t =? 2) && (0 <? match kl_data kl with Some d => zlen d | None => 0 end)
                then Ok (e_writeBlobTlv 29 (kl_data kl) out)
                else Err RuntimeError
            end ;;
   Ok (e_writeTypeAndLength type (zlen out1 - saveLength) out1))%res.

(** 1214-1236: _decodeKeyLocator *)
Definition dec_keyLocator (expectedType : Z) : dec keyLocator :=
  endOffset <~ d_readNestedTlvsStart expectedType ;;
  off <~ d_getOffset ;;
  if off =? endOffset then dret kl_empty
  else
    isName <~ d_peekType 7 endOffset ;;
    kl <~ (if isName : bool then n <~ dec_name ;; dret (KL (Some 1) (fst n) None)
           else
             isDigest <~ d_peekType 29 endOffset ;;
             if isDigest : bool then d <~ d_readBlobTlv 29 ;; dret (KL (Some 2) [] (Some d))
             else derr RuntimeError) ;;
    d_finishNestedTlvs endOffset false ;;;
    dret kl.

(** ** Exclude *)
(** exclude.py 46-89: entries *)
Inductive exentry : Type := ExAny | ExComp (c : comp).

(** 986-1004: _encodeExclude *)
Definition enc_exentry (e : exentry) (out : bytes) : bytes :=
  match e with ExComp c => enc_comp c out | ExAny => e_writeTypeAndLength 19 0 out end.
Definition enc_exclude (ex : list exentry) (out : bytes) : bytes :=
  let saveLength := zlen out in
  let out1 := fold_left (fun o e => enc_exentry e o) (rev ex) out in
  e_writeTypeAndLength 16 (zlen out1 - saveLength) out1.

(** 1006-1020: _decodeExclude *)
Fixpoint dec_exclude_loop (fuel : nat) (endOffset : Z) (acc : list exentry) : dec (list exentry) :=
  off <~ d_getOffset ;;
  if off <? endOffset then
    match fuel with
    | O => derr OutOfFuel
    | S fuel' =>
        isAny <~ d_peekType 19 endOffset ;;
        if isAny : bool then d_readBooleanTlv 19 endOffset ;;; dec_exclude_loop fuel' endOffset (ExAny :: acc)
        else c <~ dec_comp ;; dec_exclude_loop fuel' endOffset (ExComp c :: acc)
    end
  else dret (rev acc).
Definition dec_exclude : dec (list exentry) :=
  endOffset <~ d_readNestedTlvsStart 16 ;;
  ex <~ dfuel (fun fuel => dec_exclude_loop fuel endOffset []) ;;
  d_finishNestedTlvs endOffset false ;;;
  dret ex.

(** ** MetaInfo *)
(** meta_info.py 157-166. ContentType BLOB 0, LINK 1, KEY 2, NACK 3, OTHER_CODE 0x7fff.
    Simplification: the freshness period (a float) is an integer. *)
Record metaInfo : Type := MI { mi_type : Z; mi_other : Z; mi_freshness : option Z; mi_final : comp }.
Definition mi_empty : metaInfo := MI 0 (-1) None (c_generic []).

(** 1022-1054: _encodeMetaInfo *)
Definition enc_metaInfo (mi : metaInfo) (out : bytes) : res bytes :=
  (let saveLength := zlen out in
   let out1 := if 0 <? zlen (c_value (mi_final mi)) then
                 let o := enc_comp (mi_final mi) out in e_writeTypeAndLength 26 (zlen o - zlen out) o
               else out in
   out2 <-- e_writeOptionalNonNegativeIntegerTlvFromFloat 25 (mi_freshness mi) out1 ;;
   out3 <-- (if negb (mi_type mi =? 0) then
               if (mi_type mi =? 1) || (mi_type mi =? 2) || (mi_type mi =? 3)
               then e_writeNonNegativeIntegerTlv 24 (mi_type mi) out2
               else if mi_type mi =? 32767 then e_writeNonNegativeIntegerTlv 24 (mi_other mi) out2
               else Err RuntimeError
             else Ok out2) ;;
   Ok (e_writeTypeAndLength 20 (zlen out3 - saveLength) out3))%res.

(** 1056-1087: _decodeMetaInfo. [prev] is the MetaInfo object decoded into:
    setType does not reset the other type code. *)
Definition dec_metaInfo (prev : metaInfo) : dec metaInfo :=
  endOffset <~ d_readNestedTlvsStart 20 ;;
  typeCode <~ d_readOptionalNonNegativeIntegerTlv 24 endOffset ;;
  let '(ty, other) :=
    match typeCode with
    | None => (0, mi_other prev)
    | Some t =>
        if (t <? 0) || (t =? 0) then (0, mi_other prev)
        else if (t =? 1) || (t =? 2) || (t =? 3) then (t, mi_other prev)
        else (32767, t)
    end in
  fresh <~ d_readOptionalNonNegativeIntegerTlvAsFloat 25 endOffset ;;
  isFinal <~ d_peekType 26 endOffset ;;
  final <~ (if isFinal : bool then
              e <~ d_readNestedTlvsStart 26 ;;
              c <~ dec_comp ;;
              d_finishNestedTlvs e false ;;;
              dret c
            else dret (c_generic [])) ;;
  d_finishNestedTlvs endOffset false ;;;
  dret (MI ty other fresh final).

(** ** ValidityPeriod *)
(** validity_period.py 48-142. Simplification: times (floats of milliseconds) are
    integers; the "not specified" values 1e37 and -1e37 are integers too. *)
Record validity : Type := VP { vp_notBefore : Z; vp_notAfter : Z }.
Definition VP_INF : Z := 10 ^ 37.
Definition vp_none : validity := VP VP_INF (- VP_INF).
Definition vp_hasPeriod (v : validity) : bool := negb ((vp_notBefore v =? VP_INF) && (vp_notAfter v =? - VP_INF)).
(** validity_period.py 104-122: setPeriod. [math.ceil(x / 1000.0) * 1000.0]; the float
    division is exact enough for |x| < 2^52 (differences of 1/1000 are visible). *)
Definition ceil1000 (x : Z) : Z := - ((- x) / 1000) * 1000.
Definition floor1000 (x : Z) : Z := x / 1000 * 1000.
Definition vp_setPeriod (notBefore notAfter : Z) : validity := VP (ceil1000 notBefore) (floor1000 notAfter).
(** validity_period.py 124-142: isValid with an explicit time *)
Definition vp_isValid (v : validity) (time : Z) : bool := (vp_notBefore v <=? time) && (time <=? vp_notAfter v).

(** 1238-1249: _encodeValidityPeriod *)
Definition enc_validity (v : validity) (out : bytes) : res bytes :=
  (let saveLength := zlen out in
   na <-- toIsoString (vp_notAfter v) ;;
   let out1 := e_writeBlobTlv 255 (Some na) out in
   nb <-- toIsoString (vp_notBefore v) ;;
   let out2 := e_writeBlobTlv 254 (Some nb) out1 in
   Ok (e_writeTypeAndLength 253 (zlen out2 - saveLength) out2))%res.

(** blob.py 298-316: str(blob): UTF-8 decoding. Simplification: any non-ASCII byte is
    an error (UnicodeDecodeError is a ValueError; a valid UTF-8 string with non-ASCII
    characters is rejected later by fromIsoString unless it spells digits of another script). *)
Definition blob_str (b : bytes) : res (list Z) := if forallb (fun x => x <? 128) b then Ok b else Err ValueError.

(** 1251-1268: _decodeValidityPeriod *)
Definition dec_validity : dec validity :=
  endOffset <~ d_readNestedTlvsStart 253 ;;
  b <~ d_readBlobTlv 254 ;;
  nb <~ dlift (s <-- blob_str b ;; fromIsoString s)%res ;;
  a <~ d_readBlobTlv 255 ;;
  na <~ dlift (s <-- blob_str a ;; fromIsoString s)%res ;;
  d_finishNestedTlvs endOffset false ;;;
  dret (vp_setPeriod nb na).

(** ** Signatures *)
(** sha256_with_rsa_signature.py, sha256_with_ecdsa_signature.py, hmac_with_sha256_signature.py,
    digest_sha256_signature.py, generic_signature.py: the fields of each class. *)
Inductive signature : Type :=
| SigRsa (kl : keyLocator) (vp : validity) (bits : option bytes)
| SigEcdsa (kl : keyLocator) (vp : validity) (bits : option bytes)
| SigHmac (kl : keyLocator) (bits : option bytes)
| SigDigest (bits : option bytes)
| SigGeneric (encoding : option bytes) (typeCode : option Z) (bits : option bytes).
Definition sig_bits (s : signature) : option bytes :=
  match s with SigRsa _ _ b => b | SigEcdsa _ _ b => b | SigHmac _ b => b | SigDigest b => b | SigGeneric _ _ b => b end.
(** setSignature of each class *)
Definition sig_setBits (s : signature) (b : option bytes) : signature :=
  match s with
  | SigRsa k v _ => SigRsa k v b | SigEcdsa k v _ => SigEcdsa k v b | SigHmac k _ => SigHmac k b
  | SigDigest _ => SigDigest b | SigGeneric e t _ => SigGeneric e t b
  end.

(** 1102-1112: the test decoding of a GenericSignature; ValueError is re-raised as ValueError *)
Definition generic_check : dec unit :=
  endOffset <~ d_readNestedTlvsStart 22 ;;
  d_readNonNegativeIntegerTlv 27 ;;;
  d_finishNestedTlvs endOffset true.

(** 1089-1149: _encodeSignatureInfo *)
Definition enc_sigInfo (s : signature) (out : bytes) : res bytes :=
  (match s with
   | SigGeneric (Some encoding) _ _ => u <-- generic_check encoding 0 ;; Ok (e_writeBuffer (Some encoding) out)
   | SigGeneric None _ _ => Err TypeError
   | _ =>
       let saveLength := zlen out in
       out1 <-- match s with
                | SigRsa kl vp _ =>
                    o <-- (if vp_hasPeriod vp then enc_validity vp out else Ok out) ;;
                    o <-- enc_keyLocator 28 kl o ;;
                    e_writeNonNegativeIntegerTlv 27 1 o
                | SigEcdsa kl vp _ =>
                    o <-- (if vp_hasPeriod vp then enc_validity vp out else Ok out) ;;
                    o <-- enc_keyLocator 28 kl o ;;
                    e_writeNonNegativeIntegerTlv 27 3 o
                | SigHmac kl _ =>
                    o <-- enc_keyLocator 28 kl out ;;
                    e_writeNonNegativeIntegerTlv 27 4 o
                | _ => e_writeNonNegativeIntegerTlv 27 0 out
                end ;;
       Ok (e_writeTypeAndLength 22 (zlen out1 - saveLength) out1)
   end)%res.

(** 1151-1194: _decodeSignatureInfo; the signature bits are null in the new object *)
Definition dec_sigInfo : dec signature :=
  beginOffset <~ d_getOffset ;;
  endOffset <~ d_readNestedTlvsStart 22 ;;
  t <~ d_readNonNegativeIntegerTlv 27 ;;
  s <~ (if (t =? 1) || (t =? 3) then
          kl <~ dec_keyLocator 28 ;;
          hasV <~ d_peekType 253 endOffset ;;
          vp <~ (if hasV : bool then dec_validity else dret vp_none) ;;
          dret (if t =? 1 then SigRsa kl vp None else SigEcdsa kl vp None)
        else if t =? 4 then kl <~ dec_keyLocator 28 ;; dret (SigHmac kl None)
        else if t =? 0 then dret (SigDigest None)
        else
          e <~ d_getSlice beginOffset endOffset ;;
          d_finishNestedTlvs endOffset true ;;;
          dret (SigGeneric (Some e) (Some t) None)) ;;
  d_finishNestedTlvs endOffset false ;;;
  dret s.

(** ** DelegationSet *)
(** delegation_set.py 50-97: (preference, name) *)
Definition delegation : Type := (Z * name)%type.

(** 1382-1402: _encodeDelegationSet *)
Definition enc_delegation (d : delegation) (out : bytes) : res bytes :=
  (let saveLength := zlen out in
   let out1 := fst (enc_name (snd d) out) in
   out2 <-- e_writeNonNegativeIntegerTlv 30 (fst d) out1 ;;
   Ok (e_writeTypeAndLength 31 (zlen out2 - saveLength) out2))%res.
Definition enc_delegationSet (ds : list delegation) (out : bytes) : res bytes :=
  fold_left (fun r d => (o <-- r ;; enc_delegation d o)%res) (rev ds) (Ok out).

(** 1404-1430: _decodeDelegationSet (each delegation's own length is not used) *)
Fixpoint dec_ds_loop (fuel : nat) (endOffset : Z) (acc : list delegation) : dec (list delegation) :=
  off <~ d_getOffset ;;
  if off <? endOffset then
    match fuel with
    | O => derr OutOfFuel
    | S fuel' =>
        d_readTypeAndLength 31 ;;;
        preference <~ d_readNonNegativeIntegerTlv 30 ;;
        n <~ dec_name ;;
        dec_ds_loop fuel' endOffset ((preference, fst n) :: acc)
    end
  else dret (rev acc).
Definition dec_delegationSet (endOffset : Z) : dec (list delegation) :=
  dfuel (fun fuel => dec_ds_loop fuel endOffset []).

(** ** Interest *)
(** interest.py 40-89: the fields that take part in encoding. [i_nonce] is what getNonce()
    returns. Simplifications: the lifetime (a float) is an integer; a Link object is
    represented by its wire encoding. *)
Record interest : Type := Interest {
  i_name : name; i_min : option Z; i_max : option Z; i_keyLocator : keyLocator; i_exclude : list exentry;
  i_child : option Z; i_mustBeFresh : bool; i_nonce : option bytes; i_lifetime : option Z;
  i_hint : list delegation; i_params : option bytes; i_link : option bytes; i_selected : option Z }.
Definition i_empty : interest := Interest [] None None kl_empty [] None false None None [] None None None.

Definition blob_size (b : option bytes) : Z := match b with Some v => zlen v | None => 0 end.

(** 928-953: _encodeSelectors *)
Definition enc_selectors (i : interest) (out : bytes) : res bytes :=
  (let saveLength := zlen out in
   let o := if i_mustBeFresh i then e_writeTypeAndLength 18 0 out else out in
   o <-- e_writeOptionalNonNegativeIntegerTlv 17 (i_child i) o ;;
   let o := if 0 <? zlen (i_exclude i) then enc_exclude (i_exclude i) o else o in
   o <-- match kl_type (i_keyLocator i) with Some _ => enc_keyLocator 15 (i_keyLocator i) o | None => Ok o end ;;
   o <-- e_writeOptionalNonNegativeIntegerTlv 14 (i_max i) o ;;
   o <-- e_writeOptionalNonNegativeIntegerTlv 13 (i_min i) o ;;
   if negb (zlen o =? saveLength) then Ok (e_writeTypeAndLength 9 (zlen o - saveLength) o) else Ok o)%res.

(** 163-184 and 1461-1482: the four nonce bytes; [rnd] are the random bytes drawn
    (one for each of the four positions). *)
Definition nonce4 (rnd : list Z) (nonce : option bytes) : bytes :=
  match nonce with
  | None => firstn 4 rnd
  | Some n =>
      if zlen n =? 0 then firstn 4 rnd
      else if zlen n <? 4 then n ++ skipn (length n) (firstn 4 rnd)
      else if zlen n =? 4 then n
      else firstn 4 n
  end.

(** 138-150 and 1484-1496: the forwarding hint *)
Definition enc_hint (i : interest) (out : bytes) : res bytes :=
  (if 0 <? zlen (i_hint i) then
     match i_selected i, i_link i with
     | Some _, _ => Err RuntimeError
     | None, Some _ => Err RuntimeError
     | None, None =>
         o <-- enc_delegationSet (i_hint i) out ;;
         Ok (e_writeTypeAndLength 30 (zlen o - zlen out) o)
     end
   else Ok out)%res.

(** 134-201: the v0.2 part of encodeInterest *)
Definition encodeInterestV02 (rnd : list Z) (i : interest) : res (bytes * (Z * Z)) :=
  (o <-- enc_hint i [] ;;
   o <-- e_writeOptionalNonNegativeIntegerTlv 32 (i_selected i) o ;;
   let o := e_writeBuffer (i_link i) o in
   o <-- e_writeOptionalNonNegativeIntegerTlvFromFloat 12 (i_lifetime i) o ;;
   let o := e_writeBlobTlv 10 (Some (nonce4 rnd (i_nonce i))) o in
   o <-- enc_selectors i o ;;
   let '(o, (tb, te)) := enc_name (i_name i) o in
   let beginFromBack := zlen o - tb in
   let endFromBack := zlen o - te in
   let o := e_writeTypeAndLength 5 (zlen o) o in
   Ok (o, (zlen o - beginFromBack, zlen o - endFromBack)))%res.

(** interest.py 146-156: getCanBePrefix *)
Definition i_canBePrefix (i : interest) : bool := match i_max i with Some m => negb (m =? 1) | None => true end.

(** 1432-1516: _encodeInterestV03 *)
Definition encodeInterestV03 (rnd : list Z) (i : interest) : res (bytes * (Z * Z)) :=
  (let o := e_writeOptionalBlobTlv 36 (i_params i) [] in
   o <-- e_writeOptionalNonNegativeIntegerTlvFromFloat 12 (i_lifetime i) o ;;
   let o := e_writeBlobTlv 10 (Some (nonce4 rnd (i_nonce i))) o in
   o <-- enc_hint i o ;;
   let o := if i_mustBeFresh i then e_writeTypeAndLength 18 0 o else o in
   let o := if i_canBePrefix i then e_writeTypeAndLength 33 0 o else o in
   let '(o, (tb, te)) := enc_name (i_name i) o in
   let beginFromBack := zlen o - tb in
   let endFromBack := zlen o - te in
   let o := e_writeTypeAndLength 5 (zlen o) o in
   Ok (o, (zlen o - beginFromBack, zlen o - endFromBack)))%res.

(** 103-132: encodeInterest: v0.3 when there are application parameters *)
Definition encodeInterest (rnd : list Z) (i : interest) : res (bytes * (Z * Z)) :=
  if 0 <? blob_size (i_params i) then encodeInterestV03 rnd i else encodeInterestV02 rnd i.

(** 955-984: _decodeSelectors: min, max, key locator, exclude, child, mustBeFresh *)
Definition selectors : Type := (option Z * option Z * keyLocator * list exentry * option Z * bool)%type.
Definition no_selectors : selectors := (None, None, kl_empty, [], None, false).
Definition dec_selectors : dec selectors :=
  endOffset <~ d_readNestedTlvsStart 9 ;;
  mn <~ d_readOptionalNonNegativeIntegerTlv 13 endOffset ;;
  mx <~ d_readOptionalNonNegativeIntegerTlv 14 endOffset ;;
  isKl <~ d_peekType 15 endOffset ;;
  kl <~ (if isKl : bool then dec_keyLocator 15 else dret kl_empty) ;;
  isEx <~ d_peekType 16 endOffset ;;
  ex <~ (if isEx : bool then dec_exclude else dret []) ;;
  child <~ d_readOptionalNonNegativeIntegerTlv 17 endOffset ;;
  fresh <~ d_readBooleanTlv 18 endOffset ;;
  d_finishNestedTlvs endOffset false ;;;
  dret (mn, mx, kl, ex, child, fresh).

(** 264-270, 1554-1560: the forwarding hint; [absent] is the value kept when there is none *)
Definition dec_hint (endOffset : Z) (absent : list delegation) : dec (list delegation) :=
  isFh <~ d_peekType 30 endOffset ;;
  if isFh : bool then
    fhEnd <~ d_readNestedTlvsStart 30 ;;
    ds <~ dec_delegationSet fhEnd ;;
    d_finishNestedTlvs fhEnd false ;;;
    dret ds
  else dret absent.

(** 272-283: the link object (a Data packet, kept as its wire encoding) *)
Definition dec_link (endOffset : Z) : dec (option bytes) :=
  isLink <~ d_peekType 6 endOffset ;;
  if isLink : bool then
    linkBegin <~ d_getOffset ;;
    linkEnd <~ d_readNestedTlvsStart 6 ;;
    d_seek linkEnd ;;;
    l <~ d_getSlice linkBegin linkEnd ;;
    dret (Some l)
  else dret None.

(** 239-297: _decodeInterestV02. [prev] is the object decoded into: a forwarding hint
    in it survives when the packet has none. *)
Definition dec_interestV02 (prev : interest) : dec (interest * (Z * Z)) :=
  endOffset <~ d_readNestedTlvsStart 5 ;;
  n <~ dec_name ;;
  isSel <~ d_peekType 9 endOffset ;;
  sel <~ (if isSel : bool then dec_selectors else dret no_selectors) ;;
  nonce <~ d_readBlobTlv 10 ;;
  lifetime <~ d_readOptionalNonNegativeIntegerTlvAsFloat 12 endOffset ;;
  hint <~ dec_hint endOffset (i_hint prev) ;;
  link <~ dec_link endOffset ;;
  selected <~ d_readOptionalNonNegativeIntegerTlv 32 endOffset ;;
  match selected, link with
  | Some _, None => derr RuntimeError
  | _, _ =>
      d_finishNestedTlvs endOffset false ;;;
      let '(mn, mx, kl, ex, child, fresh) := sel in
      dret (Interest (fst n) mn mx kl ex child fresh (Some nonce) lifetime hint None link selected, snd n)
  end.

(** 1518-1587: _decodeInterestV03. Every modelled field is assigned, so the object
    decoded into does not matter. *)
Definition dec_interestV03 : dec (interest * (Z * Z)) :=
  endOffset <~ d_readNestedTlvsStart 5 ;;
  n <~ dec_name ;;
  canBePrefix <~ d_readBooleanTlv 33 endOffset ;;
  fresh <~ d_readBooleanTlv 18 endOffset ;;
  hint <~ dec_hint endOffset [] ;;
  nonce <~ d_readOptionalBlobTlv 10 endOffset ;;
  lifetime <~ d_readOptionalNonNegativeIntegerTlvAsFloat 12 endOffset ;;
  d_readOptionalBlobTlv 34 endOffset ;;;
  params <~ d_readOptionalBlobTlv 36 endOffset ;;
  d_finishNestedTlvs endOffset false ;;;
  dret (Interest (fst n) None (if canBePrefix : bool then None else Some 1) kl_empty [] None fresh nonce lifetime hint
          params None None, snd n).

(** 203-237: decodeInterest: v0.2 first; if that raises, v0.3; if that raises too, the
    first exception. *)
Definition decodeInterest (prev : interest) (inp : bytes) : res (interest * (Z * Z)) :=
  match dec_interestV02 prev inp 0 with
  | Ok (r, _) => Ok r
  | Err e => match dec_interestV03 inp 0 with Ok (r, _) => Ok r | Err _ => Err e end
  end.

(** ** Data *)
(** data.py: the fields that take part in encoding *)
Record data : Type := Data { d_name : name; d_meta : metaInfo; d_content : option bytes; d_sig : signature }.

(** 299-336: encodeData *)
Definition encodeData (d : data) : res (bytes * (Z * Z)) :=
  (let o := e_writeBlobTlv 23 (sig_bits (d_sig d)) [] in
   let endFromBack := zlen o in
   o <-- enc_sigInfo (d_sig d) o ;;
   let o := e_writeBlobTlv 21 (d_content d) o in
   o <-- enc_metaInfo (d_meta d) o ;;
   let o := fst (enc_name (d_name d) o) in
   let beginFromBack := zlen o in
   let o := e_writeTypeAndLength 6 (zlen o) o in
   Ok (o, (zlen o - beginFromBack, zlen o - endFromBack)))%res.

(** 338-378: decodeData; [prev] is the object decoded into *)
Definition dec_data (prev : data) : dec (data * (Z * Z)) :=
  endOffset <~ d_readNestedTlvsStart 6 ;;
  begin <~ d_getOffset ;;
  n <~ dec_name ;;
  isMi <~ d_peekType 20 endOffset ;;
  mi <~ (if isMi : bool then dec_metaInfo (d_meta prev) else dret mi_empty) ;;
  content <~ d_readOptionalBlobTlv 21 endOffset ;;
  s <~ dec_sigInfo ;;
  endSigned <~ d_getOffset ;;
  bits <~ d_readBlobTlv 23 ;;
  d_finishNestedTlvs endOffset false ;;;
  dret (Data (fst n) mi content (sig_setBits s (Some bits)), (begin, endSigned)).
Definition decodeData (prev : data) (inp : bytes) : res (data * (Z * Z)) :=
  (r <-- dec_data prev inp 0 ;; Ok (fst r))%res.
