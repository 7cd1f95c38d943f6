(** * Model of the management and link formats: ControlParameters, ControlResponse,
    LpPacket, EncryptedContent, SignatureInfo/SignatureValue.

    python/pyndn/encoding/tlv_0_2_wire_format.py (line numbers without a file name refer
    to it). The optional C bindings are not modelled. *)
From Verif Require Import Base TlvModel NameModel UriModel CalModel WireModel BlobModel.
Local Open Scope dec_scope.

(** ** Registration options: registration_options.py 37-86 *)
(** The origin (not part of the flags) is not modelled. *)
Record regOptions : Type := RegOpt { ro_childInherit : bool; ro_capture : bool }.
Definition ro_default : regOptions := RegOpt true false.
(** registration_options.py 55-70: getNfdForwardingFlags *)
Definition ro_getFlags (r : regOptions) : Z :=
  let result := 0 in
  let result := if ro_childInherit r then Z.lor result 1 else result in
  if ro_capture r then Z.lor result 2 else result.
(** registration_options.py 72-86: setNfdForwardingFlags *)
Definition ro_setFlags (flags : Z) : regOptions :=
  RegOpt (negb (Z.land flags 1 =? 0)) (negb (Z.land flags 2 =? 0)).

(** ** ControlParameters: control_parameters.py 26-59 *)
(** Simplification: the expiration period (a float) is an integer. *)
Record controlParameters : Type := CP {
  cp_name : option name; cp_faceId : option Z; cp_uri : str; cp_localControlFeature : option Z;
  cp_origin : option Z; cp_cost : option Z; cp_flags : regOptions; cp_strategy : name; cp_expiration : option Z }.
Definition cp_empty : controlParameters := CP None None [] None None None ro_default [] None.

(** 1270-1310: _encodeControlParameters *)
Definition enc_cp (c : controlParameters) (out : bytes) : res bytes :=
  (let saveLength := zlen out in
   o <-- e_writeOptionalNonNegativeIntegerTlvFromFloat 109 (cp_expiration c) out ;;
   let o := if 0 <? zlen (cp_strategy c) then
              let o1 := fst (enc_name (cp_strategy c) o) in e_writeTypeAndLength 107 (zlen o1 - zlen o) o1
            else o in
   let flags := ro_getFlags (cp_flags c) in
   o <-- (if negb (flags =? ro_getFlags ro_default) then e_writeNonNegativeIntegerTlv 108 flags o else Ok o) ;;
   o <-- e_writeOptionalNonNegativeIntegerTlv 106 (cp_cost c) o ;;
   o <-- e_writeOptionalNonNegativeIntegerTlv 111 (cp_origin c) o ;;
   o <-- e_writeOptionalNonNegativeIntegerTlv 110 (cp_localControlFeature c) o ;;
   o <-- (if negb (zlen (cp_uri c) =? 0) then b <-- blob_of_str (cp_uri c) ;; Ok (e_writeBlobTlv 114 b o) else Ok o) ;;
   o <-- e_writeOptionalNonNegativeIntegerTlv 105 (cp_faceId c) o ;;
   let o := match cp_name c with Some n => fst (enc_name n o) | None => o end in
   Ok (e_writeTypeAndLength 104 (zlen o - saveLength) o))%res.

(** 1312-1380: _decodeControlParameters; the object is cleared first *)
Definition dec_cp : dec controlParameters :=
  endOffset <~ d_readNestedTlvsStart 104 ;;
  isName <~ d_peekType 7 endOffset ;;
  name <~ (if isName : bool then n <~ dec_name ;; dret (Some (fst n)) else dret None) ;;
  faceId <~ d_readOptionalNonNegativeIntegerTlv 105 endOffset ;;
  isUri <~ d_peekType 114 endOffset ;;
  uri <~ (if isUri : bool then b <~ d_readOptionalBlobTlv 114 endOffset ;; dlift (blob_to_str b) else dret []) ;;
  d_skipOptionalTlv 129 endOffset ;;;
  lcf <~ d_readOptionalNonNegativeIntegerTlv 110 endOffset ;;
  origin <~ d_readOptionalNonNegativeIntegerTlv 111 endOffset ;;
  cost <~ d_readOptionalNonNegativeIntegerTlv 106 endOffset ;;
  d_skipOptionalTlv 131 endOffset ;;;
  d_skipOptionalTlv 132 endOffset ;;;
  d_skipOptionalTlv 135 endOffset ;;;
  d_skipOptionalTlv 136 endOffset ;;;
  d_skipOptionalTlv 137 endOffset ;;;
  isFlags <~ d_peekType 108 endOffset ;;
  flags <~ (if isFlags : bool then f <~ d_readNonNegativeIntegerTlv 108 ;; dret (ro_setFlags f) else dret ro_default) ;;
  d_skipOptionalTlv 112 endOffset ;;;
  isStrategy <~ d_peekType 107 endOffset ;;
  strategy <~ (if isStrategy : bool then
                 strategyEnd <~ d_readNestedTlvsStart 107 ;;
                 n <~ dec_name ;;
                 d_finishNestedTlvs strategyEnd false ;;;
                 dret (fst n)
               else dret []) ;;
  expiration <~ d_readOptionalNonNegativeIntegerTlv 109 endOffset ;;
  d_finishNestedTlvs endOffset false ;;;
  dret (CP name faceId uri lcf origin cost flags strategy expiration).

(** 380-408: encodeControlParameters, decodeControlParameters *)
Definition encodeControlParameters (c : controlParameters) : res bytes := enc_cp c [].
Definition decodeControlParameters (inp : bytes) : res controlParameters := (r <-- dec_cp inp 0 ;; Ok (fst r))%res.

(** control_parameters.py 264-276: equals. The last operand of the conjunction names an
    attribute that does not exist (_expirationPerion). *)
Definition opt_eqb (a b : option Z) : bool :=
  match a, b with Some x, Some y => x =? y | None, None => true | _, _ => false end.
Definition onm_eqb (a b : option name) : bool :=
  match a, b with Some x, Some y => n_equals x y | None, None => true | _, _ => false end.
(** RegistrationOptions defines no __eq__: == of two objects is identity; two separate
    objects are never ==. [same] tells whether the two objects share their flags object. *)
Definition cp_equals (same : bool) (a b : controlParameters) : res bool :=
  if onm_eqb (cp_name a) (cp_name b) && opt_eqb (cp_faceId a) (cp_faceId b) && zlist_eqb (cp_uri a) (cp_uri b) &&
     opt_eqb (cp_localControlFeature a) (cp_localControlFeature b) && opt_eqb (cp_origin a) (cp_origin b) &&
     opt_eqb (cp_cost a) (cp_cost b) && same && n_equals (cp_strategy a) (cp_strategy b)
  then Err AttributeError else Ok false.

(** ** ControlResponse: control_response.py 40-56 *)
Record controlResponse : Type := CR { cr_code : option Z; cr_text : str; cr_body : option controlParameters }.
(** 429-456: encodeControlResponse; a null status code is compared with an integer: TypeError *)
Definition encodeControlResponse (r : controlResponse) : res bytes :=
  (o <-- match cr_body r with Some b => enc_cp b [] | None => Ok [] end ;;
   t <-- blob_of_str (cr_text r) ;;
   let o := e_writeBlobTlv 103 t o in
   o <-- match cr_code r with Some c => e_writeNonNegativeIntegerTlv 102 c o | None => Err TypeError end ;;
   Ok (e_writeTypeAndLength 101 (zlen o) o))%res.
(** 458-493: decodeControlResponse; the object is cleared first *)
Definition dec_cr : dec controlResponse :=
  endOffset <~ d_readNestedTlvsStart 101 ;;
  code <~ d_readNonNegativeIntegerTlv 102 ;;
  b <~ d_readBlobTlv 103 ;;
  text <~ dlift (blob_to_str (Some b)) ;;
  isBody <~ d_peekType 104 endOffset ;;
  body <~ (if isBody : bool then c <~ dec_cp ;; dret (Some c) else dret None) ;;
  d_finishNestedTlvs endOffset false ;;;
  dret (CR (Some code) text body).
Definition decodeControlResponse (inp : bytes) : res controlResponse := (r <-- dec_cr inp 0 ;; Ok (fst r))%res.

(** ** LpPacket *)
(** network_nack.py 26-94; NONE 0, CONGESTION 50, DUPLICATE 100, NO_ROUTE 150, OTHER_CODE 0x7fff *)
Record networkNack : Type := Nack { nk_reason : Z; nk_other : Z }.
(** lp/*.py: the header fields *)
Inductive lpField : Type := LpNack (n : networkNack) | LpFaceId (id : Z) | LpCongestion (mark : Z).
Record lpPacket : Type := LP { lp_fields : list lpField; lp_fragment : option bytes }.

(** 592-610: the reason of a Nack. An omitted NackReason is None: [None < 0] raises
    TypeError in Python 3. *)
Definition nack_of_code (code : option Z) : res networkNack :=
  match code with
  | None => Err TypeError
  | Some c =>
      if (c <? 0) || (c =? 0) then Ok (Nack 0 (-1))
      else if (c =? 50) || (c =? 100) || (c =? 150) then Ok (Nack c (-1))
      else Ok (Nack 32767 c)
  end.
(** 623-625: canIgnore *)
Definition lp_canIgnore (t : Z) : bool := (800 <=? t) && (t <=? 959) && (Z.land t 3 =? 0).

(** 576-632: the loop over the fields; the fragment ends it *)
Fixpoint dec_lp_loop (fuel : nat) (endOffset : Z) (acc : list lpField) : dec lpPacket :=
  off <~ d_getOffset ;;
  if off <? endOffset then
    match fuel with
    | O => derr OutOfFuel
    | S fuel' =>
        fieldType <~ d_readVarNumber ;;
        fieldLength <~ d_readVarNumber ;;
        start <~ d_getOffset ;;
        let fieldEnd := start + fieldLength in
        len <~ d_inputLength ;;
        if len <? fieldEnd then derr ValueError
        else if fieldType =? 80 then
          frag <~ d_getSlice start fieldEnd ;;
          d_seek fieldEnd ;;;
          dret (LP (rev acc) (Some frag))
        else
          acc' <~ (if fieldType =? 800 then
                     code <~ d_readOptionalNonNegativeIntegerTlv 801 fieldEnd ;;
                     n <~ dlift (nack_of_code code) ;;
                     dret (LpNack n :: acc)
                   else if fieldType =? 817 then
                     v <~ d_readNonNegativeInteger fieldLength ;; dret (LpFaceId v :: acc)
                   else if fieldType =? 832 then
                     v <~ d_readNonNegativeInteger fieldLength ;; dret (LpCongestion v :: acc)
                   else if lp_canIgnore fieldType then d_seek fieldEnd ;;; dret acc
                   else derr ValueError) ;;
          d_finishNestedTlvs fieldEnd false ;;;
          dec_lp_loop fuel' endOffset acc'
    end
  else dret (LP (rev acc) None).
(** 558-634: decodeLpPacket; the object is cleared first *)
Definition dec_lp : dec lpPacket :=
  endOffset <~ d_readNestedTlvsStart 100 ;;
  p <~ dfuel (fun fuel => dec_lp_loop fuel endOffset []) ;;
  d_finishNestedTlvs endOffset false ;;;
  dret p.
Definition decodeLpPacket (inp : bytes) : res lpPacket := (r <-- dec_lp inp 0 ;; Ok (fst r))%res.

(** node.py 711-752: _encodeLpNack; [w] is the wire encoding of the Interest *)
Definition encodeLpNack (w : bytes) (n : networkNack) : res bytes :=
  (let o := e_writeBlobTlv 80 (Some w) [] in
   reason <-- (if (nk_reason n =? 0) || (nk_reason n =? 50) || (nk_reason n =? 100) || (nk_reason n =? 150) then Ok (nk_reason n)
               else if nk_reason n =? 32767 then Ok (nk_other n)
               else Err RuntimeError) ;;
   let nackSaveLength := zlen o in
   o <-- e_writeNonNegativeIntegerTlv 801 reason o ;;
   let o := e_writeTypeAndLength 800 (zlen o - nackSaveLength) o in
   Ok (e_writeTypeAndLength 100 (zlen o) o))%res.
(** network_nack.py 96-111, lp/*.py: getFirstHeader *)
Fixpoint lp_firstNack (fs : list lpField) : option networkNack :=
  match fs with [] => None | LpNack n :: _ => Some n | _ :: fs' => lp_firstNack fs' end.

(** ** EncryptedContent: encrypt/encrypted_content.py 39-48, 199-207 *)
Record encryptedContent : Type := EC {
  ec_algorithm : option Z; ec_keyLocator : keyLocator; ec_iv : option bytes; ec_payload : option bytes; ec_payloadKey : option bytes }.
(** 674-700: encodeEncryptedContent; a null algorithm type is compared with an integer *)
Definition encodeEncryptedContent (e : encryptedContent) : res bytes :=
  (let o := e_writeBlobTlv 132 (ec_payload e) [] in
   let o := e_writeOptionalBlobTlv 133 (ec_iv e) o in
   o <-- match ec_algorithm e with Some a => e_writeNonNegativeIntegerTlv 131 a o | None => Err TypeError end ;;
   o <-- enc_keyLocator 28 (ec_keyLocator e) o ;;
   Ok (e_writeTypeAndLength 130 (zlen o) o))%res.
(** 702-730: decodeEncryptedContent; the object is cleared *)
Definition dec_ec : dec encryptedContent :=
  endOffset <~ d_readNestedTlvsStart 130 ;;
  kl <~ dec_keyLocator 28 ;;
  a <~ d_readNonNegativeIntegerTlv 131 ;;
  iv <~ d_readOptionalBlobTlv 133 endOffset ;;
  p <~ d_readBlobTlv 132 ;;
  d_finishNestedTlvs endOffset false ;;;
  dret (EC (Some a) kl iv (Some p) None).
Definition decodeEncryptedContent (inp : bytes) : res encryptedContent := (r <-- dec_ec inp 0 ;; Ok (fst r))%res.
(** 732-760: encodeEncryptedContentV2 *)
Definition encodeEncryptedContentV2 (e : encryptedContent) : bytes :=
  let o := match kl_type (ec_keyLocator e) with
           | Some t => if t =? 1 then fst (enc_name (kl_name (ec_keyLocator e)) []) else []
           | None => [] end in
  let o := e_writeOptionalBlobTlv 134 (ec_payloadKey e) o in
  let o := e_writeOptionalBlobTlv 133 (ec_iv e) o in
  let o := e_writeBlobTlv 132 (ec_payload e) o in
  e_writeTypeAndLength 130 (zlen o) o.
(** 762-795: decodeEncryptedContentV2 *)
Definition dec_ec2 : dec encryptedContent :=
  endOffset <~ d_readNestedTlvsStart 130 ;;
  p <~ d_readBlobTlv 132 ;;
  iv <~ d_readOptionalBlobTlv 133 endOffset ;;
  pk <~ d_readOptionalBlobTlv 134 endOffset ;;
  isName <~ d_peekType 7 endOffset ;;
  kl <~ (if isName : bool then n <~ dec_name ;; dret (KL (Some 1) (fst n) None) else dret kl_empty) ;;
  d_finishNestedTlvs endOffset false ;;;
  dret (EC None kl iv (Some p) pk).
Definition decodeEncryptedContentV2 (inp : bytes) : res encryptedContent := (r <-- dec_ec2 inp 0 ;; Ok (fst r))%res.

(** ** SignatureInfo and SignatureValue as separate encodings *)
(** 410-427: encodeSignatureInfo *)
Definition encodeSignatureInfo (s : signature) : res bytes := enc_sigInfo s [].
(** 537-556: encodeSignatureValue *)
Definition encodeSignatureValue (s : signature) : bytes := e_writeBlobTlv 23 (sig_bits s) [].
(** 502-535: decodeSignatureInfoAndValue *)
Definition decodeSignatureInfoAndValue (info value : bytes) : res signature :=
  (s <-- dec_sigInfo info 0 ;;
   v <-- d_readBlobTlv 23 value 0 ;;
   Ok (sig_setBits (fst s) (Some (fst v))))%res.
