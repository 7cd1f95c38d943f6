(** * Model of encoding/protobuf_tlv.py: ProtobufTlv, NDN-TLV encoding of Protobuf messages.

    The Protobuf library (not in /repo) is modelled as data: a message type is the list of
    its field descriptors in the order of the .proto file (DESCRIPTOR.fields), a message is
    the list, in the same order, of the values present in each field. An optional or required
    field holds zero values (HasField false) or one; a repeated field holds any number.
    Simplifications: proto2 presence rules (HasField is allowed on every single field); a
    decode that raises is modelled by the exception only, not by the fields it already set. *)
From Verif Require Import Base NameModel TlvModel BlobModel.
Local Open Scope res_scope.

(** field.type; the argument of TMessage names the message type, that of TEnum lists the
    declared values. TOther stands for the types the code does not handle (int32, float...). *)
Inductive ftype : Type :=
| TMessage (t : Z) | TUint32 | TUint64 | TEnum (declared : list Z) | TBytes | TString | TBool | TOther.

(** field.label *)
Inductive flabel : Type := LOptional | LRequired | LRepeated.

Record field : Type := Field { f_number : Z; f_label : flabel; f_type : ftype }.

(** The message types: DESCRIPTOR.fields of each. Types may refer to each other and to themselves. *)
Definition schema : Type := Z -> list field.

Inductive pval : Type :=
| VMsg (m : list (list pval))
| VInt (n : Z)
| VBytes (b : bytes)
| VStr (s : str)
| VBool (b : bool).

Definition pmsg : Type := list (list pval).

(** A newly constructed message of the type with these fields. *)
Definition fresh (fs : list field) : pmsg := map (fun _ => []) fs.

Definition is_nil {A} (l : list A) : bool := match l with [] => true | _ => false end.

(** A sub-message counts as set in its parent when something was set in it (Protobuf's
    python runtime: reading an unset sub-message gives a linked empty one). *)
Definition touched (m : pmsg) : bool := existsb (fun vs => negb (is_nil vs)) m.

(** ** message.IsInitialized(): every required field is present, here and in every
    sub-message present. *)
Fixpoint init_val (sch : schema) (f : field) (v : pval) {struct v} : bool :=
  match f_type f, v with
  | TMessage t, VMsg m =>
      (fix go (fs : list field) (m : list (list pval)) {struct m} : bool :=
         match m with
         | [] => true
         | vs :: m' =>
             match fs with
             | [] => true
             | f :: fs' =>
                 (match f_label f with LRequired => negb (is_nil vs) | _ => true end)
                 && ((fix gov (vs : list pval) : bool :=
                        match vs with [] => true | v :: vs' => init_val sch f v && gov vs' end) vs)
                 && go fs' m'
             end
         end) (sch t) m
  | _, _ => true
  end.

Definition isInitialized (sch : schema) (t : Z) (m : pmsg) : bool :=
  init_val sch (Field 0 LOptional (TMessage t)) (VMsg m).

(** ** protobuf_tlv.py 96-137: _encodeMessageValue. The encoder writes backwards, so the loops
    over reversed(descriptor.fields) and reversed(values) write the last one first. *)
Fixpoint enc_val (sch : schema) (f : field) (v : pval) (out : bytes) {struct v} : res bytes :=
  match f_type f, v with
  | TMessage t, VMsg m =>                                             (* 115-121 *)
      out1 <-- (fix go (fs : list field) (m : list (list pval)) (out : bytes) {struct m} : res bytes :=
                  match m with
                  | [] => Ok out
                  | vs :: m' =>
                      match fs with
                      | [] => Ok out
                      | f :: fs' =>
                          out1 <-- go fs' m' out ;;
                          (fix gov (vs : list pval) (out : bytes) {struct vs} : res bytes :=
                             match vs with
                             | [] => Ok out
                             | v :: vs' => out2 <-- gov vs' out ;; enc_val sch f v out2
                             end) vs out1
                      end
                  end) (sch t) m out ;;
      Ok (e_writeTypeAndLength (f_number f) (zlen out1 - zlen out) out1)
  | TUint32, VInt n => e_writeNonNegativeIntegerTlv (f_number f) n out  (* 122-124 *)
  | TUint64, VInt n => e_writeNonNegativeIntegerTlv (f_number f) n out
  | TEnum _, VInt n =>                                                  (* 125-129 *)
      if n <? 0 then Err RuntimeError else e_writeNonNegativeIntegerTlv (f_number f) n out
  | TBytes, VBytes b => Ok (e_writeBlobTlv (f_number f) (Some b) out)   (* 130-132 *)
  | TString, VStr s => b <-- utf8_encode s ;; Ok (e_writeBlobTlv (f_number f) (Some b) out)
  | TBool, VBool b =>                                                   (* 133-135 *)
      if b then Ok (e_writeTypeAndLength (f_number f) 0 out) else Ok out
  | TOther, _ => Err RuntimeError                                       (* 136-137 *)
  | _, _ => Err TypeError
  end.

(** The same two loops, standing alone. *)
Fixpoint enc_values (sch : schema) (f : field) (vs : list pval) (out : bytes) : res bytes :=
  match vs with
  | [] => Ok out
  | v :: vs' => out2 <-- enc_values sch f vs' out ;; enc_val sch f v out2
  end.
Fixpoint enc_fields (sch : schema) (fs : list field) (m : pmsg) (out : bytes) {struct m} : res bytes :=
  match m with
  | [] => Ok out
  | vs :: m' =>
      match fs with
      | [] => Ok out
      | f :: fs' => out1 <-- enc_fields sch fs' m' out ;; enc_values sch f vs out1
      end
  end.

(** protobuf_tlv.py 42-58: ProtobufTlv.encode *)
Definition pt_encode (sch : schema) (t : Z) (m : pmsg) : res bytes :=
  if isInitialized sch t m then enc_fields sch (sch t) m [] else Err RuntimeError.

(** ** Decoding *)
Local Open Scope dec_scope.

(** setattr / append on a Protobuf field checks the value: the range of an integer field, the
    declared values of an enum. *)
Definition d_store (f : field) (v : pval) : dec pval :=
  match f_type f, v with
  | TUint32, VInt n => if (0 <=? n) && (n <? 2 ^ 32) then dret v else derr ValueError
  | TUint64, VInt n => if (0 <=? n) && (n <? 2 ^ 64) then dret v else derr ValueError
  | TEnum declared, VInt n => if existsb (Z.eqb n) declared then dret v else derr ValueError
  | _, _ => dret v
  end.

(** protobuf_tlv.py 173-196: _decodeFieldValue, and the store into the message. A string is
    made from one character per byte (192). *)
Definition dec_value (f : field) (endOffset : Z) : dec pval :=
  v <~ match f_type f with
       | TUint32 | TUint64 | TEnum _ => n <~ d_readNonNegativeIntegerTlv (f_number f) ;; dret (VInt n)
       | TBytes => b <~ d_readBlobTlv (f_number f) ;; dret (VBytes b)
       | TString => b <~ d_readBlobTlv (f_number f) ;; dret (VStr b)
       | TBool => b <~ d_readBooleanTlv (f_number f) endOffset ;; dret (VBool b)
       | _ => derr RuntimeError
       end ;;
  d_store f v.

(** protobuf_tlv.py 151-160: the loop of a repeated field. The bound is the number of input
    bytes: each round consumes at least two. *)
Fixpoint dec_repeat (fuel : nat) (one : dec pval) (tlvType endOffset : Z) (vs : list pval) : dec (list pval) :=
  b <~ d_peekType tlvType endOffset ;;
  if b : bool then
    match fuel with
    | O => derr OutOfFuel
    | S fuel' => v <~ one ;; dec_repeat fuel' one tlvType endOffset (vs ++ [v])
    end
  else dret vs.

(** The sub-message of a single field: the one present, or a linked empty one. *)
Definition current (fs : list field) (vs : list pval) : pmsg :=
  match vs with VMsg m :: _ => m | _ => fresh fs end.

(** protobuf_tlv.py 139-171: the body of the loop of _decodeMessageValue for one field.
    [sub] decodes the fields of a sub-message. *)
Definition dec_field (sub : list field -> pmsg -> Z -> dec pmsg) (sch : schema) (f : field) (vs : list pval)
  (endOffset : Z) : dec (list pval) :=
  match f_label f with
  | LRepeated => fun inp off =>
      dec_repeat (S (length inp))
        (match f_type f with
         | TMessage t =>
             inner <~ d_readNestedTlvsStart (f_number f) ;;
             m <~ sub (sch t) (fresh (sch t)) inner ;;
             d_finishNestedTlvs inner false ;;;
             dret (VMsg m)
         | _ => dec_value f endOffset
         end) (f_number f) endOffset vs inp off
  | l =>
      present <~ match l with LOptional => d_peekType (f_number f) endOffset | _ => dret true end ;;
      if present : bool then
        match f_type f with
        | TMessage t =>
            inner <~ d_readNestedTlvsStart (f_number f) ;;
            m <~ sub (sch t) (current (sch t) vs) inner ;;
            d_finishNestedTlvs inner false ;;;
            dret (if negb (is_nil vs) || touched m then [VMsg m] else [])
        | _ => v <~ dec_value f endOffset ;; dret [v]
        end
      else dret vs
  end.

(** protobuf_tlv.py 143-171: the loop over the fields, in the order of the descriptor. *)
Fixpoint dec_list (sub : list field -> pmsg -> Z -> dec pmsg) (sch : schema) (fs : list field) (m : pmsg)
  (endOffset : Z) : dec pmsg :=
  match fs with
  | [] => dret []
  | f :: fs' =>
      vs <~ dec_field sub sch f (hd [] m) endOffset ;;
      rest <~ dec_list sub sch fs' (tl m) endOffset ;;
      dret (vs :: rest)
  end.

(** protobuf_tlv.py 139-171: _decodeMessageValue. The bound on the nesting is the number of
    input bytes: a nested message has at least two bytes less. *)
Fixpoint dec_fields (fuel : nat) (sch : schema) (fs : list field) (m : pmsg) (endOffset : Z) {struct fuel} : dec pmsg :=
  match fuel with
  | O => derr OutOfFuel
  | S fuel' => dec_list (dec_fields fuel' sch) sch fs m endOffset
  end.

(** protobuf_tlv.py 60-74: ProtobufTlv.decode(message, input). The result is the message after
    the call; it is not cleared first. *)
Definition pt_decode (sch : schema) (t : Z) (m : pmsg) (input : bytes) : res pmsg :=
  match dec_fields (S (length input)) sch (sch t) m (zlen input) input 0 with
  | Ok (m', _) => Ok m'
  | Err e => Err e
  end.

(** protobuf_tlv.py 76-94: ProtobufTlv.toName *)
Definition pt_toName (componentArray : list bytes) : name := map c_generic componentArray.
