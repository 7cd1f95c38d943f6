(** * Model of the encoding of SafeBag (python/pyndn/security/safe_bag.py)

    A SafeBag is the certificate (a Data packet) and the private key bag (a Blob). *)
From Verif Require Import Base TlvModel NameModel WireModel.
Local Open Scope res_scope.

Record safeBag : Type := SafeBag { sb_certificate : data; sb_key : option bytes }.
(** data.py 47-53: Data() *)
Definition data_new : data := Data [] mi_empty None (SigRsa kl_empty vp_none None).
(** safe_bag.py 149-171: wireEncode *)
Definition sb_wireEncode (b : safeBag) : res bytes :=
  let o := e_writeBlobTlv 129 (sb_key b) [] in
  w <-- encodeData (sb_certificate b) ;;
  let o := e_writeBuffer (Some (fst w)) o in
  Ok (e_writeTypeAndLength 128 (zlen o) o).

Local Open Scope dec_scope.
(** safe_bag.py 120-147: wireDecode.  getSlice copies what the input has of the slice. *)
Definition dec_sb : dec safeBag :=
  endOffset <~ d_readNestedTlvsStart 128 ;;
  cb <~ d_getOffset ;;
  ce <~ d_readNestedTlvsStart 6 ;;
  d_seek ce ;;;
  s <~ d_getSlice cb ce ;;
  c <~ dlift (decodeData data_new s) ;;
  k <~ d_readBlobTlv 129 ;;
  d_finishNestedTlvs endOffset false ;;;
  dret (SafeBag (fst c) (Some k)).
Definition sb_wireDecode (inp : bytes) : res safeBag := (r <-- dec_sb inp 0 ;; Ok (fst r))%res.
