(** * Model of the packet encryption of name-based access control (version 1).

    python/pyndn/encrypt/algo/encryptor.py.

    The ciphers are external libraries: [rsa_enc key payload algorithm random] is
    RsaAlgorithm.encrypt, where the outcome [TooLong] stands for the ValueError whose message
    contains "Data too long for key size"; [aes_enc key payload algorithm iv] is
    AesAlgorithm.encrypt.  The random choices are arguments. *)
From Verif Require Import Base NameModel WireModel CtlModel.
Local Open Scope res_scope.

Inductive rsa_out : Type := Sealed (c : bytes) | TooLong | RsaError (e : exn).

(** encrypt_params.py (EncryptAlgorithmType) *)
Definition ALG_AES_ECB : Z := 0.
Definition ALG_AES_CBC : Z := 1.
Definition ALG_RSA_PKCS : Z := 2.
Definition ALG_RSA_OAEP : Z := 3.

(** encryptor.py 41-47 *)
Definition N_FOR : comp := c_generic [70; 79; 82].
Definition N_READ : comp := c_generic [82; 69; 65; 68].
Definition N_SAMPLE : comp := c_generic [83; 65; 77; 80; 76; 69].
Definition N_ACCESS : comp := c_generic [65; 67; 67; 69; 83; 83].
Definition N_E_KEY : comp := c_generic [69; 45; 75; 69; 89].
Definition N_D_KEY : comp := c_generic [68; 45; 75; 69; 89].
Definition N_C_KEY : comp := c_generic [67; 45; 75; 69; 89].
(** encryptor.py 98 *)
Definition N_nonce : comp := c_generic [110; 111; 110; 99; 101].

(** The random choices of one encryptData: of the RSA padding (first and second try), the 16
    bytes of the nonce key, the 16 bytes of its initial vector *)
Record rnd : Type := Rnd { r_pad1 : Z; r_pad2 : Z; r_nonce : bytes; r_iv : bytes }.

Section Enc.
Variable rsa_enc : bytes -> bytes -> Z -> Z -> rsa_out.
Variable aes_enc : bytes -> bytes -> Z -> bytes -> res bytes.

(** encryptor.py 120-154: _encryptSymmetric.  The params are the algorithm and the initial
    vector (a null Blob has size 0). *)
Definition encryptSymmetric (payload key : bytes) (keyName : name) (alg : Z) (iv : option bytes) : res encryptedContent :=
  let ivb := match iv with Some b => b | None => [] end in
  if (alg =? ALG_AES_CBC) || (alg =? ALG_AES_ECB) then
    if (alg =? ALG_AES_CBC) && negb (zlen ivb =? 16) then Err RuntimeError
    else
      c <-- aes_enc key payload alg ivb ;;
      Ok (EC (Some alg) (KL (Some 1) keyName None) iv (Some c) None)
  else Err RuntimeError.

(** encryptor.py 179-183: the content made from the encrypted payload *)
Definition asymContent (alg : Z) (keyName : name) (c : bytes) : encryptedContent :=
  EC (Some alg) (KL (Some 1) keyName None) None (Some c) None.

(** encryptor.py 49-118: encryptData; the content of the packet.  (_encryptAsymmetric, 156-185,
    is inlined: the algorithm is one of the two it supports.)  The second RSA encryption may
    raise the "too long" ValueError too. *)
Definition encryptContent (payload : bytes) (keyName : name) (key : bytes) (alg : Z) (iv : option bytes) (r : rnd) : res bytes :=
  if (alg =? ALG_AES_CBC) || (alg =? ALG_AES_ECB) then
    e <-- encryptSymmetric payload key keyName alg iv ;; encodeEncryptedContent e
  else if (alg =? ALG_RSA_PKCS) || (alg =? ALG_RSA_OAEP) then
    match rsa_enc key payload alg (r_pad1 r) with
    | Sealed c => encodeEncryptedContent (asymContent alg keyName c)
    | RsaError e => Err e
    | TooLong =>
        nonceContent <-- encryptSymmetric payload (r_nonce r) (keyName ++ [N_nonce]) ALG_AES_CBC (Some (r_iv r)) ;;
        c <-- match rsa_enc key (r_nonce r) alg (r_pad2 r) with Sealed c => Ok c | TooLong => Err ValueError | RsaError e => Err e end ;;
        nonceEncoding <-- encodeEncryptedContent nonceContent ;;
        payloadEncoding <-- encodeEncryptedContent (asymContent alg keyName c) ;;
        Ok (payloadEncoding ++ nonceEncoding)
    end
  else Err RuntimeError.

(** encryptor.py 68: the name of the packet, changed before anything else *)
Definition encryptedName (n keyName : name) : name := n ++ [N_FOR] ++ keyName.
End Enc.
