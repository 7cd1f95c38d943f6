(** * Property C47: SignatureInfo and SignatureValue as separate encodings *)
From Verif Require Import Base BaseLemmas TlvModel TlvSpec TlvProofs TlvDecProofs NameModel NameSpec NameProofs UriModel CalModel CalProofs WireModel WireSpec
  WireProofs WireProofs2 WireProofs3 WireProofs4 WireProofs5 WireProps WireSafety CtlModel CtlProofs.
From Coq Require Import ZifyBool.
Local Open Scope res_scope.

(** The info and the value decode together to the signature (its key locator as seen by
    the decoder: a key locator without type is empty). *)
Theorem C47_round_trip : forall s, sig_ok s -> zlen (siginfo s) < 2 ^ 64 -> zlen (encodeSignatureValue s) < 2 ^ 64 ->
  encodeSignatureInfo s = Ok (siginfo s) /\
  decodeSignatureInfoAndValue (siginfo s) (encodeSignatureValue s) =
    Ok (sig_setBits (sig_seen s) (Some (match sig_bits s with Some b => b | None => [] end))).
Proof.
  intros s H L1 L2. destruct (sig_ok_el s H) as (v & E & Enc & Dec).
  assert (E1 : siginfo s = elems [(22, v)]) by (rewrite E, elems_cons, elems_nil, app_nil_r; reflexivity).
  split.
  - unfold encodeSignatureInfo. rewrite Enc, app_nil_r, E1. reflexivity.
  - unfold decodeSignatureInfoAndValue. rewrite E1 in *.
    assert (S : small [(22, v)]) by (apply small_of_len; [constructor; [cbn [fst]; unfold u64; lia|constructor]|exact L1]).
    rewrite (Dec _ 0 _ [] (At_whole _ S)). cbn [rbind fst].
    unfold encodeSignatureValue in *. rewrite e_blobTlv_tlv in * by lia. rewrite app_nil_r in *.
    set (b := match sig_bits s with Some b => b | None => [] end) in *.
    assert (E2 : tlv 23 b = elems [(23, b)]) by (rewrite elems_cons, elems_nil, app_nil_r; reflexivity). rewrite E2 in *.
    assert (S2 : small [(23, b)]) by (apply small_of_len; [constructor; [cbn [fst]; unfold u64; lia|constructor]|exact L2]).
    rewrite (At_blob _ _ _ _ _ _ (At_whole _ S2)). cbn [rbind fst]. destruct (sig_seen s); reflexivity.
Qed.
(** Nothing is lost when the signature has a value and its key locator a type. *)
Theorem C47_all_fields : forall s, (exists b, sig_bits s = Some b) ->
  (match s with SigRsa k _ _ | SigEcdsa k _ _ | SigHmac k _ => kl_seen k = k | _ => True end) ->
  sig_setBits (sig_seen s) (Some (match sig_bits s with Some b => b | None => [] end)) = s.
Proof. intros s (b & E) K. destruct s; cbn in *; subst; try rewrite K; reflexivity. Qed.
(** On arbitrary bytes the decoder returns a signature or raises a decoding error. *)
Theorem C47_safe : forall info value, bytes_ok info -> bytes_ok value ->
  match decodeSignatureInfoAndValue info value with Ok _ => True | Err e => decode_error e end.
Proof.
  intros info value B1 B2. unfold decodeSignatureInfoAndValue.
  pose proof (safe_sigInfo info 0 B1 ltac:(pose proof (zlen_nonneg _ info); lia)) as P. destruct (dec_sigInfo info 0) as [[s o]|e]; [|exact P]. cbn [rbind].
  pose proof (safe_readBlob 23 value 0 B2 ltac:(pose proof (zlen_nonneg _ value); lia)) as P2. destruct (d_readBlobTlv 23 value 0) as [[b o2]|e]; [exact I|exact P2].
Qed.
Example C47_ex : sig_ok (d_sig ex_data) /\ exists i, encodeSignatureInfo (d_sig ex_data) = Ok i /\
  decodeSignatureInfoAndValue i (encodeSignatureValue (d_sig ex_data)) = Ok (d_sig ex_data).
Proof. split; [apply ex_data_ok|]. eexists. split; [vm_compute; reflexivity|vm_compute; reflexivity]. Qed.
Print Assumptions C47_round_trip.
Print Assumptions C47_all_fields.
Print Assumptions C47_safe.
