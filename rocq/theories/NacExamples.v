(** * C73, C74: DecryptorV2, concretely, and where it does not do what one may expect *)
From Verif Require Import Base BaseLemmas NameModel NameSpec NameProofs DictModel WireModel CtlModel HierModel HierSpec HierProps PibModel PibSpec FrontModel BagModel BagProps ChainModel ChainSpec ChainExamples BagChainModel BagChainProps NacModel NacSpec NacProps.

(** A toy RSA and AES: the cipher text carries the key. *)
Definition t_pdec (p : bool) (c : bytes) : res bytes := match c with x :: m => if x =? (if p then 1 else 2) then Ok m else Err ValueError | [] => Err ValueError end.
Definition t_penc (r : Z) (b m : bytes) : res bytes := match b with [48; x] => Ok (x :: m) | _ => Err ValueError end.
Definition t_cbc (key iv m : bytes) : res bytes := Ok (key ++ iv ++ m).
Definition t_cbc_inv (key iv c : bytes) : res bytes := if zlist_eqb (firstn (length (key ++ iv)) c) (key ++ iv) then Ok (skipn (length (key ++ iv)) c) else Err ValueError.
Definition t_bob : name := key_name [c_generic [98]] (c_generic [49]).
Notation t_drun := (d_run bool t_sign t_verify t_type t_load t_ord t_pdec t_cbc_inv t_bob (d_new (ChainSpec.begin bool t_ord [] []))).
Definition t_ck1 : name := [c_generic [99]; c_generic [1]].
Definition t_ck2 : name := [c_generic [99]; c_generic [2]].
Definition plain (n : name) (c : bytes) : data := Data n (MI 0 (-1) None (c_generic [])) (Some c) (SigDigest None).
(** Two CK Data, whose bits [5] and [6] are encrypted by the same KEK; the Data of the KDK; the contents *)
Definition t_ckdata (ck : name) (b : Z) : data := plain (ck_data_name ck t_alice (c_generic [50])) (encodeEncryptedContentV2 (EC None kl_empty None (Some [1; b]) None)).
Definition bag_wire : bytes := match sb_wireEncode ex_bag with Ok w => w | Err _ => [] end.
Definition t_kdkdata : data := plain (kdk_data_name t_alice (c_generic [50]) t_bob) (encodeEncryptedContentV2 (EC None kl_empty None (Some bag_wire) (Some [2; 8]))).
Definition t_cred (c : bytes) : res (option bytes) := rbind (t_pdec false c) (fun m => Ok (Some m)).
Definition t_content (ck : name) (b m : Z) : encryptedContent := EC None (KL (Some 1) ck None) (Some [0]) (Some (b :: 0 :: aes_pad [m])) None.
(** The CK is fetched, then the KDK; a second CK uses the same KDK. *)
Definition t_hist : list event :=
  [EDecrypt 1 (t_content t_ck1 5 77) (Some 11); EDecrypt 2 (t_content t_ck1 5 78) None; ETimeout 11 (Some 12); EData 12 (t_ckdata t_ck1 5) t_cred 0 (Some 13); EData 13 t_kdkdata t_cred 0 None;
   EDecrypt 3 (t_content t_ck1 5 79) None; EDecrypt 4 (t_content t_ck2 6 80) (Some 14); EData 14 (t_ckdata t_ck2 6) t_cred 0 None].
Ltac prop := split; [cbn; repeat constructor; cbn; intuition lia|split; [cbn; repeat constructor; cbn; intuition lia|split; [repeat constructor|]]];
  intros r e J; cbn in J; repeat (destruct J as [J|J]; [injection J as <- <-; apply validb_ok; reflexivity|]); destruct J.
Lemma t_hist_proper : proper t_hist.
Proof. unfold t_hist. prop. Qed.
Example C73_example : proper t_hist /\ k_tpm (ChainSpec.begin bool t_ord [] []) = Tpm [] [] /\ d_out (t_drun t_hist) =
  [Send 11 t_ck1 true false; Send 12 t_ck1 true false; Send 13 (kdk_data_name t_alice (c_generic [50]) t_bob) false true;
   Answer 1 (Success [77]); Answer 2 (Success [78]); Answer 3 (Success [79]); Send 14 t_ck2 true false; Answer 4 (Success [80])].
Proof. split; [exact t_hist_proper|]. split; [reflexivity|]. vm_compute. reflexivity. Qed.
(** When the CK is given up only the request that started the fetch is told: the others, earlier or
    later, are never answered, whatever happens, also by a shutdown
    (decryptor_v2.py 81-135: the ContentKey stays, nothing fetches it again). *)
Definition t_hist2 : list event := [EDecrypt 1 (t_content t_ck1 5 77) (Some 11); EDecrypt 2 (t_content t_ck1 5 78) None; ENack 11].
Theorem C73_every_request_refuted : exists l r e, proper l /\ In (r, e) (requests l) /\ usable e = true /\ forall l', proper (l ++ l') -> ~ answered (d_out (t_drun (l ++ l'))) r.
Proof.
  exists t_hist2, 2, (t_content t_ck1 5 78). split; [unfold t_hist2; prop|]. split; [cbn; auto|]. split; [reflexivity|]. intros l' Pr.
  refine (proj1 (C73_stuck bool t_sign t_verify t_type t_load t_ord t_pdec t_cbc_inv t_bob (ChainSpec.begin bool t_ord [] []) t_hist2 l' t_ck1 (2, t_content t_ck1 5 78) Pr _ _ _)).
  - vm_compute. auto.
  - intros [o J]. vm_compute in J. destruct J as [J|[]]. discriminate J.
  - intros (id & p & J & _). vm_compute in J. destruct J.
Qed.
Print Assumptions C73_every_request_refuted.
(** Two CKs that need the same KDK, fetched at the same time: the KDK is received twice, and the
    second time the KeyChain already has it, so that the second CK is given up though everything it
    needs was received (decryptor_v2.py 299-329). *)
Definition t_hist3 : list event :=
  [EDecrypt 1 (t_content t_ck1 5 77) (Some 11); EDecrypt 2 (t_content t_ck2 6 78) (Some 12); EData 11 (t_ckdata t_ck1 5) t_cred 0 (Some 13); EData 12 (t_ckdata t_ck2 6) t_cred 0 (Some 14);
   EData 13 t_kdkdata t_cred 0 None; EData 14 t_kdkdata t_cred 0 None].
Theorem C74_concurrent_refuted : exists l r e bits m, proper l /\ In (r, e) (requests l) /\ ck_got bool t_load t_pdec l (ck_of e) bits /\ do_decrypt t_cbc_inv e bits = Success m /\
  In (r, Failure E_DecryptionFailure) (answers (d_out (t_drun l))).
Proof.
  exists t_hist3, 2, (t_content t_ck2 6 78), [6], [78]. split; [unfold t_hist3; prop|]. split; [cbn; auto|]. split; [|split; vm_compute; auto].
  exists 12, (t_ckdata t_ck2 6), t_cred, 0, (Some 14), t_alice, (c_generic [50]). split; [unfold t_hist3; cbn [In]; auto 10|]. split; [vm_compute; reflexivity|]. exists (EC None kl_empty None (Some [1; 6]) None), [1; 6], true. split; [vm_compute; reflexivity|]. split; [reflexivity|]. split; [|reflexivity].
  exists 14, t_kdkdata, t_cred, 0, None. split; [unfold t_hist3; cbn [In]; auto 10|]. exists (EC None kl_empty None (Some bag_wire) (Some [2; 8])), bag_wire, ex_bag, [2; 8], [8], [1], t_k2. split; [vm_compute; reflexivity|]. split; [reflexivity|]. split; [vm_compute; reflexivity|]. split; [reflexivity|]. split; [reflexivity|]. split; [reflexivity|]. split; [reflexivity|]. split; vm_compute; reflexivity.
Qed.
Print Assumptions C74_concurrent_refuted.
Example C74_example : exists e bits iv w padded, In (4, e) (requests t_hist) /\ ck_got bool t_load t_pdec t_hist (ck_of e) bits /\ ec_iv e = Some iv /\ ec_payload e = Some w /\ t_cbc_inv bits iv w = Ok padded /\ aes_unpad padded = Ok [80].
Proof. apply (C74_success bool t_sign t_verify t_type t_load t_ord t_pdec t_cbc_inv t_bob (ChainSpec.begin bool t_ord [] []) eq_refl t_hist 4 [80] t_hist_proper). vm_compute. auto. Qed.
(** ** Padding: what is padded is unpadded *)
Lemma aes_pad_block : forall m, zlen (aes_pad m) mod 16 = 0 /\ zlen m < zlen (aes_pad m) <= zlen m + 16.
Proof. intros m. unfold aes_pad. cbv zeta. rewrite zlen_app. assert (H : 0 <= zlen m mod 16 < 16) by (apply Z.mod_pos_bound; lia). replace (zlen (repeat (16 - zlen m mod 16) (Z.to_nat (16 - zlen m mod 16)))) with (16 - zlen m mod 16) by (unfold zlen at 2; rewrite repeat_length, Z2Nat.id; lia). split; [|lia]. Z.to_euclidean_division_equations. lia. Qed.
Theorem C74_padding : forall m, aes_unpad (aes_pad m) = Ok m /\ zlen (aes_pad m) mod 16 = 0 /\ zlen m < zlen (aes_pad m) <= zlen m + 16.
Proof.
  intros m. split; [|apply aes_pad_block]. unfold aes_unpad, aes_pad. cbv zeta. assert (H : 0 <= zlen m mod 16 < 16) by (apply Z.mod_pos_bound; lia). set (p := 16 - zlen m mod 16) in *. assert (E : Z.to_nat p = S (Z.to_nat (p - 1))) by lia.
  rewrite rev_app_distr. replace (rev (repeat p (Z.to_nat p))) with (repeat p (Z.to_nat p)). 2:{ clear. generalize (Z.to_nat p) as n. induction n as [|n IH]; [reflexivity|]. cbn [repeat rev]. rewrite <- IH. clear. induction n as [|n IH]; [reflexivity|]. cbn [repeat app]. f_equal. exact IH. }
  rewrite E at 1. cbn [repeat app]. destruct (p =? 0) eqn:Ez; [lia|]. rewrite app_length, repeat_length. replace (length m + Z.to_nat p - Z.to_nat p)%nat with (length m) by lia. rewrite firstn_app, Nat.sub_diag, firstn_all, app_nil_r. reflexivity.
Qed.
Print Assumptions C74_padding.
