(** * KeyChain: the objects of the PIB keep the type and the identity of their key *)
From Verif Require Import Base BaseLemmas NameModel NameSpec DictModel HierModel PibModel FrontModel.

Section H.
Context {C : Type}.
Variable ct_name : C -> name.
Variable ct_content : C -> bytes.
Variable ct_check : C -> res unit.
Variable ord : list name -> list name.
Variable ktype : bytes -> res Z.
Notation front := (front C).
Notation keyobj := (keyobj C).
Definition sgood (o : keyobj) : Prop := key_extractIdentity (ko_name o) = Ok (ko_identity o) /\ ktype (ko_bits o) = Ok (ko_type o).
Definition heap_ok (s : front) : Prop := Forall sgood (keyheap s).
Definition keeps {A} (m : sm front A) : Prop := forall s, heap_ok s -> heap_ok (fst (m s)).

Lemma k_ret : forall A (a : A), keeps (ret a). Proof. intros A a s H. exact H. Qed.
Lemma k_raise : forall A e, keeps (@raise front A e). Proof. intros A a s H. exact H. Qed.
Lemma k_lift0 : forall A (r : res A), keeps (lift r). Proof. intros A a s H. exact H. Qed.
Lemma k_get : forall A (f : front -> A), keeps (get f). Proof. intros A a s H. exact H. Qed.
Lemma k_ask : forall A (f : pib C -> res A), keeps (ask f). Proof. intros A a s H. exact H. Qed.
Lemma k_the_id : forall r, keeps (the_id (C := C) r). Proof. intros r s H. exact H. Qed.
Lemma k_the_key0 : forall r, keeps (the_key (C := C) r). Proof. intros r s H. exact H. Qed.
Lemma k_put : forall f, (forall s, keyheap (f s) = keyheap s) -> keeps (put f).
Proof. intros f E s H. unfold put, heap_ok. cbn [fst]. rewrite E. exact H. Qed.
Lemma k_back : forall o, keeps (back ct_name ct_content ct_check ord o).
Proof. intros o s H. unfold back. destruct (exec _ _ _ _ _ _). exact H. Qed.
Lemma k_new_id : forall o, keeps (new_id (C := C) o). Proof. intros o s H. exact H. Qed.
Lemma k_set_id : forall r o, keeps (set_id (C := C) r o). Proof. intros r o s H. exact H. Qed.
Lemma k_new_key : forall o, sgood o -> keeps (new_key o).
Proof. intros o G s H. unfold new_key, heap_ok. cbn. apply Forall_app. auto. Qed.
Lemma k_set_key : forall q o, sgood o -> keeps (set_key q o).
Proof.
  intros q o G s H. unfold set_key, put, heap_ok in *. cbn [fst w_key keyheap]. revert q. induction (keyheap s) as [|x l IH]; intros [|q]; cbn [update]; auto.
  - inversion H. constructor; assumption.
  - inversion H. constructor; auto.
Qed.
Lemma k_bind : forall A B (m : sm front A) (k : A -> sm front B), keeps m -> (forall a, keeps (k a)) -> keeps (bind m k).
Proof. intros A B m k Hm Hk s H. unfold bind. specialize (Hm s H). destruct (m s) as [s' [a|e]]; [apply Hk, Hm|exact Hm]. Qed.
Lemma k_lift : forall A B (r : res A) (k : A -> sm front B), (forall a, r = Ok a -> keeps (k a)) -> keeps (bind (lift r) k).
Proof. intros A B r k Hk s H. unfold bind, lift. destruct r; [apply (Hk a eq_refl); exact H|exact H]. Qed.
Lemma k_the_key : forall B q (k : keyobj -> sm front B), (forall o, sgood o -> keeps (k o)) -> keeps (bind (the_key q) k).
Proof. intros B q k Hk s H. unfold bind, the_key. destruct (nth_error (keyheap s) q) as [o|] eqn:E; [|exact H]. apply Hk; [|exact H]. unfold heap_ok in H. rewrite Forall_forall in H. apply H. eapply nth_error_In, E. Qed.
Create HintDb kk.
Ltac kp := repeat first
  [ solve [auto 1 with kk nocore] | apply k_ret | apply k_raise | apply k_get | apply k_ask | apply k_back | apply k_new_id | apply k_set_id
  | apply k_put; intros; reflexivity
  | apply k_the_key; intros
  | apply k_lift; intros
  | apply k_lift0 | apply k_the_id | apply k_the_key0
  | apply k_set_key; assumption
  | apply k_new_key
  | apply k_bind; [|intros]
  | match goal with |- keeps (match ?x with _ => _ end) => destruct x eqn:? end
  | match goal with |- keeps (if ?x then _ else _) => destruct x eqn:? end
  | assumption ].
Lemma k_addCertificate : forall q c, keeps (key_addCertificate ct_name ct_content ct_check ord q c). Proof. intros. unfold key_addCertificate. kp. Qed.
Hint Resolve k_addCertificate : kk. #[local] Opaque key_addCertificate.
Lemma k_removeCertificate : forall q c, keeps (key_removeCertificate ct_name ct_content ct_check ord q c). Proof. intros. unfold key_removeCertificate. cbv zeta. kp. Qed.
Hint Resolve k_removeCertificate : kk. #[local] Opaque key_removeCertificate.
Lemma k_getCertificate : forall q c, keeps (key_getCertificate ct_check q c). Proof. intros. unfold key_getCertificate. kp. Qed.
Hint Resolve k_getCertificate : kk. #[local] Opaque key_getCertificate.
Lemma k_setDefaultC : forall q c, keeps (key_setDefault ct_name ct_content ct_check ord q c). Proof. intros. unfold key_setDefault. kp. Qed.
Hint Resolve k_setDefaultC : kk. #[local] Opaque key_setDefault.
Lemma k_getDefaultC : forall q, keeps (key_getDefault ct_check q). Proof. intros. unfold key_getDefault. kp. Qed.
Hint Resolve k_getDefaultC : kk. #[local] Opaque key_getDefault.
Lemma k_load : forall k, keeps (keyimpl_load ct_name ktype k).
Proof. intros. unfold keyimpl_load. kp. split; [exact H|]. cbn. destruct (ktype a1); congruence. Qed.
Hint Resolve k_load : kk. #[local] Opaque keyimpl_load.
Lemma k_new : forall k b, keeps (keyimpl_new ct_name ct_content ct_check ord ktype k b).
Proof. intros. unfold keyimpl_new. kp. split; [exact H|]. cbn. destruct (ktype b); congruence. Qed.
Hint Resolve k_new : kk. #[local] Opaque keyimpl_new.
Lemma k_getKey : forall r k, keeps (id_getKey ct_name ktype r k). Proof. intros. unfold id_getKey. kp. Qed.
Hint Resolve k_getKey : kk. #[local] Opaque id_getKey.
Lemma k_addKey : forall r b k, keeps (id_addKey ct_name ct_content ct_check ord ktype r b k). Proof. intros. unfold id_addKey. kp. Qed.
Hint Resolve k_addKey : kk. #[local] Opaque id_addKey.
Lemma k_removeKey : forall r k, keeps (id_removeKey ct_name ct_content ct_check ord r k). Proof. intros. unfold id_removeKey. kp. Qed.
Hint Resolve k_removeKey : kk. #[local] Opaque id_removeKey.
Lemma k_setDefaultK : forall r k, keeps (id_setDefault ct_name ct_content ct_check ord ktype r k). Proof. intros. unfold id_setDefault. kp. Qed.
Hint Resolve k_setDefaultK : kk. #[local] Opaque id_setDefault.
Lemma k_getDefaultK : forall r, keeps (id_getDefault ct_name ktype r). Proof. intros. unfold id_getDefault. kp. Qed.
Hint Resolve k_getDefaultK : kk. #[local] Opaque id_getDefault.
Lemma k_idimpl : forall i b, keeps (idimpl_new ct_name ct_content ct_check ord i b). Proof. intros. unfold idimpl_new. kp. Qed.
Hint Resolve k_idimpl : kk. #[local] Opaque idimpl_new.
Lemma k_getIdentity : forall i, keeps (getIdentity ct_name ct_content ct_check ord i). Proof. intros. unfold getIdentity. kp. Qed.
Hint Resolve k_getIdentity : kk. #[local] Opaque getIdentity.
Lemma k_addIdentity : forall i, keeps (addIdentity_ ct_name ct_content ct_check ord i). Proof. intros. unfold addIdentity_. kp. Qed.
Hint Resolve k_addIdentity : kk. #[local] Opaque addIdentity_.
Lemma k_removeIdentity : forall i, keeps (removeIdentity_ ct_name ct_content ct_check ord i). Proof. intros. unfold removeIdentity_. kp. Qed.
Hint Resolve k_removeIdentity : kk. #[local] Opaque removeIdentity_.
Lemma k_setDefaultI : forall i, keeps (setDefaultIdentity_ ct_name ct_content ct_check ord i). Proof. intros. unfold setDefaultIdentity_. kp. Qed.
Hint Resolve k_setDefaultI : kk. #[local] Opaque setDefaultIdentity_.
Lemma k_getDefaultI : keeps (getDefaultIdentity_ ct_name ct_content ct_check ord). Proof. intros. unfold getDefaultIdentity_. kp. Qed.
Hint Resolve k_getDefaultI : kk. #[local] Opaque getDefaultIdentity_.
Lemma k_reset : keeps (reset_ ct_name ct_content ct_check ord). Proof. intros. unfold reset_. kp. Qed.
Hint Resolve k_reset : kk. #[local] Opaque reset_.
Theorem k_fexec : forall o, keeps (fexec ct_name ct_content ct_check ord ktype o).
Proof.
  intros o. destruct o; unfold fexec, id_handle, key_handle, none, key_bits_of; kp.
Qed.
Lemma new_ok : forall b, heap_ok (front_new b). Proof. intros b. constructor. Qed.
End H.
