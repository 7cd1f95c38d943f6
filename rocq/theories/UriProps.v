(** * Property C12: URI escaping *)
From Verif Require Import Base BaseLemmas TlvModel NameModel NameSpec UriModel UriSpec UriProofs.
From Coq Require Import ZifyBool.

(** Every byte string, including "", ".", ".." ... *)
Theorem C12_escape_round_trip : forall v, bytes_ok v -> fromEscapedString (toEscapedString v) = Ok (Some v).
Proof. exact from_toEscaped. Qed.

Theorem C12_escaped_alphabet : forall v, bytes_ok v ->
  toEscapedString v <> [] /\ Forall uri_char (toEscapedString v).
Proof.
  intros v H. split; [apply toEscaped_nonempty|]. eapply Forall_impl; [|apply toEscaped_uchar; exact H].
  intros a [Ha| ->]; unfold uri_char; [unfold unreserved in Ha; cbn; lia|cbn; tauto].
Qed.

Corollary C12_escape_injective : forall v w, bytes_ok v -> bytes_ok w -> toEscapedString v = toEscapedString w -> v = w.
Proof.
  intros v w Hv Hw E. pose proof (from_toEscaped v Hv) as A. rewrite E, from_toEscaped in A by assumption. congruence.
Qed.

Theorem C12_uri_round_trip : forall p q includeScheme,
  Forall plain_comp p -> (q = [] \/ exists d, q = [d] /\ digest_comp d) ->
  n_set (n_toUri (p ++ q) includeScheme) = Ok (p ++ q).
Proof. intros p q s Hp Hq. apply set_toUri. exists p, q. auto. Qed.

Corollary C12_uri_injective : forall a b includeScheme, Forall plain_comp a -> Forall plain_comp b ->
  n_toUri a includeScheme = n_toUri b includeScheme -> a = b.
Proof.
  intros a b s Ha Hb E. pose proof (C12_uri_round_trip a [] s Ha (or_introl eq_refl)) as A.
  pose proof (C12_uri_round_trip b [] s Hb (or_introl eq_refl)) as B. rewrite !app_nil_r in *. congruence.
Qed.

(** A digest component before the last one: the hex string is taken to the end of
    the URI, so the parse fails. *)
Theorem C12_digest_not_last_refuted : exists d c, digest_comp d /\ plain_comp c /\
  n_set (n_toUri [d; c] false) = Err ValueError.
Proof.
  exists (Comp CT_IMPLICIT (-1) (repeat 7 32)), (c_generic [97]). split; [|split].
  - split; [apply bytes_okb_ok; reflexivity|]. vm_compute. auto.
  - split; [apply bytes_okb_ok; reflexivity|]. left. split; reflexivity.
  - reflexivity.
Qed.
(** A scheme with nothing after it raises IndexError. *)
Theorem C12_scheme_only_refuted : n_set [110;100;110;58] = Err IndexError.
Proof. reflexivity. Qed.
(** OTHER_CODE with a recognized code does not come back as the same component. *)
Theorem C12_other_code_8_refuted : exists c, c_new [97] (Some CT_OTHER) (Some 8) = Ok c /\
  n_set (n_toUri [c] false) = Ok [c_generic [97]] /\ c_equals c (c_generic [97]) = false.
Proof. eexists. split; [reflexivity|]. split; reflexivity. Qed.

(** Examples: "..", bytes needing escapes, other type code, final digest. *)
Example ex_C12_dots : toEscapedString [46;46] = [46;46;46;46;46]. Proof. reflexivity. Qed.
Example ex_C12_uri : let n := [c_generic [97;47;255]; c_generic []; Comp CT_OTHER 32 [61]] in
  Forall plain_comp n /\
  n_toUri n true = [110;100;110;58; 47;97;37;50;70;37;70;70; 47;46;46;46; 47;51;50;61;37;51;68].
Proof.
  split; [|reflexivity].
  repeat (apply Forall_cons; [split; [apply bytes_okb_ok; reflexivity|vm_compute; intuition congruence]|]). apply Forall_nil.
Qed.
Example ex_C12_digest : digest_comp (Comp CT_PARAMS (-1) (repeat 255 32)).
Proof. split; [apply bytes_okb_ok; reflexivity|]. vm_compute. auto. Qed.

Print Assumptions C12_escape_round_trip.
Print Assumptions C12_escaped_alphabet.
Print Assumptions C12_escape_injective.
Print Assumptions C12_uri_round_trip.
Print Assumptions C12_uri_injective.
Print Assumptions C12_digest_not_last_refuted.
Print Assumptions C12_scheme_only_refuted.
Print Assumptions C12_other_code_8_refuted.
