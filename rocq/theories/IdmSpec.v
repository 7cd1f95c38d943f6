(** * Specification of the version 1 identity manager *)
From Verif Require Import Base NameModel UriSpec WireModel IcertModel IcertSpec IdmModel.

(** Names whose URI denotes them (C12) *)
Definition plain (n : name) : Prop := Forall plain_comp n.
(** No component is the word KEY *)
Definition no_key_word (n : name) : Prop := Forall (fun x => ~ word [75; 69; 89] x) n.
(** A key name made at the time [t] (in seconds): identity/ksk-t or identity/dsk-t *)
Definition stamped (k i : name) (ksk : bool) (t : Z) : Prop :=
  k = i ++ [c_generic ((if ksk then [107; 115; 107; 45] else [100; 115; 107; 45]) ++ UriModel.str_int t)].
(** A certificate of the application: its key name is that of its name *)
Definition cert_named (c : cert) : Prop := plain (d_name (ic_data c)) /\ exists p, ic_publicKeyName c = Some p /\ key_name (d_name (ic_data c)) p.
(** The operations of a program: the names have URIs and the clock is not before 1970. With [strict] a
    certificate is not made a default before it is added. *)
Definition op_ok (strict : bool) (o : op) : Prop :=
  match o with
  | OAddIdentity i | OSetDefaultIdentity i | ODelete i => plain i
  | OCreate i _ _ _ now now2 => plain i /\ 0 <= now /\ 0 <= now2
  | OGenerate _ i _ _ _ _ now => plain i /\ 0 <= now
  | OSetKeyPair k _ _ _ => plain k
  | OSetDefaultKey k check => plain k /\ plain check
  | OSetDefaultCert c => cert_named c /\ strict = false
  | OAddCert c | OAddCertIdentityDefault c | OAddCertDefault c => cert_named c
  end.
