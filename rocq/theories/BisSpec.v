(** * Specification of BasicIdentityStorage: what it holds, as relations on names *)
From Verif Require Import Base NameModel UriModel UriSpec BisModel.

(** An identity, and if it is the default; a key, with its type, DER, if it is the default of its
    identity and if it is active; a certificate, with the name of its key, its encoding, and if it is
    the default of its key *)
Record world : Type := World {
  w_id : name -> bool -> Prop;
  w_key : name -> Z -> bytes -> bool -> bool -> Prop;
  w_cert : name -> name -> bytes -> bool -> Prop }.
Definition nothing : world := World (fun _ _ => False) (fun _ _ _ _ _ => False) (fun _ _ _ _ => False).
Definition has_id (w : world) (n : name) : Prop := exists d, w_id w n d.
Definition has_key (w : world) (n : name) : Prop := exists t x d a, w_key w n t x d a.
Definition has_cert (w : world) (n : name) : Prop := exists k x d, w_cert w n k x d.
(** The identity of a key *)
Notation identity k := (removelast k).

(** [d] is the flag after the default of a group was set to [chosen], if it was [d0] *)
Definition elected (group chosen : Prop) (d0 d : bool) : Prop := (group -> (d = true <-> chosen)) /\ (~ group -> d = d0).

Definition add_id (i : name) (w : world) : world :=
  World (fun n d => w_id w n d \/ (n = i /\ d = false /\ ~ has_id w i)) (w_key w) (w_cert w).
Definition add_key (k : name) (t : Z) (x : bytes) (w : world) : world :=
  World (w_id (add_id (identity k) w)) (fun k' t' x' d a => w_key w k' t' x' d a \/ (k' = k /\ t' = t /\ x' = x /\ d = false /\ a = false /\ ~ has_key w k)) (w_cert w).
Definition add_cert (c : cert) (w : world) : world :=
  let w' := add_key (x_key c) (x_type c) (x_der c) w in
  World (w_id w') (w_key w') (fun n k x d => w_cert w n k x d \/ (n = x_name c /\ k = x_key c /\ x = x_wire c /\ d = false /\ ~ has_cert w (x_name c))).
Definition meaning (c : call) (w : world) : world :=
  match c with
  | AddIdentity i => add_id i w
  | AddKey k t x => add_key k t x w
  | AddCertificate c => add_cert c w
  | DeleteKey k => World (w_id w) (fun k' t x d a => k' <> k /\ w_key w k' t x d a) (fun n k' x d => k' <> k /\ w_cert w n k' x d)
  | DeleteCertificate n => World (w_id w) (w_key w) (fun n' k x d => n' <> n /\ w_cert w n' k x d)
  | DeleteIdentity i =>
      World (fun n d => n <> i /\ w_id w n d) (fun k t x d a => identity k <> i /\ w_key w k t x d a) (fun n k x d => identity k <> i /\ w_cert w n k x d)
  | SetDefaultIdentity i => World (fun n d => exists d0, w_id w n d0 /\ elected True (n = i) d0 d) (w_key w) (w_cert w)
  | SetDefaultKey k check =>
      World (w_id w)
            (fun k' t x d a => exists d0, w_key w k' t x d0 a /\ elected (identity k' = identity k /\ (check = None \/ check = Some [] \/ check = Some (identity k))) (k' = k) d0 d)
            (w_cert w)
  | SetDefaultCertificate k n => World (w_id w) (w_key w) (fun n' k' x d => exists d0, w_cert w n' k' x d0 /\ elected (k' = k) (n' = n) d0 d)
  | SetActive k b => World (w_id w) (fun k' t x d a => exists a0, w_key w k' t x d a0 /\ elected (k' = k) (b = true) a0 a) (w_cert w)
  end.
Definition history (cs : list call) : world := fold_left (fun w c => meaning c w) cs nothing.

(** Calls with names that have a URI, and keys and certificates with a name *)
Definition plain (n : name) : Prop := Forall plain_comp n.
Definition key_like (k : name) : Prop := plain k /\ k <> [].
Definition proper (c : call) : Prop :=
  match c with
  | AddIdentity i | DeleteIdentity i | SetDefaultIdentity i => plain i
  | AddKey k _ _ | DeleteKey k | SetActive k _ => key_like k
  | SetDefaultKey k check => key_like k /\ match check with None => True | Some i => plain i end
  | AddCertificate c => key_like (x_name c) /\ key_like (x_key c)
  | DeleteCertificate n => key_like n
  | SetDefaultCertificate k n => key_like k /\ plain n
  end.
