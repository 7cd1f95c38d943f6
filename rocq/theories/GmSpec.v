(** * Specification vocabulary for the group manager: the group as two maps. *)
From Verif Require Import Base BaseLemmas NameModel NameSpec WireModel WireSpec BlobModel CalModel CalProps SchedModel SchedSpec SchedWireProps CtlModel CtlSpec EncrModel GmModel.
From Coq Require Import Permutation Sorted.

(** The schedules by name, and for each member identity the name of its schedule, its key name
    and its public key *)
Record group : Type := Grp { g_sched : str -> option sched; g_member : name -> option (str * name * bytes) }.
Definition nobody : group := Grp (fun _ => None) (fun _ => None).

Definition str_dec : forall a b : str, {a = b} + {a <> b} := list_eq_dec Z.eq_dec.
Definition comp_dec : forall a b : comp, {a = b} + {a <> b}.
Proof. decide equality; try apply Z.eq_dec. apply str_dec. Defined.
Definition name_dec : forall a b : name, {a = b} + {a <> b} := list_eq_dec comp_dec.

Definition put_sched (g : group) (n : str) (o : option sched) : str -> option sched := fun m => if str_dec m n then o else g_sched g m.
Definition put_member (g : group) (i : name) (o : option (str * name * bytes)) : name -> option (str * name * bytes) :=
  fun m => if name_dec m i then o else g_member g m.

(** A key name is the identity and one more component. *)
Definition identity_of (keyName : name) : name := removelast keyName.

(** What each call does to the group, and whether it succeeds.  [None] is an error: the group
    stays as it is. *)
Definition g_call (g : group) (c : call) : option group :=
  match c with
  | AddSchedule n s => match n, g_sched g n with _ :: _, None => Some (Grp (put_sched g n (Some s)) (g_member g)) | _, _ => None end
  | UpdateSchedule n s => match n with _ :: _ => Some (Grp (put_sched g n (Some s)) (g_member g)) | [] => None end
  | DeleteSchedule n =>
      Some (Grp (put_sched g n None)
                (fun i => match g_member g i with Some (sn, kn, k) => if str_dec sn n then None else Some (sn, kn, k) | None => None end))
  | RenameSchedule a b =>
      match b, g_sched g a, g_sched g b with
      | [], _, _ => None
      | _, None, _ => Some g
      | _, Some s, Some _ => if str_dec a b then Some g else None
      | _, Some s, None =>
          Some (Grp (fun m => if str_dec m b then Some s else if str_dec m a then None else g_sched g m)
                    (fun i => match g_member g i with Some (sn, kn, k) => Some (if str_dec sn a then b else sn, kn, k) | None => None end))
      end
  | AddMember sn kn k =>
      match g_sched g sn, g_member g (identity_of kn) with
      | Some _, None => Some (Grp (g_sched g) (put_member g (identity_of kn) (Some (sn, kn, k))))
      | _, _ => None
      end
  | UpdateMemberSchedule i sn =>
      match g_sched g sn, g_member g i with
      | None, _ => None
      | Some _, None => Some g
      | Some _, Some (_, kn, k) => Some (Grp (g_sched g) (put_member g i (Some (sn, kn, k))))
      end
  | RemoveMember i => Some (Grp (g_sched g) (put_member g i None))
  | GroupKey _ _ _ _ _ | CleanEKeys | Restart => Some g
  end.
Definition g_step (g : group) (c : call) : group := match g_call g c with Some g' => g' | None => g end.
Definition g_run (l : list call) : group := fold_left g_step l nobody.

(** A name with an encoding that can be read back (C08) *)
Definition fits (n : name) : Prop := name_ok n /\ zlen (encodeName n) < 2 ^ 64.
(** A schedule with an encoding that can be read back (C48) *)
Definition storable (s : sched) : Prop :=
  exists ops, s = sc_run ops /\ (forall r, In (AddWhite r) ops \/ In (AddBlack r) ops -> writable r) /\
    (forall w, sc_wireEncode s = Ok w -> zlen w < 2 ^ 64).
(** A time slot (in microseconds) between the year 1000 and the year 9999, not on the first or the
    last two days *)
Definition slot_range (us : Z) : Prop := (year_1000 + 86400) * 1000000 <= us < (year_10000 - 2 * 86400) * 1000000.
(** The arguments are such names and schedules. *)
Definition call_ok (c : call) : Prop :=
  match c with
  | AddSchedule _ s | UpdateSchedule _ s => storable s
  | AddMember _ kn _ => kn <> [] /\ fits kn
  | UpdateMemberSchedule i _ | RemoveMember i => fits i
  | GroupKey us _ _ _ _ => slot_range us
  | _ => True
  end.

(** At the time slot the member may read. *)
Definition entitled (g : group) (us : Z) (kn : name) (k : bytes) : Prop :=
  exists i sn s, g_member g i = Some (sn, kn, k) /\ g_sched g sn = Some s /\ allowed s us.

(** The conditions of C39 at this time slot, for each schedule of the group *)
Definition good_slot (g : group) (us : Z) : Prop :=
  not_last_instant us /\
  forall n s, g_sched g n = Some s -> Forall usable (sc_white s) /\ Forall usable (sc_black s) /\
    forall r, In r (sc_white s) \/ In r (sc_black s) -> ~ closing r us.

(** [content] is [payload] encrypted for the holder of the private key of [key]: directly, or,
    when it is too long for the key, under a fresh 16-byte AES key which is encrypted instead *)
Section Sealing.
Variable rsa_enc : bytes -> bytes -> Z -> Z -> rsa_out.
Variable aes_enc : bytes -> bytes -> Z -> bytes -> res bytes.
Definition rsa_part (key m : bytes) (keyName : name) (alg pad : Z) (w : bytes) : Prop :=
  exists c, rsa_enc key m alg pad = Sealed c /\ w = ec_bytes (EC (Some alg) (KL (Some 1) keyName None) None (Some c) None).
Definition aes_part (key m iv : bytes) (keyName : name) (w : bytes) : Prop :=
  zlen iv = 16 /\ exists c, aes_enc key m 1 iv = Ok c /\ w = ec_bytes (EC (Some 1) (KL (Some 1) keyName None) (Some iv) (Some c) None).
Definition sealed_for (key : bytes) (keyName : name) (alg : Z) (r : rnd) (payload content : bytes) : Prop :=
  rsa_part key payload keyName alg (r_pad1 r) content \/
  rsa_enc key payload alg (r_pad1 r) = TooLong /\
  exists w1 w2, rsa_part key (r_nonce r) keyName alg (r_pad2 r) w1 /\ aes_part (r_nonce r) payload (r_iv r) (keyName ++ [c_generic [110; 111; 110; 99; 101]]) w2 /\
    content = w1 ++ w2.
(** Encrypting raises this *)
Definition seal_error (key : bytes) (alg : Z) (r : rnd) (payload : bytes) (e : exn) : Prop :=
  rsa_enc key payload alg (r_pad1 r) = RsaError e \/
  rsa_enc key payload alg (r_pad1 r) = TooLong /\
  (zlen (r_iv r) <> 16 \/ aes_enc (r_nonce r) payload 1 (r_iv r) = Err e \/
   rsa_enc key (r_nonce r) alg (r_pad2 r) = TooLong \/ rsa_enc key (r_nonce r) alg (r_pad2 r) = RsaError e).
End Sealing.

(** The packets for the slot [us], in the interval from [a] to [b] (milliseconds), of the key
    pair with private key [priv] and public key [pub] *)
Definition iso_comp (t : Z) (c : comp) : Prop := exists s, toIsoString t = Ok s /\ c = c_generic s /\ fromIsoString s = Ok t.
Definition key_packets rsa_enc aes_enc (prefix dataType : name) (hours : Z) (g : group) (us a b : Z) (priv pub : bytes) (rs : name -> rnd) (l : list pkt) : Prop :=
  exists ca cb, iso_comp a ca /\ iso_comp b cb /\
  let base (kind : comp) := prefix ++ [c_generic [82; 69; 65; 68]] ++ dataType ++ [kind; ca; cb] in
  exists e ds, l = e :: ds /\
    e = Pkt (base (c_generic [69; 45; 75; 69; 89])) (hours * 3600000) pub /\
    exists kns, StronglySorted (fun x y => name_lt (n_key x) (n_key y)) kns /\
      (forall kn, In kn kns <-> exists k, entitled g us kn k) /\
      Forall2 (fun kn p => exists k, entitled g us kn k /\
        p_name p = base (c_generic [68; 45; 75; 69; 89]) ++ [c_generic [70; 79; 82]] ++ kn /\ p_fresh p = hours * 3600000 /\
        sealed_for rsa_enc aes_enc k kn 3 (rs kn) priv (p_content p)) kns ds.

(** The interval for a time slot: it contains the slot, and in it no schedule changes between
    allowed and not allowed *)
Definition slot_interval (g : group) (us a b : Z) : Prop :=
  1000 * a <= us < 1000 * b /\
  forall n s t, g_sched g n = Some s -> 1000 * a <= t < 1000 * b -> (allowed s t <-> allowed s us).

(** The stored pair of an E-KEY name: public and private key *)
Definition pair_of (d : db) (n : name) : option (bytes * bytes) := match getEKey d n with Ok p => Some p | Err _ => None end.
