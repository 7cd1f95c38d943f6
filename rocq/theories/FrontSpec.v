(** * Specification of Pib, PibIdentity and PibKey: what a call answers, by the calls made before *)
From Verif Require Import Base NameModel NameSpec HierSpec PibModel PibSpec FrontModel.

Section S.
Context {C : Type}.
Variable ct_name : C -> name.
Variable ct_content : C -> bytes.
Variable ct_check : C -> res unit.
Variable ktype : bytes -> res Z.
Notation fcall := (fcall C).
Notation answer := (answer C).
Notation trace := (trace C).
Notation call := (call C).
Notation ident := (ident ct_name).
Notation def_id := (def_id ct_name).
Notation key_bits := (key_bits ct_name ct_content).
Notation cert := (cert ct_name).
Notation def_key := (def_key ct_name ct_content).
Notation def_cert := (def_cert ct_name).

(** The calls of the back end that the calls of the API stand for (the newest first); [h0] was
    done to the back end before.  A call that raises does nothing, and neither does adding an
    identity that is there. *)
Fixpoint hist (h0 : list call) (t : trace) : list call :=
  match t with
  | [] => h0
  | (_, Err _) :: t' => hist h0 t'
  | (o, Ok _) :: t' =>
      let h := hist h0 t' in
      match o with
      | FAddIdentity i => if ident h i then h else AddIdentity i :: h
      | FRemoveIdentity i => RemoveIdentity i :: h
      | FSetDefaultIdentity i => SetDefaultIdentity i :: h
      | FReset => Clear :: h
      | FAddKey hd b k => AddKey (h_name hd) k b :: h
      | FRemoveKey hd k => RemoveKey k :: h
      | FSetDefaultKey hd k => SetDefaultKey (h_name hd) k :: h
      | FAddCert _ c => AddCert c :: h
      | FRemoveCert _ n => RemoveCert n :: h
      | FSetDefaultCert hd n => SetDefaultCert (h_name hd) n :: h
      | _ => h
      end
  end.

(** The handle was returned by a call, and what it stands for was not removed since then. *)
Fixpoint live_id (t : trace) (hd : handle) : Prop :=
  match t with
  | [] => False
  | (FRemoveIdentity i, _) :: t' => i <> h_name hd /\ live_id t' hd
  | (FReset, _) :: _ => False
  | (_, Ok (AId x)) :: t' => x = hd \/ live_id t' hd
  | _ :: t' => live_id t' hd
  end.
Fixpoint live_key (t : trace) (hd : handle) : Prop :=
  match t with
  | [] => False
  | (FRemoveIdentity i, _) :: t' => i <> owner (h_name hd) /\ live_key t' hd
  | (FRemoveKey _ k, Ok _) :: t' => k <> h_name hd /\ live_key t' hd
  | (FReset, _) :: _ => False
  | (_, Ok (AKey x)) :: t' => x = hd \/ live_key t' hd
  | _ :: t' => live_key t' hd
  end.
(** The default key that was asked for, or set, and was not removed since then *)
Fixpoint chosen (t : trace) (i : name) : option name :=
  match t with
  | [] => None
  | (FRemoveIdentity j, _) :: t' => if name_dec j i then None else chosen t' i
  | (FReset, _) :: _ => None
  | (FRemoveKey _ k, Ok _) :: t' => match chosen t' i with Some d => if name_dec k d then None else Some d | None => None end
  | (FDefaultKey hd, Ok (AKey x)) :: t' | (FSetDefaultKey hd _, Ok (AKey x)) :: t' => if name_dec (h_name hd) i then Some (h_name x) else chosen t' i
  | _ :: t' => chosen t' i
  end.

Definition key_of (i k : name) : Prop := i <> [] /\ exists kid, k = key_name i kid.
Definition cert_of_key (k n : name) : Prop := a_cert n /\ owner n = k.

(** Proper use: the handles are live, names are made of valid components, a key is added once and
    its bits can be decoded, and a certificate of a key is well formed, carries the bits of the
    key, and does not replace a different certificate of the same name. *)
Definition proper (h0 : list call) (t : trace) (o : fcall) : Prop :=
  let h := hist h0 t in
  match o with
  | FAddIdentity i | FRemoveIdentity i | FSetDefaultIdentity i | FGetIdentity i => Forall c_valid i
  | FReset | FDefaultIdentity => True
  | FAddKey hd b k => live_id t hd /\ Forall c_valid k /\ (key_of (h_name hd) k -> key_bits h k = None /\ exists ty, ktype b = Ok ty)
  | FRemoveKey hd k | FSetDefaultKey hd k | FGetKey hd k => live_id t hd /\ Forall c_valid k
  | FDefaultKey hd => live_id t hd
  | FAddCert hd c => live_key t hd /\ Forall c_valid (ct_name c) /\ a_cert (ct_name c) /\
      (owner (ct_name c) = h_name hd -> ct_check c = Ok tt /\ key_bits h (h_name hd) = Some (ct_content c) /\ (forall x, cert h (ct_name c) = Some x -> x = c))
  | FRemoveCert hd n | FSetDefaultCert hd n | FGetCert hd n => live_key t hd /\ Forall c_valid n
  | FDefaultCert hd | FPublicKey hd => live_key t hd
  end.
Fixpoint all_proper (h0 : list call) (t : trace) : Prop :=
  match t with [] => True | (o, _) :: t' => proper h0 t' o /\ all_proper h0 t' end.
(** what was in the back end at the beginning *)
Definition usable (h0 : list call) : Prop := Forall (sane ct_name ct_check) h0 /\ forall k b, key_bits h0 k = Some b -> exists ty, ktype b = Ok ty.

(** What the call answers *)
Definition gives_id (i : name) (r : res answer) : Prop := exists hd, r = Ok (AId hd) /\ h_name hd = i.
Definition gives_key (k : name) (r : res answer) : Prop := exists hd, r = Ok (AKey hd) /\ h_name hd = k.
Definition pib_error (r : res answer) : Prop := r = Err OtherError.
(** with a name that fits; with another name *)
Definition fitting (fits : Prop) (good : Prop) (r : res answer) : Prop := (fits -> good) /\ (~ fits -> r = Err ValueError).
Definition answers (h0 : list call) (t : trace) (o : fcall) (r : res answer) : Prop :=
  let h := hist h0 t in
  match o with
  | FAddIdentity i | FSetDefaultIdentity i => gives_id i r
  | FRemoveIdentity _ | FReset => r = Ok ANone
  | FGetIdentity i => if ident h i then gives_id i r else pib_error r
  | FDefaultIdentity => match def_id h with Some d => gives_id d r | None => pib_error r end
  | FAddKey hd _ k => fitting (key_of (h_name hd) k) (gives_key k r) r
  | FRemoveKey hd k => fitting (key_of (h_name hd) k) (r = Ok ANone) r
  | FSetDefaultKey hd k | FGetKey hd k => fitting (key_of (h_name hd) k) (match key_bits h k with Some _ => gives_key k r | None => pib_error r end) r
  | FDefaultKey hd =>
      match chosen t (h_name hd) with
      | Some k => gives_key k r
      | None => match def_key h (h_name hd) with Some k => gives_key k r | None => pib_error r end
      end
  | FAddCert hd c => fitting (owner (ct_name c) = h_name hd) (r = Ok ANone) r
  | FRemoveCert hd n => fitting (cert_of_key (h_name hd) n) (r = Ok ANone) r
  | FSetDefaultCert hd n | FGetCert hd n => fitting (cert_of_key (h_name hd) n) (match cert h n with Some c => r = Ok (ACert c) | None => pib_error r end) r
  | FDefaultCert hd => match def_cert h (h_name hd) with Some n => exists c, cert h n = Some c /\ r = Ok (ACert c) | None => pib_error r end
  | FPublicKey hd => exists b, key_bits h (h_name hd) = Some b /\ r = Ok (ABits b)
  end.
Fixpoint all_answers (h0 : list call) (t : trace) : Prop :=
  match t with [] => True | (o, r) :: t' => answers h0 t' o r /\ all_answers h0 t' end.
End S.
