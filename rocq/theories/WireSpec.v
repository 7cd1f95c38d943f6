(** * Specification vocabulary for packets: the NDN packet format as TLV elements,
    and which packets can be represented. *)
From Verif Require Import Base TlvSpec NameModel NameSpec CalModel WireModel.

Notation el := (Z * bytes)%type.
Definition opt_el (t : Z) (o : option bytes) : list el := match o with None => [] | Some v => [(t, v)] end.
Definition opt_nn (t : Z) (o : option Z) : list el := match o with None => [] | Some n => [(t, nonneg n)] end.
Definition flag_el (t : Z) (b : bool) : list el := if b then [(t, [])] else [].
Definition blob_bytes (b : option bytes) : bytes := match b with Some v => v | None => [] end.

(** ** Which values can be represented *)
Definition u64o (o : option Z) : Prop := match o with None => True | Some n => u64 n end.
(** Times are floats in Python: integers up to 2^53 are exact. *)
Definition float_ok (o : option Z) : Prop := match o with None => True | Some n => 0 <= n <= 2 ^ 53 end.

Definition comp_ok (c : comp) : Prop :=
  c_valid c /\ c_code c < 2 ^ 64 /\ (c_type c = CT_IMPLICIT \/ c_type c = CT_PARAMS -> zlen (c_value c) = 32).
Definition name_ok (n : name) : Prop := Forall comp_ok n.
Definition kl_ok (k : keyLocator) : Prop :=
  match kl_type k with
  | None => True
  | Some t => t = 1 /\ name_ok (kl_name k) \/ t = 2 /\ exists b d, kl_data k = Some (b :: d)
  end.
(** In an Exclude, the element type 19 stands for ANY, so no component may have it. *)
Definition ex_ok (e : exentry) : Prop := match e with ExAny => True | ExComp c => comp_ok c /\ c_code c <> 19 end.
Definition mi_ok (m : metaInfo) : Prop :=
  (0 <= mi_type m <= 3 \/ mi_type m = 32767 /\ 4 <= mi_other m < 2 ^ 64) /\
  float_ok (mi_freshness m) /\ comp_ok (mi_final m).
(** A whole number of seconds in the years 1000..9999. *)
Definition iso_time (ms : Z) : Prop := exists s, ms = s * 1000 /\ -30610224000 <= s < 253402300800.
Definition vp_ok (v : validity) : Prop := v = vp_none \/ iso_time (vp_notBefore v) /\ iso_time (vp_notAfter v).
Definition sig_ok (s : signature) : Prop :=
  match s with
  | SigRsa k v _ | SigEcdsa k v _ => kl_ok k /\ vp_ok v
  | SigHmac k _ => kl_ok k
  | SigDigest _ => True
  | SigGeneric e t _ =>
      (** the encoding is a SignatureInfo starting with an unrecognized signature type *)
      exists ty es, t = Some ty /\ e = Some (tlv 22 (elems ((27, nonneg ty) :: es))) /\
        zlen (elems ((27, nonneg ty) :: es)) < 2 ^ 64 /\ u64 ty /\ ty <> 0 /\ ty <> 1 /\ ty <> 3 /\ ty <> 4 /\ Forall (fun x => u64 (fst x)) es
  end.
Definition deleg_ok (d : delegation) : Prop := u64 (fst d) /\ name_ok (snd d).

(** ** What the receiver sees: the fields that are not meaningful are reset *)
Definition kl_seen (k : keyLocator) : keyLocator :=
  match kl_type k with
  | None => kl_empty
  | Some t => if t =? 1 then KL (Some 1) (kl_name k) None else KL (Some 2) [] (kl_data k)
  end.
Definition mi_seen (prev m : metaInfo) : metaInfo :=
  MI (mi_type m) (if mi_type m =? 32767 then mi_other m else mi_other prev) (mi_freshness m)
     (match c_value (mi_final m) with [] => c_generic [] | _ => mi_final m end).
Definition sig_seen (s : signature) : signature :=
  match s with
  | SigRsa k v b => SigRsa (kl_seen k) v (Some (blob_bytes b))
  | SigEcdsa k v b => SigEcdsa (kl_seen k) v (Some (blob_bytes b))
  | SigHmac k b => SigHmac (kl_seen k) (Some (blob_bytes b))
  | SigDigest b => SigDigest (Some (blob_bytes b))
  | SigGeneric e t b => SigGeneric e t (Some (blob_bytes b))
  end.

(** ** The packet format *)
Definition comp_el (c : comp) : el := (c_code c, c_value c).
Definition name_el (n : name) : el := (7, elems (map comp_el n)).
Definition kl_body (k : keyLocator) : list el :=
  match kl_type k with
  | None => []
  | Some t => if t =? 1 then [name_el (kl_name k)] else [(29, blob_bytes (kl_data k))]
  end.
Definition kl_el (t : Z) (k : keyLocator) : el := (t, elems (kl_body k)).
Definition ex_el (e : exentry) : el := match e with ExAny => (19, []) | ExComp c => comp_el c end.
Definition exclude_els (ex : list exentry) : list el :=
  match ex with [] => [] | _ => [(16, elems (map ex_el ex))] end.
Definition content_type (m : metaInfo) : option Z :=
  if mi_type m =? 0 then None else if mi_type m =? 32767 then Some (mi_other m) else Some (mi_type m).
Definition final_els (c : comp) : list el := match c_value c with [] => [] | _ => [(26, elems [comp_el c])] end.
Definition mi_el (m : metaInfo) : el :=
  (20, elems (opt_nn 24 (content_type m) ++ opt_nn 25 (mi_freshness m) ++ final_els (mi_final m))).
Definition deleg_el (d : delegation) : el := (31, elems [(30, nonneg (fst d)); name_el (snd d)]).
Definition hint_els (ds : list delegation) : list el :=
  match ds with [] => [] | _ => [(30, elems (map deleg_el ds))] end.

(** ISO text of a time (its meaning is property C40). *)
Definition iso_str (ms : Z) : bytes := match toIsoString ms with Ok s => s | Err _ => [] end.
Definition vp_els (v : validity) : list el :=
  if vp_hasPeriod v then [(253, elems [(254, iso_str (vp_notBefore v)); (255, iso_str (vp_notAfter v))])] else [].
(** The SignatureInfo element. *)
Definition siginfo (s : signature) : bytes :=
  match s with
  | SigRsa k v _ => tlv 22 (elems ((27, nonneg 1) :: kl_el 28 k :: vp_els v))
  | SigEcdsa k v _ => tlv 22 (elems ((27, nonneg 3) :: kl_el 28 k :: vp_els v))
  | SigHmac k _ => tlv 22 (elems [(27, nonneg 4); kl_el 28 k])
  | SigDigest _ => tlv 22 (elems [(27, nonneg 0)])
  | SigGeneric e _ _ => blob_bytes e
  end.

(** ** Interests *)
Definition sel_body (i : interest) : list el :=
  opt_nn 13 (i_min i) ++ opt_nn 14 (i_max i) ++
  (match kl_type (i_keyLocator i) with None => [] | Some _ => [kl_el 15 (i_keyLocator i)] end) ++
  exclude_els (i_exclude i) ++ opt_nn 17 (i_child i) ++ flag_el 18 (i_mustBeFresh i).
Definition sel_els (i : interest) : list el := match sel_body i with [] => [] | b => [(9, elems b)] end.

(** An Interest in the format v0.2 with nonce bytes [nonce]. *)
Definition interest02 (i : interest) (nonce : bytes) : bytes :=
  tlv 5 (elems (name_el (i_name i) :: sel_els i ++ [(10, nonce)] ++ opt_nn 12 (i_lifetime i)) ++
         blob_bytes (i_link i) ++ elems (opt_nn 32 (i_selected i) ++ hint_els (i_hint i))).
(** An Interest in the format v0.3. *)
Definition interest03 (i : interest) (nonce : bytes) : bytes :=
  tlv 5 (elems (name_el (i_name i) :: flag_el 33 (i_canBePrefix i) ++ flag_el 18 (i_mustBeFresh i) ++
                hint_els (i_hint i) ++ [(10, nonce)] ++ opt_nn 12 (i_lifetime i) ++ [(36, blob_bytes (i_params i))])).

Definition interest_ok (i : interest) : Prop :=
  name_ok (i_name i) /\ u64o (i_min i) /\ u64o (i_max i) /\ kl_ok (i_keyLocator i) /\ Forall ex_ok (i_exclude i) /\
  u64o (i_child i) /\ float_ok (i_lifetime i) /\ Forall deleg_ok (i_hint i) /\ u64o (i_selected i) /\
  (* a link is a Data packet *)
  (forall l, i_link i = Some l -> exists v, l = tlv 6 v) /\
  (* a forwarding hint excludes a link and a selected delegation, which needs a link *)
  (i_hint i <> [] -> i_link i = None /\ i_selected i = None) /\
  (i_selected i <> None -> i_link i <> None).

(** What the receiver of a v0.2 Interest sees. *)
Definition interest_seen (i : interest) (nonce : bytes) : interest :=
  Interest (i_name i) (i_min i) (i_max i) (kl_seen (i_keyLocator i)) (i_exclude i) (i_child i) (i_mustBeFresh i)
    (Some nonce) (i_lifetime i) (i_hint i) None (i_link i) (i_selected i).
(** What the receiver of a v0.3 Interest sees. *)
Definition interest_seen03 (i : interest) (nonce : bytes) : interest :=
  Interest (i_name i) None (if i_canBePrefix i then None else Some 1) kl_empty [] None (i_mustBeFresh i)
    (Some nonce) (i_lifetime i) (i_hint i) (i_params i) None None.

(** ** Data *)
Definition data_ok (d : data) : Prop := name_ok (d_name d) /\ mi_ok (d_meta d) /\ sig_ok (d_sig d).
Definition data_signed (d : data) : bytes :=
  elems [name_el (d_name d); mi_el (d_meta d); (21, blob_bytes (d_content d))] ++ siginfo (d_sig d).
Definition data_bytes (d : data) : bytes :=
  tlv 6 (data_signed d ++ elems [(23, blob_bytes (sig_bits (d_sig d)))]).
Definition data_seen (prev d : data) : data :=
  Data (d_name d) (mi_seen (d_meta prev) (d_meta d)) (Some (blob_bytes (d_content d))) (sig_seen (d_sig d)).
