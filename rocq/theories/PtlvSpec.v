(** * Specification: Protobuf messages as NDN-TLV.

    Independent of the encoder and decoder: which messages a type admits, the TLV elements a
    message stands for, and what a reader's message holds after reading them. *)
From Verif Require Import Base NameModel TlvSpec BlobModel BlobProps PtlvModel.

(** The UTF-8 bytes of a text. *)
Definition utf8 (s : str) : bytes := match utf8_encode s with Ok b => b | Err _ => [] end.

(** The number of values a field may hold. [strict]: a required field must be there. *)
Definition label_ok (strict : bool) (f : field) (vs : list pval) : Prop :=
  match f_label f with
  | LRepeated => True
  | LOptional => (length vs <= 1)%nat
  | LRequired => (length vs <= 1)%nat /\ (strict = true -> vs <> [])
  end.

(** A value a field admits and this encoding can carry, all the way down (a negative enum value
    cannot be encoded). *)
Inductive val_ok (strict : bool) (sch : schema) : field -> pval -> Prop :=
| VO_msg : forall f t m, f_type f = TMessage t -> msg_ok strict sch (sch t) m -> val_ok strict sch f (VMsg m)
| VO_u32 : forall f n, f_type f = TUint32 -> 0 <= n < 2 ^ 32 -> val_ok strict sch f (VInt n)
| VO_u64 : forall f n, f_type f = TUint64 -> 0 <= n < 2 ^ 64 -> val_ok strict sch f (VInt n)
| VO_enum : forall f l n, f_type f = TEnum l -> In n l -> 0 <= n < 2 ^ 31 -> val_ok strict sch f (VInt n)
| VO_bytes : forall f b, f_type f = TBytes -> bytes_ok b -> val_ok strict sch f (VBytes b)
| VO_str : forall f s, f_type f = TString -> text s -> val_ok strict sch f (VStr s)
| VO_bool : forall f b, f_type f = TBool -> val_ok strict sch f (VBool b)
with vals_ok (strict : bool) (sch : schema) : field -> list pval -> Prop :=
| VS_nil : forall f, vals_ok strict sch f []
| VS_cons : forall f v vs, val_ok strict sch f v -> vals_ok strict sch f vs -> vals_ok strict sch f (v :: vs)
with msg_ok (strict : bool) (sch : schema) : list field -> pmsg -> Prop :=
| MO_nil : msg_ok strict sch [] []
| MO_cons : forall f vs fs m, label_ok strict f vs -> vals_ok strict sch f vs -> msg_ok strict sch fs m ->
    msg_ok strict sch (f :: fs) (vs :: m).

(** ** The TLV elements of a message: field by field in the order of the type's definition; the
    type code is the field number; true is an empty element and false is no element. *)
Fixpoint val_elems (sch : schema) (f : field) (v : pval) {struct v} : list (Z * bytes) :=
  match f_type f, v with
  | TMessage t, VMsg m =>
      [(f_number f,
        elems ((fix go (fs : list field) (m : list (list pval)) {struct m} : list (Z * bytes) :=
                  match m with
                  | [] => []
                  | vs :: m' =>
                      match fs with
                      | [] => []
                      | f :: fs' =>
                          (fix gov (vs : list pval) : list (Z * bytes) :=
                             match vs with [] => [] | v :: vs' => val_elems sch f v ++ gov vs' end) vs ++ go fs' m'
                      end
                  end) (sch t) m))]
  | _, VInt n => [(f_number f, nonneg n)]
  | _, VBytes b => [(f_number f, b)]
  | _, VStr s => [(f_number f, utf8 s)]
  | _, VBool b => if b then [(f_number f, [])] else []
  | _, _ => []
  end.
Fixpoint vals_elems (sch : schema) (f : field) (vs : list pval) : list (Z * bytes) :=
  match vs with [] => [] | v :: vs' => val_elems sch f v ++ vals_elems sch f vs' end.
Fixpoint msg_elems (sch : schema) (fs : list field) (m : pmsg) {struct m} : list (Z * bytes) :=
  match m with
  | [] => []
  | vs :: m' => match fs with [] => [] | f :: fs' => vals_elems sch f vs ++ msg_elems sch fs' m' end
  end.

(** ** What the reader's message holds afterwards. The reader knows the fields [common]; its own
    full types are [reader]. [had] is what its field held before.

    A repeated field is extended, a single one is replaced, a sub-message of a single field is
    updated in place. A false optional or repeated bool leaves no trace, text comes back as
    its UTF-8 bytes read as characters, and a sub-message of a single field into which nothing
    was read stays unset. *)
Definition put (l : flabel) (had : list pval) (v : pval) : list pval :=
  match l with LRepeated => had ++ [v] | _ => [v] end.

Fixpoint got (common reader : schema) (f : field) (had : list pval) (v : pval) {struct v} : list pval :=
  match f_type f, v with
  | TMessage t, VMsg m =>
      let base := match f_label f, had with
                  | LRepeated, _ => fresh (reader t)
                  | _, VMsg m0 :: _ => m0
                  | _, _ => fresh (reader t)
                  end in
      let r := (fix go (fs : list field) (base : pmsg) (m : list (list pval)) {struct m} : pmsg :=
                  match m with
                  | [] => base
                  | vs :: m' =>
                      match fs with
                      | [] => base
                      | f :: fs' =>
                          (fix gov (had vs : list pval) {struct vs} : list pval :=
                             match vs with [] => had | v :: vs' => gov (got common reader f had v) vs' end) (hd [] base) vs
                          :: go fs' (tl base) m'
                      end
                  end) (common t) base m in
      match f_label f with
      | LRepeated => had ++ [VMsg r]
      | _ => if negb (is_nil had) || touched r then [VMsg r] else []
      end
  | _, VBool false => match f_label f with LRequired => [VBool false] | _ => had end
  | _, VStr s => put (f_label f) had (VStr (utf8 s))
  | _, _ => put (f_label f) had v
  end.
Fixpoint got_values (common reader : schema) (f : field) (had vs : list pval) {struct vs} : list pval :=
  match vs with [] => had | v :: vs' => got_values common reader f (got common reader f had v) vs' end.
Fixpoint got_fields (common reader : schema) (fs : list field) (base : pmsg) (m : pmsg) {struct m} : pmsg :=
  match m with
  | [] => base
  | vs :: m' =>
      match fs with
      | [] => base
      | f :: fs' => got_values common reader f (hd [] base) vs :: got_fields common reader fs' (tl base) m'
      end
  end.

(** ** The messages that come back unchanged: text is ASCII, a bool outside a required field is
    true, a sub-message of a single field is not empty. *)
Inductive val_plain (sch : schema) : field -> pval -> Prop :=
| VP_msg : forall f t m, f_type f = TMessage t -> msg_plain sch (sch t) m ->
    f_label f = LRepeated \/ Exists (fun vs => vs <> []) m -> val_plain sch f (VMsg m)
| VP_int : forall f n, val_plain sch f (VInt n)
| VP_bytes : forall f b, val_plain sch f (VBytes b)
| VP_str : forall f s, Forall (fun c => c < 128) s -> val_plain sch f (VStr s)
| VP_bool : forall f b, f_label f = LRequired \/ b = true -> val_plain sch f (VBool b)
with vals_plain (sch : schema) : field -> list pval -> Prop :=
| VPS_nil : forall f, vals_plain sch f []
| VPS_cons : forall f v vs, val_plain sch f v -> vals_plain sch f vs -> vals_plain sch f (v :: vs)
with msg_plain (sch : schema) : list field -> pmsg -> Prop :=
| MP_nil : msg_plain sch [] []
| MP_cons : forall f vs fs m, vals_plain sch f vs -> msg_plain sch fs m -> msg_plain sch (f :: fs) (vs :: m).

(** ** Types. Field numbers are positive and below 2^29, and different within a message type;
    every field type is one the encoding knows; the declared values of an enum are 32-bit. *)
Definition known (f : field) : Prop :=
  f_type f <> TOther /\ 0 < f_number f < 2 ^ 29 /\
  (forall l n, f_type f = TEnum l -> In n l -> - 2 ^ 31 <= n < 2 ^ 31).
Definition schema_ok (sch : schema) : Prop :=
  forall t, NoDup (map f_number (sch t)) /\ Forall known (sch t).

(** The writer's and the reader's types share [common] and may each have more fields at the end:
    the writer's extra fields must be non-critical to the reader, the reader's not required. *)
Definition versions (writer reader common : schema) : Prop :=
  forall t, exists newer older,
    writer t = common t ++ newer /\ reader t = common t ++ older /\
    NoDup (map f_number (common t ++ newer ++ older)) /\ Forall known (common t ++ newer ++ older) /\
    Forall (fun f => ~ critical (f_number f)) newer /\ Forall (fun f => f_label f <> LRequired) older.
