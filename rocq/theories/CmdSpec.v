(** * Specification of command Interest validation, by the history of events *)
From Verif Require Import Base TlvSpec NameModel WireModel CtlModel CmdModel.
From Coq Require Import Sorting.Sorted.

(** A name is a command signed with the key [k] and the timestamp [ts]: it ends with the
    timestamp, a nonce, a SignatureInfo with a KeyLocator name and a SignatureValue. *)
Definition locates (s : signature) (k : name) : Prop :=
  exists kl, kl_type kl = Some 1 /\ kl_name kl = k /\ ((exists vp b, s = SigRsa kl vp b) \/ (exists vp b, s = SigEcdsa kl vp b) \/ (exists b, s = SigHmac kl b)).
Definition command (n k : name) (ts : Z) : Prop :=
  exists p cts cn ci cv s, n = p ++ [cts; cn; ci; cv] /\ be_value (c_value cts) = ts /\
    decodeSignatureInfoAndValue (c_value ci) (c_value cv) = Ok s /\ locates s k.

(** Events: the policy is asked about an Interest name (the clock is read twice); the
    validation of the [i]-th Interest asked about ends with success. *)
Inductive ev : Type :=
  | Check (t1 t2 : Z) (n : name)
  | Finish (t : Z) (i : nat).
(** The records, and the outcome of each check: the key and the timestamp when it passed *)
Record st : Type := St { recs : list record; outs : list (option (name * Z)) }.
Definition step (o : options) (s : st) (e : ev) : res st :=
  match e with
  | Check t1 t2 n => rbind (checkPolicy o (recs s) t1 t2 n) (fun r => Ok (St (fst r) (outs s ++ [snd r])))
  | Finish t i => match nth_error (outs s) i with Some (Some (k, ts)) => Ok (St (insertNewRecord (recs s) t k ts) (outs s)) | _ => Ok s end
  end.
Definition run (o : options) (h : list ev) : res st := fold_left (fun r e => rbind r (fun s => step (policy_options o) s e)) h (Ok (St [] [])).
(** the [i]-th check of the history passed, with the key [k] and the timestamp [ts] *)
Definition passed (o : options) (h : list ev) (i : nat) (k : name) (ts : Z) : Prop := exists s, run o h = Ok s /\ nth_error (outs s) i = Some (Some (k, ts)).
(** it passed, and its validation then ended with success *)
Definition accepted (o : options) (h : list ev) (i : nat) (k : name) (ts : Z) : Prop := exists h1 t h2, h = h1 ++ Finish t i :: h2 /\ passed o h1 i k ts.
(** the checks of a history, in order *)
Definition checks (h : list ev) : list (Z * Z * name) := flat_map (fun e => match e with Check t1 t2 n => [(t1, t2, n)] | Finish _ _ => [] end) h.
(** The clock does not go back. *)
Definition times (e : ev) : list Z := match e with Check t1 t2 _ => [t1; t2] | Finish t _ => [t] end.
Definition clock_ok (h : list ev) : Prop := StronglySorted Z.le (flat_map times h).
(** One command of a key at a time: when a validation succeeds, no later Interest with the
    same key has passed its check already. *)
Definition one_at_a_time (o : options) (h : list ev) : Prop :=
  forall h1 t i h2, h = h1 ++ Finish t i :: h2 -> forall j k ts k' ts', (i < j)%nat -> passed o h1 i k ts -> passed o h1 j k' ts' -> n_equals k k' = true -> False.
(** The records are never too many: the number of records is not limited, or the limit is at
    least the number of keys in use. *)
Definition enough_records (o : options) (h : list ev) : Prop :=
  o_max o < 0 \/ exists keys, zlen keys <= o_max o /\ forall i k ts, passed o h i k ts -> exists k', In k' keys /\ n_equals k k' = true.
