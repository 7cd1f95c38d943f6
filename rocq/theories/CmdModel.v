(** * Model of ValidationPolicyCommandInterest and CommandInterestPreparer

    Times (the clock, the grace period, the record lifetime) are integer numbers of
    microseconds, the resolution of the clock (common.py 62-70); a timestamp is in
    milliseconds, so it is multiplied by 1000 for a comparison.  The rounding of floating
    point numbers is not modelled.  A call of state.fail is the outcome [None]; what the inner
    policy and the validator do is not modelled here: the success callback of a check is a
    separate event that may come at any time after the check (CmdSpec.v).  Log messages and the
    text of errors are not modelled. *)
From Verif Require Import Base TlvModel NameModel WireModel CtlModel MatchModel CalModel.
Local Open Scope res_scope.

(** validation_policy_command_interest.py 105-126: Options *)
Record options : Type := Options { o_grace : Z; o_max : Z; o_life : Z }.
Definition default_options : options := Options (2 * 60 * 1000 * 1000) 1000 (3600 * 1000 * 1000).
(** validation_policy_command_interest.py 49-67: the options of the policy *)
Definition policy_options (o : options) : options := if o_grace o <? 0 then Options 0 (o_max o) (o_life o) else o.

(** validation_policy_command_interest.py 162-172: LastTimestampRecord *)
Record record : Type := Rec { r_key : name; r_ts : Z; r_at : Z }.

(** validation_policy_command_interest.py 174-183: _cleanUp *)
Fixpoint cleanUp (o : options) (now : Z) (l : list record) : list record :=
  match l with
  | [] => []
  | r :: l' => if (r_at r <=? now - o_life o) || ((0 <=? o_max o) && (o_max o <? zlen l)) then cleanUp o now l' else l
  end.

(** validation_policy.py 172-192: _getKeyLocatorNameFromSignature *)
Definition sig_keyName (s : signature) : option name :=
  match kl_ofSignature s with
  | None => None
  | Some kl => match kl_type kl with Some t => if t =? 1 then Some (kl_name kl) else None | None => None end
  end.
(** validation_policy.py 133-170: getKeyLocatorName of an Interest *)
Definition keyLocatorName (n : name) : option name :=
  if zlen n <? 2 then None
  else
    match (ci <-- py_getitem n (-2) ;; cv <-- py_getitem n (-1) ;; decodeSignatureInfoAndValue (c_value ci) (c_value cv)) with
    | Err _ => None
    | Ok s => sig_keyName s
    end.
(** validation_policy_command_interest.py 185-218: _parseCommandInterest (command_interest_signer.py
    44-49: MINIMUM_SIZE is 4, POS_TIMESTAMP is -4) *)
Definition parseCommandInterest (n : name) : res (option (name * Z)) :=
  if zlen n <? 4 then Ok None
  else
    c <-- py_getitem n (-4) ;;
    let timestamp := c_toNumber c in
    match keyLocatorName n with None => Ok None | Some k => Ok (Some (k, timestamp)) end.

(** validation_policy_command_interest.py 272-284: _findByKeyName: the record (in place of
    its index) *)
Fixpoint findByKeyName (l : list record) (k : name) : option record :=
  match l with [] => None | r :: l' => if n_equals (r_key r) k then Some r else findByKeyName l' k end.
(** validation_policy_command_interest.py 220-252: _checkTimestamp; the clock is read twice *)
Definition checkTimestamp (o : options) (l : list record) (now1 now2 : Z) (k : name) (ts : Z) : list record * bool :=
  let l := cleanUp o now1 l in
  if (ts * 1000 <? now2 - o_grace o) || (now2 + o_grace o <? ts * 1000) then (l, false)
  else
    match findByKeyName l k with
    | Some r => if ts <=? r_ts r then (l, false) else (l, true)
    | None => (l, true)
    end.
(** validation_policy_command_interest.py 128-151: checkPolicy for an Interest, up to the call
    of the inner policy: the key name and timestamp kept by the success callback *)
Definition checkPolicy (o : options) (l : list record) (now1 now2 : Z) (n : name) : res (list record * option (name * Z)) :=
  r <-- parseCommandInterest n ;;
  match r with
  | None => Ok (l, None)
  | Some (k, ts) => let '(l', pass) := checkTimestamp o l now1 now2 k ts in Ok (l', if pass : bool then Some (k, ts) else None)
  end.
(** container.pop of the index found *)
Fixpoint popKey (l : list record) (k : name) : list record :=
  match l with [] => [] | r :: l' => if n_equals (r_key r) k then l' else r :: popKey l' k end.
(** validation_policy_command_interest.py 247-248, 254-270: the success callback, _insertNewRecord *)
Definition insertNewRecord (l : list record) (now : Z) (k : name) (ts : Z) : list record := popKey l k ++ [Rec k ts now].

(** ** CommandInterestPreparer *)
(** command_interest_preparer.py 46-48: the constructor: the last used timestamp *)
Definition preparer_new (now : Z) : Z := round1000 now.
(** command_interest_preparer.py 68-69: the loop [while timestamp <= last: timestamp += 1.0] *)
Fixpoint bump (fuel : nat) (timestamp last : Z) : Z :=
  match fuel with
  | O => timestamp
  | S fuel' => if timestamp <=? last then bump fuel' (timestamp + 1) last else timestamp
  end.
(** command_interest_preparer.py 65-73: the timestamp, which is also the new last used one *)
Definition next_timestamp (last now : Z) : Z := let t := round1000 now in bump (Z.to_nat (last - t + 1)) t last.
(** command_interest_preparer.py 50-85: prepareCommandInterestName; [random] is the 8 bytes of
    the random number generator.  The new last used timestamp and the name. *)
Definition prepareCommandInterestName (last now : Z) (random : bytes) (n : name) : Z * res name :=
  let timestamp := next_timestamp last now in
  (timestamp,
   e <-- le_writeNonNegativeInteger timestamp (le_new 8) ;;
   Ok ((n ++ [c_generic (le_getOutput e)]) ++ [c_generic random])).
(** command_interest_signer.py 87-93 and security/key_chain.py 541-560 (sign an Interest): the components of the
    signature appended to the prepared name (the signature itself is given) *)
Definition signName (n : name) (s : signature) : res name :=
  i <-- encodeSignatureInfo s ;; Ok (n ++ [c_generic i; c_generic (encodeSignatureValue s)]).
