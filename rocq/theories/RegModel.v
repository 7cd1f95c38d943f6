(** * Model of the registerPrefix command: Node._nfdRegisterPrefix, makeCommandInterest,
    CommandInterestGenerator.generate.

    python/pyndn/node.py 191-253, 556-606; util/command_interest_generator.py. The bytes of the
    parameters are CtlModel, the prepared name is CmdModel, the registration in the node is
    NodeModel (ORegister, registerOnData). *)
From Verif Require Import Base NameModel CalModel WireModel CtlModel MatchModel NodeModel CmdModel RecvModel.

(** registration_options.py 37-46: the flags and the origin *)
Record options : Type := Options { op_flags : regOptions; op_origin : option Z }.
Definition text_localhost : bytes := [108; 111; 99; 97; 108; 104; 111; 115; 116].
Definition text_localhop : bytes := [108; 111; 99; 97; 108; 104; 111; 112].
Definition text_nfd : bytes := [110; 102; 100].
Definition text_rib : bytes := [114; 105; 98].
Definition text_register : bytes := [114; 101; 103; 105; 115; 116; 101; 114].

(** node.py 574-581 *)
Definition registerParameters (prefix : name) (o : options) : controlParameters :=
  let origin := match op_origin o with Some v => if 0 <=? v then Some v else None | None => None end in
  CP (Some prefix) None [] None origin None (op_flags o) [] None.

(** node.py 567-598 and command_interest_generator.py 59-65. [last] is the last used timestamp
    of the generator, [sign] KeyChain.sign (the signature of the prepared Interest with the
    command certificate), [now] and [random] the clock and the random bytes. Result: the new
    last used timestamp and the command Interest, or the exception. *)
Definition registerCommand (isLocal hasKeyChain : bool) (certificateName prefix : name) (o : options) (last now : Z) (random : bytes)
    (sign : name -> res signature) : Z * res interest :=
  if negb hasKeyChain then (last, Err RuntimeError)
  else if zlen certificateName =? 0 then (last, Err RuntimeError)
  else
    match encodeControlParameters (registerParameters prefix o) with
    | Err x => (last, Err x)
    | Ok w =>
        let n := [c_generic (if isLocal then text_localhost else text_localhop); c_generic text_nfd; c_generic text_rib; c_generic text_register] ++ [c_generic w] in
        let lifetime := if isLocal then 2000 else 4000 in
        let r := prepareCommandInterestName last now random n in
        (fst r,
         rbind (snd r) (fun p => rbind (sign p) (fun s => rbind (signName p s) (fun m =>
         (* setCanBePrefix(True) is a null maxSuffixComponents; command_interest_generator.py 62-65 *)
         let lifetime := if lifetime <? 0 then 1000 else lifetime in
         Ok (Interest m None None kl_empty [] None true None (Some lifetime) [] None None None)))))
    end.

(** node.py 122-125: expressInterest gives the interest a nonce of four random bytes *)
Definition withNonce (i : interest) (nonce : bytes) : interest :=
  Interest (i_name i) (i_min i) (i_max i) (i_keyLocator i) (i_exclude i) (i_child i) (i_mustBeFresh i)
    (match i_nonce i with Some (b :: n) => Some (b :: n) | _ => Some nonce end) (i_lifetime i) (i_hint i) (i_params i) (i_link i) (i_selected i).

Section Node.
Variable sha256 : bytes -> bytes.
Variable F : Type.
Variable fmatch : F -> name -> res bool.
Variable prefixFilter : name -> F.              (* InterestFilter(prefix) *)
Variable rnd : bytes.
(** node.py 209-253, 600-606: registerPrefix; the state of the node and the last used timestamp *)
Definition registerPrefix (isLocal hasKeyChain : bool) (certificateName : name) (sign : name -> res signature)
    (st : state interest data F * Z) (rid : Z) (prefix : name) (o : options) (hasOnInterest : bool) (now clock : Z) (random nonce : bytes) : state interest data F * Z :=
  let r := registerCommand isLocal hasKeyChain certificateName prefix o (snd st) clock random sign in
  match snd r with
  | Err x => (logs interest data F (fst st) [LRaise interest data F x], fst r)
  | Ok i => (RecvModel.step sha256 F fmatch rnd (fst st) (ORegister interest data F rid (prefixFilter prefix) hasOnInterest (withNonce i nonce) now), fst r)
  end.
End Node.
