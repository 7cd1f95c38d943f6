(** * Model of Validator, ValidationState and CertificateFetcher

    A packet to validate is a value of any type [P], a certificate (a Data packet) a value of
    any type [C], an Interest for a certificate a value of any type [I].  The policy, the
    verification of signatures, the directories of trust anchors and Face.expressInterest are
    arbitrary functions.  The policy gives its verdict before checkPolicy returns: it calls
    state.fail, calls continueValidation, raises or does nothing; the number of the event is
    one of its arguments, so it may change its mind.  The clock has one value during one event.
    A validation state is updated in place in Python; here it is passed along, also by
    exceptions.  Copies of certificates are the values themselves.  Log messages and error texts
    are not modelled. *)
From Verif Require Import Base NameModel DictModel CertModel AnchorSpec.
Local Open Scope res_scope.

(** What checkPolicy or checkCertificatePolicy does (validation_policy.py 93-130) *)
Inductive verdict (I : Type) : Type :=
  | VFail
  | VContinue (request : option I)
  | VRaise (e : exn)
  | VNothing.
Arguments VFail {I}.
Arguments VContinue {I}.
Arguments VRaise {I}.
Arguments VNothing {I}.
(** What the caller of validate sees: the success callback, the failure callback, an exception
    from validate; or (not visible) a policy that does nothing *)
Inductive note : Type := Success | Failure | Raised (e : exn) | Silent.

Section Val.
Context {P C I : Type}.
Variable ct_name : C -> name.
(** certificate_v2.py 172-185: getValidityPeriod: notBefore and notAfter *)
Variable ct_period : C -> res (Z * Z).
(** certificate_v2.py 90-120: CertificateV2(data), the check of the format *)
Variable ct_check : C -> res unit.
Variable i_name : I -> name.
(** interest.py matchesData *)
Variable i_matches : I -> C -> bool.
(** verification_helpers.py 109-156, 159-213: verifyDataSignature or verifyInterestSignature
    of the original packet, and verifyDataSignature of a certificate *)
Variable ver : P -> C -> res bool.
Variable verc : C -> C -> res bool.
(** the policy, for the packet and for a certificate, by the number of the event *)
Variable pol : nat -> P -> verdict I.
Variable polc : nat -> C -> verdict I.
(** Face.expressInterest raises? *)
Variable express : nat -> I -> option exn.
(** the contents of the paths of the dynamic trust anchor groups *)
Variable files : nat -> Z -> res (list (option C)).
(** true for CertificateFetcherFromNetwork, false for CertificateFetcherOffline *)
Variable online : bool.
(** validator.py 72, 100-106 *)
Variable maxDepth : Z.

Definition ct_notAfter (c : C) : res Z := p <-- ct_period c ;; Ok (snd p).
(** certificate_v2.py 187-200 and validity_period.py isValid *)
Definition ct_isValid (now : Z) (c : C) : res bool := p <-- ct_period c ;; Ok ((fst p <=? now) && (now <=? snd p)).

(** validation_state.py 46-52, data_validation_state.py 46-57: the state.  The number of the
    validation stands for the two callbacks. *)
Record vstate : Type := VS { vs_id : nat; vs_packet : P; vs_chain : list C; vs_seen : list name; vs_outcome : option bool }.
(** A request in the hands of the face: the state, the Interest, the retries left
    (certificate_request.py 40-46), and how many times the continuation stores the certificate
    as unverified (certificate_fetcher.py 77-79) *)
Record pending : Type := Pend { pd_state : vstate; pd_req : I; pd_retries : Z; pd_layers : nat }.
(** certificate_storage.py 30-33; what was called so far; the face; the next validation *)
Record world : Type := W { w_tc : container C; w_ver : cache C; w_unv : cache C; w_log : list (nat * note); w_pend : list pending; w_next : nat; w_event : nat }.
Definition w_new : world := W tc_new (cc_new (3600 * 1000)) (cc_new (300 * 1000)) [] [] 0 0.

Definition M (A : Type) : Type := world * vstate -> (world * vstate) * res A.
Definition ret {A} (x : A) : M A := fun s => (s, Ok x).
Definition raise {A} (e : exn) : M A := fun s => (s, Err e).
Definition bind {A B} (m : M A) (k : A -> M B) : M B := fun s => match m s with (s', Ok x) => k x s' | (s', Err e) => (s', Err e) end.
Definition lift {A} (r : res A) : M A := fun s => (s, r).
Notation "x <- m ;; k" := (bind m (fun x => k)) (at level 90, m at level 89, right associativity).
Notation "m ;; k" := (bind m (fun _ => k)) (at level 90, right associativity).

Definition setTc (w : world) (t : container C) : world := W t (w_ver w) (w_unv w) (w_log w) (w_pend w) (w_next w) (w_event w).
Definition setVer (w : world) (c : cache C) : world := W (w_tc w) c (w_unv w) (w_log w) (w_pend w) (w_next w) (w_event w).
Definition setUnv (w : world) (c : cache C) : world := W (w_tc w) (w_ver w) c (w_log w) (w_pend w) (w_next w) (w_event w).
Definition addLog (w : world) (i : nat) (n : note) : world := W (w_tc w) (w_ver w) (w_unv w) (w_log w ++ [(i, n)]) (w_pend w) (w_next w) (w_event w).
Definition setPend (w : world) (l : list pending) : world := W (w_tc w) (w_ver w) (w_unv w) (w_log w) l (w_next w) (w_event w).
Definition setChain (s : vstate) (l : list C) : vstate := VS (vs_id s) (vs_packet s) l (vs_seen s) (vs_outcome s).
Definition setSeen (s : vstate) (l : list name) : vstate := VS (vs_id s) (vs_packet s) (vs_chain s) l (vs_outcome s).

(** one call of a callback; an exception of the callback is caught *)
Definition callback (n : note) : M unit := fun '(w, s) => ((addLog w (vs_id s) n, s), Ok tt).
(** validation_state.py 128-139: setOutcome *)
Definition setOutcome (b : bool) : M unit := fun '(w, s) =>
  match vs_outcome s with
  | Some _ => ((w, s), Err RuntimeError)
  | None => ((w, VS (vs_id s) (vs_packet s) (vs_chain s) (vs_seen s) (Some b)), Ok tt)
  end.
(** data_validation_state.py 59-71, interest_validation_state.py 60-72: fail *)
Definition fail : M unit := callback Failure ;; setOutcome false.
(** data_validation_state.py 83-102, interest_validation_state.py 91-113: _verifyOriginalPacket *)
Definition verifyOriginalPacket (t : C) : M unit := fun st =>
  (b <- lift (ver (vs_packet (snd st)) t) ;; if b : bool then (callback Success ;; setOutcome true) else fail) st.
(** data_validation_state.py 104-116, interest_validation_state.py 115-129: _bypassValidation *)
Definition bypassValidation : M unit := callback Success ;; setOutcome true.

(** validation_state.py 160-196: _verifyCertificateChain: the certificates still to verify, and
    how many were verified before them *)
Fixpoint verifyLoop (i : nat) (chain : list C) (validated : C) : M (option C) :=
  match chain with
  | [] => ret (Some validated)
  | c :: rest =>
      b <- lift (verc c validated) ;;
      if b : bool then verifyLoop (S i) rest c
      else (fail ;; (fun '(w, s) => ((w, setChain s (firstn i (vs_chain s))), Ok None)))
  end.
Definition verifyCertificateChain (t : C) : M (option C) := fun st => verifyLoop 0 (vs_chain (snd st)) t st.

(** certificate_storage.py 35-49: findTrustedCertificate *)
Definition findTrusted (now : Z) (r : I) : M (option C) := fun '(w, s) =>
  match tc_find ct_name ct_check i_name i_matches (w_tc w) now (files (w_event w)) r with
  | (t, Err e) => ((setTc w t, s), Err e)
  | (t, Ok (Some c)) => ((setTc w t, s), Ok (Some c))
  | (t, Ok None) =>
      let w := setTc w t in
      match cc_find ct_name i_name i_matches (w_ver w) now r with
      | Err e => ((w, s), Err e)
      | Ok (v, o) => ((setVer w v, s), Ok o)
      end
  end.
(** certificate_storage.py 64-70, 129-136 *)
Definition cacheVerified (now : Z) (c : C) : M unit := fun '(w, s) => let '(v, r) := cc_insert ct_name ct_notAfter ct_check (w_ver w) now c in ((setVer w v, s), r).
Definition cacheUnverified (now : Z) (c : C) : M unit := fun '(w, s) => let '(v, r) := cc_insert ct_name ct_notAfter ct_check (w_unv w) now c in ((setUnv w v, s), r).
Fixpoint cacheAll (now : Z) (l : list C) : M unit := match l with [] => ret tt | c :: l' => cacheVerified now c ;; cacheAll now l' end.
Fixpoint cacheLayers (now : Z) (n : nat) (c : C) : M unit := match n with O => ret tt | S n' => cacheUnverified now c ;; cacheLayers now n' c end.

(** validation_state.py 100-113: hasSeenCertificateName *)
Definition hasSeen (n : name) : M bool := fun '(w, s) =>
  if in_list n (vs_seen s) then ((w, s), Ok true) else ((w, setSeen s (n :: vs_seen s)), Ok false).
(** validation_state.py 115-126: addCertificate *)
Definition addCertificate (c : C) : M unit := fun '(w, s) =>
  match ct_check c with Ok _ => ((w, setChain s (c :: vs_chain s)), Ok tt) | Err e => ((w, s), Err e) end.

(** certificate_fetcher_from_network.py 106-111 or certificate_fetcher_offline.py 34-43: _doFetch *)
Definition doFetch (r : I) (retries : Z) (layers : nat) : M unit := fun '(w, s) =>
  if online then
    match express (w_event w) r with
    | Some _ => fail (w, s)
    | None => ((setPend w (w_pend w ++ [Pend s r retries layers]), s), Ok tt)
    end
  else fail (w, s).
(** certificate_fetcher.py 42-80: fetch, with the continuation *)
Definition fetch (now : Z) (continue : C -> M unit) (r : I) (retries : Z) (layers : nat) : M unit := fun '(w, s) =>
  match cc_find ct_name i_name i_matches (w_unv w) now r with
  | Err e => ((w, s), Err e)
  | Ok (u, Some c) => (cacheLayers now layers c ;; continue c) (setUnv w u, s)
  | Ok (u, None) => doFetch r retries (S layers) (setUnv w u, s)
  end.

(** validator.py 151-177: _validateCertificate, with _requestCertificate *)
Definition validateCertificate (now : Z) (request : I -> M unit) (c : C) : M unit := fun st =>
  (v <- lift (ct_isValid now c) ;;
   if negb v then fail
   else
     match polc (w_event (fst st)) c with
     | VFail => fail
     | VContinue None => fail
     | VContinue (Some r) => addCertificate c ;; request r
     | VRaise e => raise e
     | VNothing => callback Silent
     end) st.
(** validator.py 179-215: _requestCertificate.  [fuel] only bounds the recursion, see C42_fuel. *)
Fixpoint requestCertificate (fuel : nat) (now : Z) (r : I) : M unit :=
  match fuel with
  | O => raise OutOfFuel
  | S fuel' => fun st =>
      if maxDepth <=? zlen (vs_chain (snd st)) then fail st
      else
        (seen <- hasSeen (i_name r) ;;
         if seen : bool then fail
         else
           o <- findTrusted now r ;;
           match o with
           | Some t =>
               v <- verifyCertificateChain t ;;
               match v with Some t' => verifyOriginalPacket t' | None => ret tt end ;;
               (fun st => cacheAll now (vs_chain (snd st)) st)
           | None => fetch now (validateCertificate now (requestCertificate fuel' now)) r 3 0
           end) st
  end.
Definition enough : nat := S (Z.to_nat maxDepth).
(** validator.py 117-149: validate *)
Definition validate (now : Z) : M unit := fun st =>
  match pol (w_event (fst st)) (vs_packet (snd st)) with
  | VFail => fail st
  | VContinue None => bypassValidation st
  | VContinue (Some r) => requestCertificate enough now r st
  | VRaise e => raise e st
  | VNothing => callback Silent st
  end.

(** certificate_fetcher_from_network.py 49-67: onData *)
Definition onData (now : Z) (layers : nat) (c : C) : M unit := fun st =>
  match ct_check c with
  | Err _ => fail st
  | Ok _ => match (cacheLayers now layers c ;; validateCertificate now (requestCertificate enough now) c) st with
            | (st', Err _) => fail st'
            | (st', Ok _) => (st', Ok tt)
            end
  end.
(** certificate_fetcher_from_network.py 69-85, 87-104: onTimeout and onNetworkNack *)
Definition onTimeout (now : Z) (r : I) (retries : Z) (layers : nat) : M unit := fun st =>
  let retries := retries - 1 in
  if 0 <=? retries then
    match fetch now (validateCertificate now (requestCertificate enough now)) r retries layers st with
    | (st', Err _) => fail st'
    | (st', Ok _) => (st', Ok tt)
    end
  else fail st.

(** ** Events *)
Inductive event : Type :=
  | EValidate (now : Z) (p : P)
  (** the face answers its [j]-th pending request, with a Data packet, or with a timeout or a Nack *)
  | EData (now : Z) (j : nat) (c : C)
  | ETimeout (now : Z) (j : nat)
  (** loadAnchor, resetAnchors, getTrustAnchors().getGroup().remove, find *)
  | EAnchor (o : @t_op C)
  (** cacheVerifiedCertificate, cacheUnverifiedCertificate, resetVerifiedCertificates *)
  | EVerified (now : Z) (c : C)
  | EUnverified (now : Z) (c : C)
  | EReset.
Definition removeNth {A} (j : nat) (l : list A) : list A := firstn j l ++ skipn (S j) l.
(** The face calls one callback for a request, once, and onData only for Data that matches the
    Interest (node.py, properties C27 and C28); other events of the face are ignored. *)
Definition step (w : world) (e : event) : world :=
  let w' :=
    match e with
    | EValidate now p =>
        let id := w_next w in
        let w1 := W (w_tc w) (w_ver w) (w_unv w) (w_log w) (w_pend w) (S id) (w_event w) in
        match validate now (w1, VS id p [] [] None) with
        | ((w2, _), Ok _) => w2
        | ((w2, _), Err e) => addLog w2 id (Raised e)
        end
    | EData now j c =>
        match nth_error (w_pend w) j with
        | Some pd =>
            if i_matches (pd_req pd) c then fst (fst (onData now (pd_layers pd) c (setPend w (removeNth j (w_pend w)), pd_state pd)))
            else w
        | None => w
        end
    | ETimeout now j =>
        match nth_error (w_pend w) j with
        | Some pd => fst (fst (onTimeout now (pd_req pd) (pd_retries pd) (pd_layers pd) (setPend w (removeNth j (w_pend w)), pd_state pd)))
        | None => w
        end
    | EAnchor o => setTc w (t_step ct_name ct_check (w_tc w) o)
    | EVerified now c => setVer w (fst (cc_insert ct_name ct_notAfter ct_check (w_ver w) now c))
    | EUnverified now c => setUnv w (fst (cc_insert ct_name ct_notAfter ct_check (w_unv w) now c))
    | EReset => setVer w (cc_clear (w_ver w))
    end in
  W (w_tc w') (w_ver w') (w_unv w') (w_log w') (w_pend w') (w_next w') (S (w_event w')).
Definition run (h : list event) : world := fold_left step h w_new.
End Val.
