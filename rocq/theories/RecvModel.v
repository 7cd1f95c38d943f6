(** * Model of a node on a byte stream: decoding a received element and dispatching it,
    sending Data and Nacks.

    python/pyndn/node.py 301-362, 403-467, 711-752. The pending interests, filters and
    callbacks are NodeModel, here with the real packets: MatchModel.i_matchesData,
    WireModel.encodeInterest and the decoders of WireModel and CtlModel. *)
From Verif Require Import Base NameModel WireModel CtlModel MatchModel NodeModel ReaderModel BagModel.
From Verif Require TlvModel.

(** ** node.py 403-461: from the element to what is dispatched *)
(** The LpPacket whose header fields are attached to the packet (setLpPacket), if any. *)
Notation headers := (option (list lpField)).
Inductive received : Type :=
| RInterest (i : interest) (lp : headers)     (* dispatched to the interest filters *)
| RData (d : data) (lp : headers)             (* satisfies pending interests *)
| RNack (i : interest) (n : networkNack)      (* for the pending interests equal to i *)
| RDropped.

(** node.py 422-437: decode the (inner) element as Interest or Data; None: neither. *)
Definition decodeInner (e : bytes) : res (option (interest + data)) :=
  (b <-- TlvModel.d_peekType 5 (zlen e) e 0 ;;
   if (fst b : bool) then r <-- decodeInterest i_empty e ;; Ok (Some (inl (fst r)))
   else
     b <-- TlvModel.d_peekType 6 (zlen e) e 0 ;;
     if (fst b : bool) then r <-- decodeData data_new e ;; Ok (Some (inr (fst r)))
     else Ok None)%res.

(** node.py 412-467. [element[0]] of an empty element raises IndexError; a packet with no
    fragment has getFragmentWireEncoding().buf() = None, of which TlvDecoder(None) does not
    raise but len(None) does. *)
Definition receive (element : bytes) : res received :=
  match element with
  | [] => Err IndexError
  | b :: _ =>
      if b =? 100 then
        (p <-- decodeLpPacket element ;;
         match lp_fragment p with
         | None => Err TypeError
         | Some e =>
             r <-- decodeInner e ;;
             match lp_firstNack (lp_fields p) with
             | Some n => Ok match r with Some (inl i) => RNack i n | _ => RDropped end
             | None => Ok match r with
                          | Some (inl i) => RInterest i (Some (lp_fields p))
                          | Some (inr d) => RData d (Some (lp_fields p))
                          | None => RDropped
                          end
             end
         end)%res
      else
        (r <-- decodeInner element ;;
         Ok match r with Some (inl i) => RInterest i None | Some (inr d) => RData d None | None => RDropped end)%res
  end.
(** The element listener given to the transport: it raises when the element does not decode.
    Simplification: an exception of the dispatch (of a matching test) is an event of the node. *)
Definition listener (element : bytes) : option exn := match receive element with Err x => Some x | Ok _ => None end.

(** ** The node *)
Section Node.
Variable sha256 : bytes -> bytes.
Variable F : Type.                              (* InterestFilter *)
Variable fmatch : F -> name -> res bool.        (* InterestFilter.doesMatch *)
Variable rnd : bytes.                           (* the random bytes that complete a short nonce *)

Definition wire (i : interest) : res bytes := (w <-- encodeInterest rnd i ;; Ok (fst w))%res.
(** node.py 77: Name("/local/timeout") *)
Definition timeoutPrefix : name := [c_generic [108; 111; 99; 97; 108]; c_generic [116; 105; 109; 101; 111; 117; 116]].
Definition isLocalTimeout (i : interest) : bool := n_match timeoutPrefix (i_name i).
(** node.py 780-794: the status code; a null one (never decoded) is not 200 *)
Definition status (d : data) : res Z :=
  (r <-- decodeControlResponse (match d_content d with Some c => c | None => [] end) ;;
   Ok (match cr_code r with Some c => c | None => -1 end))%res.
Notation state := (state interest data F).
Definition step : state -> op interest data F -> state :=
  NodeModel.step interest data F (i_matchesData sha256) wire i_lifetime isLocalTimeout (fun f i => fmatch f (i_name i)) status.
Definition run (s : state) (os : list (op interest data F)) : state := fold_left step os s.
Notation raise s x := (logs interest data F s [LRaise interest data F x]).
Notation sends s b := (logs interest data F s [LSend interest data F b]).

(** node.py 403-467: onReceivedElement *)
Definition onReceivedElement (s : state) (element : bytes) : state :=
  match receive element with
  | Err x => raise s x
  | Ok (RInterest i _) => step s (OReceiveInterest interest data F i)
  | Ok (RData d _) => step s (OReceiveData interest data F d)
  | Ok (RNack i _) => step s (OReceiveNack interest data F i)
  | Ok RDropped => s
  end.

(** node.py 350-362: send *)
Definition send (s : state) (encoding : bytes) : state :=
  if maxPacketSize <? zlen encoding then raise s RuntimeError else sends s encoding.
(** node.py 301-329: putData. With the loopback, the pending interests of the application are
    satisfied, and if there was one then the packet is not sent. *)
Definition putData (s : state) (d : data) : state :=
  let out :=
    match encodeData d with
    | Err x => raise s x
    | Ok (w, _) => if maxPacketSize <? zlen w then raise s RuntimeError else send s w
    end in
  if s_loopback _ _ _ s then
    let '(s1, es, x) := pit_extract interest data F s (fun e => i_matchesData sha256 (e_int _ _ e) d) in
    match x with
    | Some x => raise s1 x
    | None => match es with [] => out | _ => push _ _ _ s1 (FrData _ _ _ es d) end
    end
  else out.
(** node.py 331-348: putNack *)
Definition putNack (s : state) (i : interest) (n : networkNack) : state :=
  match (w <-- wire i ;; encodeLpNack w n)%res with
  | Err x => raise s x
  | Ok p => if maxPacketSize <? zlen p then raise s RuntimeError else send s p
  end.
End Node.
