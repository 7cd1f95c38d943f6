(** * Model of util/segment_fetcher.py and sync/detail/psync_segment_publisher.py *)
From Verif Require Import Base TlvModel NameModel WireModel.
Local Open Scope res_scope.

(** ** SegmentFetcher: one object, driven by the callbacks of the interest it expressed last or
    of the verification it started last. Each step starts at most one of them, and the face and
    the key chain call back once (C27), so a callback which is not awaited does not happen. *)

(** 124-130: ErrorCode *)
Inductive error : Type := INTEREST_TIMEOUT | DATA_HAS_NO_SEGMENT | SEGMENT_VERIFICATION_FAILED.
Inductive event : Type :=
| LExpress (i : interest) | LComplete (b : bytes) | LError (e : error)
| LRaise (x : exn).   (* an exception leaves the callback: the face logs it, the fetcher stops *)
(** what the fetcher waits for *)
Inductive wait : Type := WInterest (i : interest) | WVerify (i : interest) (d : data).
Record state : Type := State { s_parts : list (option bytes); s_wait : option wait; s_log : list event }.

Definition finish (s : state) (e : event) : state := State (s_parts s) None (s_log s ++ [e]).
Definition express (s : state) (i : interest) : state := State (s_parts s) (Some (WInterest i)) (s_log s ++ [LExpress i]).

(** 197-201: _fetchFirstSegment; the setters clear the nonce of the copy *)
Definition firstInterest (base : interest) : interest :=
  Interest (i_name base) (i_min base) (i_max base) (i_keyLocator base) (i_exclude base) (Some 1) true None (i_lifetime base) (i_hint base) (i_params base) (i_link base) (i_selected base).
Definition start (base : interest) : state := express (State [] None []) (firstInterest base).
(** 203-211: _fetchNextSegment *)
Definition nextInterest (i : interest) (dataName : name) (segment : Z) : res interest :=
  p <-- n_getPrefix dataName (-1) ;;
  c <-- c_fromSegment segment ;;
  Ok (Interest (p ++ [c]) (i_min i) (i_max i) (i_keyLocator i) (i_exclude i) (Some 0) false None (i_lifetime i) (i_hint i) (i_params i) (i_link i) (i_selected i)).
Definition fetchNext (s : state) (i : interest) (dataName : name) (segment : Z) : state :=
  match nextInterest i dataName segment with Ok j => express s j | Err x => finish s (LRaise x) end.

(** 290-299: concatenate; assigning the buffer of a null Blob raises TypeError *)
Fixpoint concat_parts (l : list (option bytes)) : res bytes :=
  match l with
  | [] => Ok []
  | None :: _ => Err TypeError
  | Some b :: r => t <-- concat_parts r ;; Ok (b ++ t)
  end.
(** 328-337 *)
Definition endsWithSegment (n : name) : bool := match py_getitem n (-1) with Ok c => c_isSegment c | Err _ => false end.

(** 236-309: _onVerified *)
Definition onVerified (s : state) (d : data) (i : interest) : state :=
  if negb (endsWithSegment (d_name d)) then finish s (LError DATA_HAS_NO_SEGMENT)
  else
    match rbind (py_getitem (d_name d) (-1)) c_toSegment with
    | Err RuntimeError => finish s (LError DATA_HAS_NO_SEGMENT)
    | Err x => finish s (LRaise x)
    | Ok current =>
        let expected := zlen (s_parts s) in
        if negb (current =? expected) then fetchNext s i (d_name d) expected
        else
          let s1 := State (s_parts s ++ [d_content d]) (s_wait s) (s_log s) in
          let final := mi_final (d_meta d) in
          if 0 <? zlen (c_value final) then
            match c_toSegment final with
            | Err RuntimeError => finish s1 (LError DATA_HAS_NO_SEGMENT)
            | Err x => finish s1 (LRaise x)
            | Ok f =>
                if current =? f then
                  match concat_parts (s_parts s1) with
                  | Ok content => finish s1 (LComplete content)
                  | Err x => finish s1 (LRaise x)
                  end
                else fetchNext s1 i (d_name d) (expected + 1)
            end
          else fetchNext s1 i (d_name d) (expected + 1)
    end.

(** The callbacks. [keyChain]: a validator key chain was given; otherwise verifySegment is called,
    whose result (or exception) comes with the data. *)
Inductive op : Type :=
| FData (d : data) (verify : res bool) | FTimeout          (* of the face *)
| FVerified | FFailed | FVerifyRaises.                     (* of KeyChain.verifyData *)
Definition step (keyChain : bool) (s : state) (o : op) : state :=
  match s_wait s, o with
  | Some (WInterest i), FData d v =>
      (* 213-234: _onData *)
      if keyChain then State (s_parts s) (Some (WVerify i d)) (s_log s)
      else match v with
           | Err x => finish s (LRaise x)
           | Ok false => finish s (LError SEGMENT_VERIFICATION_FAILED)
           | Ok true => onVerified s d i
           end
  | Some (WInterest i), FTimeout => finish s (LError INTEREST_TIMEOUT)       (* 320-326 *)
  | Some (WVerify i d), FVerified => onVerified s d i
  | Some (WVerify i d), FFailed => finish s (LError SEGMENT_VERIFICATION_FAILED)  (* 311-318 *)
  | Some (WVerify i d), FVerifyRaises => finish s (LRaise OtherError)        (* 221-222: logged *)
  | _, _ => s
  end.
Definition run (keyChain : bool) (s : state) (os : list op) : state := fold_left (step keyChain) os s.

(** ** PSyncSegmentPublisher.publish, 51-120. The time stamp in the version component and the
    signature are given. Storing, and removing after the freshness period, are left out (see
    StorageModel). int(x / y) of the float quotient is taken as the integer division, which is the
    same for any length below 2^52. *)
Definition maxPacketSize : Z := 4400.
(** 83-120, the loop; [fuel] bounds the number of segments *)
Fixpoint segments (fuel : nat) (content : bytes) (begin segmentNo : Z) : list (Z * bytes) :=
  match fuel with
  | O => []
  | S fuel' =>
      let e := begin + maxPacketSize in
      let e := if zlen content <? e then zlen content else e in
      (segmentNo, zslice content begin e) ::
      (if e <? zlen content then segments fuel' content e (segmentNo + 1) else [])
  end.
Fixpoint map_res {A B} (f : A -> res B) (l : list A) : res (list B) :=
  match l with [] => Ok [] | a :: r => b <-- f a ;; rs <-- map_res f r ;; Ok (b :: rs) end.
(** The packets, in order, and the one that is sent to the face, if any. *)
Definition publish (interestName dataName : name) (content : bytes) (freshness : option Z) (version : Z) (sig : data -> signature) : res (list data * list data) :=
  last <-- py_getitem interestName (-1) ;;
  interestSegment <-- (if c_isSegment last then c_toSegment last else Ok 0) ;;
  let totalSegments := zlen content / maxPacketSize in
  finalBlockId <-- c_fromSegment totalSegments ;;
  v <-- c_fromVersion version ;;
  let prefix := dataName ++ [v] in
  ds <-- map_res (fun x =>
           c <-- c_fromSegment (fst x) ;;
           let d := Data (prefix ++ [c]) (MI 0 (-1) freshness finalBlockId) (Some (snd x)) (SigDigest None) in
           Ok (fst x, Data (d_name d) (d_meta d) (d_content d) (sig d)))
         (segments (S (length content)) content 0 0) ;;
  Ok (map snd ds, map snd (filter (fun x => fst x =? interestSegment) ds)).
