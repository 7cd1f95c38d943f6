(** * Model of Link (python/pyndn/link.py): a Data packet whose content is a DelegationSet

    An operation returns the object after it also when it raises. The cached wire encoding of Data is not shown (C24). *)
From Verif Require Import Base TlvModel NameModel WireModel DelegModel BagModel.

Record link : Type := Link { l_data : data; l_ds : list delegation }.
(** meta_info.py 98-108: getMetaInfo().setType(ContentType.LINK) *)
Definition setLinkType (d : data) : data :=
  Data (d_name d) (MI 1 (mi_other (d_meta d)) (mi_freshness (d_meta d)) (mi_final (d_meta d))) (d_content d) (d_sig d).
(** data.py 290-300: setContent; 251-261: setName; 276-288: setSignature; meta_info.py: setFreshnessPeriod *)
Definition setContent (d : data) (c : option bytes) : data := Data (d_name d) (d_meta d) c (d_sig d).
Definition setName (d : data) (n : name) : data := Data n (d_meta d) (d_content d) (d_sig d).
Definition setSignature (d : data) (s : signature) : data := Data (d_name d) (d_meta d) (d_content d) s.
Definition setFreshness (d : data) (f : option Z) : data :=
  Data (d_name d) (MI (mi_type (d_meta d)) (mi_other (d_meta d)) f (mi_final (d_meta d))) (d_content d) (d_sig d).

(** link.py 45, 56-58: Link() and Link(name) *)
Definition link_new (n : name) : link := Link (setLinkType (setName data_new n)) [].
(** link.py 45-55: Link(data) *)
Definition link_copy (d : data) : link :=
  match d_content d with
  | None => Link d []
  | Some c => match decodeDelegationSet c with Ok ds => Link (setLinkType d) ds | Err _ => Link d [] end
  end.
(** link.py 140-149: encodeContent *)
Definition encodeContent (l : link) : link * res unit :=
  match encodeDelegationSet (l_ds l) with
  | Err e => (l, Err e)
  | Ok c => (Link (setLinkType (setContent (l_data l) (Some c))) (l_ds l), Ok tt)
  end.
(** link.py 82-105: addDelegation *)
Definition addDelegation (l : link) (preference : Z) (n : name) : link * res unit :=
  match ds_add preference n (l_ds l) with
  | Err e => (l, Err e)
  | Ok ds => encodeContent (Link (l_data l) ds)
  end.
(** link.py 107-128: removeDelegation *)
Definition removeDelegation (l : link) (n : name) : link * res bool :=
  let r := ds_remove n (l_ds l) in
  if snd r then let x := encodeContent (Link (l_data l) (fst r)) in (fst x, match snd x with Ok _ => Ok true | Err e => Err e end)
  else (Link (l_data l) (fst r), Ok false).
(** link.py 60-80: wireDecode. What a failed decoding leaves in the Data fields and in the delegations is a parameter. *)
Definition wireDecode (partData : data -> bytes -> data) (partSet : bytes -> list delegation) (l : link) (input : bytes) : link * res unit :=
  match decodeData (l_data l) input with
  | Err e => (Link (partData (l_data l) input) (l_ds l), Err e)
  | Ok (d, _) =>
      if negb (mi_type (d_meta d) =? 1) then (Link d (l_ds l), Err RuntimeError)
      else match d_content d with
           | None => (Link d (l_ds l), Err TypeError)
           | Some c => match decodeDelegationSet c with Ok ds => (Link d ds, Ok tt) | Err e => (Link d (partSet c), Err e) end
           end
  end.

(** Calls of an application *)
Inductive lop : Type := LAdd (preference : Z) (n : name) | LRemove (n : name) | LSetName (n : name) | LSetSignature (s : signature) | LSetFreshness (f : option Z).
Definition lstep (l : link) (o : lop) : link * res bool :=
  match o with
  | LAdd p n => let r := addDelegation l p n in (fst r, match snd r with Ok _ => Ok true | Err e => Err e end)
  | LRemove n => removeDelegation l n
  | LSetName n => (Link (setName (l_data l) n) (l_ds l), Ok true)
  | LSetSignature s => (Link (setSignature (l_data l) s) (l_ds l), Ok true)
  | LSetFreshness f => (Link (setFreshness (l_data l) f) (l_ds l), Ok true)
  end.
Definition lrun (h : list lop) (l : link) : link * list (res bool) :=
  fold_left (fun x o => let r := lstep (fst x) o in (fst r, snd x ++ [snd r])) h (l, []).
