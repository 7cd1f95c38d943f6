(** * Model of Exclude.matches, KeyLocator.equals, Interest.matchesName and matchesData. *)
From Verif Require Import Base TlvModel NameModel WireModel.
Local Open Scope res_scope.

(** exclude.py 204-210: the first component entry at or after a position *)
Fixpoint ex_upper (es : list exentry) : option comp :=
  match es with [] => None | ExComp c :: _ => Some c | ExAny :: es' => ex_upper es' end.

(** exclude.py 187-240: matches. [es] are the entries from index i on, [prev] the entry at
    i - 1, [jump] tells that i is still below iUpperBound (line 226 skips these entries).
    An ANY entry as lower bound has component None: compare(None) raises AttributeError. *)
Fixpoint ex_from (prev : option exentry) (jump : bool) (es : list exentry) (c : comp) : res bool :=
  match es with
  | [] => Ok false
  | ExAny :: es' =>
      if jump then ex_from (Some ExAny) true es' c
      else
        match ex_upper es' with
        | Some u =>
            hit <-- match prev with
                    | Some (ExComp l) => Ok ((0 <? c_compare c l) && (c_compare c u <? 0))
                    | Some ExAny => Err AttributeError
                    | None => Ok (c_compare c u <? 0)
                    end ;;
            if hit : bool then Ok true else ex_from (Some ExAny) true es' c
        | None =>
            match prev with
            | Some (ExComp l) => if 0 <? c_compare c l then Ok true else ex_from (Some ExAny) false es' c
            | Some ExAny => Err AttributeError
            | None => Ok true
            end
        end
  | ExComp e :: es' => if c_equals c e then Ok true else ex_from (Some (ExComp e)) false es' c
  end.
Definition ex_matches (es : list exentry) (c : comp) : res bool := ex_from None false es c.

(** key_locator.py 191-206: equals (both objects exist). The types are compared as
    integers or None; the key data are Blobs. *)
Definition kl_typeEqual (a b : option Z) : bool :=
  match a, b with None, None => true | Some x, Some y => x =? y | _, _ => false end.
Definition oblob_equals (a b : option bytes) : bool :=
  match a, b with None, None => true | Some x, Some y => zlist_eqb x y | _, _ => false end.
Definition kl_equals (a b : keyLocator) : bool :=
  if negb (kl_typeEqual (kl_type a) (kl_type b)) then false
  else if kl_typeEqual (kl_type a) (Some 1) && negb (n_equals (kl_name a) (kl_name b)) then false
  else if kl_typeEqual (kl_type a) (Some 2) && negb (oblob_equals (kl_data a) (kl_data b)) then false
  else true.

(** key_locator.py 129-166: canGetFromSignature, getFromSignature *)
Definition kl_ofSignature (s : signature) : option keyLocator :=
  match s with SigRsa kl _ _ => Some kl | SigEcdsa kl _ _ => Some kl | SigHmac kl _ => Some kl | _ => None end.

(** interest.py 732-759: matchesName *)
Definition i_matchesName (i : interest) (n : name) : res bool :=
  if negb (n_match (i_name i) n) then Ok false
  else if match i_min i with Some m => negb (m <=? zlen n + 1 - zlen (i_name i)) | None => false end then Ok false
  else if match i_max i with Some m => negb (zlen n + 1 - zlen (i_name i) <=? m) | None => false end then Ok false
  else if (0 <? zlen (i_exclude i)) && (zlen (i_name i) <? zlen n) then
    c <-- py_getitem n (zlen (i_name i)) ;;
    ex <-- ex_matches (i_exclude i) c ;;
    Ok (negb ex)
  else Ok true.

Section FullName.
(** The SHA-256 function (the cryptography package), an arbitrary function here. *)
Variable sha256 : bytes -> bytes.

(** data.py 239-243: getFullName without the cached value (see C25) *)
Definition d_fullName (d : data) : res name :=
  w <-- encodeData d ;;
  c <-- c_fromImplicitSha256Digest (sha256 (fst w)) ;;
  Ok (d_name d ++ [c]).

(** interest.py 761-835: matchesData *)
Definition i_matchesData (i : interest) (d : data) : res bool :=
  let interestNameLength := zlen (i_name i) in
  let fullNameLength := zlen (d_name d) + 1 in
  let minSuffix := match i_min i with Some m => m | None => 0 end in
  if negb (interestNameLength + minSuffix <=? fullNameLength) then Ok false
  else if match i_max i with Some m => negb (fullNameLength <=? interestNameLength + m) | None => false end then Ok false
  else
    pre <-- (if interestNameLength =? fullNameLength then
               last <-- py_getitem (i_name i) (-1) ;;
               if c_type last =? CT_IMPLICIT then
                 full <-- d_fullName d ;; Ok (n_equals (i_name i) full)
               else Ok false
             else Ok (n_match (i_name i) (d_name d))) ;;
    if negb pre then Ok false
    else
      ex <-- (if (0 <? zlen (i_exclude i)) && (interestNameLength <? fullNameLength) then
                if interestNameLength =? fullNameLength - 1 then
                  full <-- d_fullName d ;;
                  c <-- py_getitem full interestNameLength ;;
                  ex_matches (i_exclude i) c
                else
                  c <-- py_getitem (d_name d) interestNameLength ;;
                  ex_matches (i_exclude i) c
              else Ok false) ;;
      if ex : bool then Ok false
      else
        match kl_type (i_keyLocator i) with
        | None => Ok true
        | Some _ =>
            match kl_ofSignature (d_sig d) with
            | None => Ok false
            | Some kl => Ok (kl_equals (i_keyLocator i) kl)
            end
        end.
End FullName.
