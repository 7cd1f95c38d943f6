(** * Model of the KeyChain constructor with locators (python/pyndn/security/key_chain.py)

    Strings are lists of code points.  The PIB files are a map from the path of the directory to the
    database of PibSqlite3 in it (SqlModel, C77); two paths are the same if they are the same string.
    [dir] is PibSqlite3.getDefaultDatabaseDirectoryPath() ($HOME/.ndn); HOME does not change.  The
    platform is not darwin.  registerPibBackend and registerTpmBackend are not modelled, nor that
    opening a file fails.  Nobody else uses the file during the constructor.  KeyChain.Error is
    [NotSupported], LocatorMismatchError is [Mismatch], PibImpl.Error is [PibFailed]. *)
From Verif Require Import Base NameModel UriModel DictModel WireModel HierModel PibModel FrontModel BagModel ChainModel SqlModel.
Notation str := (list Z).

(** ** util/config_file.py *)
(** 100-122: _parse; [lines] is the file, line by line (a trailing newline is stripped) *)
Definition conf_line (c : dict str str) (line : str) : dict str str :=
  let line := strip line in
  match line with
  | [] => c
  | x :: _ =>
      if x =? 59 then c
      else match find_idx 61 line with
           | None => c
           | Some i => dset zlist_eqb c (strip (firstn i line)) (strip (skipn (i + 1) line))
           end
  end.
Definition conf_parse (lines : list str) : dict str str := fold_left conf_line lines [].
(** 39-51: get *)
Definition conf_get (c : dict str str) (key default : str) : str := if din zlist_eqb c key then match dget zlist_eqb c key with Some v => v | None => default end else default.

(** ** Locators *)
(** "pib-sqlite3", "pib-memory", "tpm-file", "tpm-memory", "pib", "tpm" *)
Definition s_sqlite : str := [112;105;98;45;115;113;108;105;116;101;51].
Definition s_pibmem : str := [112;105;98;45;109;101;109;111;114;121].
Definition s_file : str := [116;112;109;45;102;105;108;101].
Definition s_tpmmem : str := [116;112;109;45;109;101;109;111;114;121].
Definition s_pib : str := [112;105;98].
Definition s_tpm : str := [116;112;109].
Inductive kerr : Type := NotSupported | Mismatch | NoTpmLocator | PibFailed.
(** 1474-1488: _parseLocatorUri *)
Definition parse_locator (u : str) : str * str := match find_idx 58 u with Some i => (firstn i u, skipn (i + 1) u) | None => (u, []) end.
(** 1490-1506: _parseAndCheckPibLocator; 1508-1524: _parseAndCheckTpmLocator; 1428-1471: the factories;
    1526-1541: the default schemes *)
Definition check (default : str) (known : list str) (u : str) : (str * str) + kerr :=
  let (s, l) := parse_locator u in
  let s := match s with [] => default | _ => s end in
  if existsb (zlist_eqb s) known then inl (s, l) else inr NotSupported.
Definition check_pib : str -> (str * str) + kerr := check s_sqlite [s_sqlite; s_pibmem].
Definition check_tpm : str -> (str * str) + kerr := check s_file [s_file; s_tpmmem].
(** pibScheme[0] + ":" + pibLocation[0] *)
Definition canonical (sl : str * str) : str := fst sl ++ 58 :: snd sl.

(** ** The world: the class variables of KeyChain in this process, and the files; [w_mem] is the PibMemory made last *)
Record world : Type := World { w_pibdef : option str; w_tpmdef : option str; w_files : str -> option db; w_mem : db }.
(** os.environ["NDN_CLIENT_PIB"], os.environ["NDN_CLIENT_TPM"], the lines of client.conf (none: no file) *)
Record env : Type := Env { e_pib : option str; e_tpm : option str; e_conf : list str }.
Inductive place : Type := InFile (p : str) | InMemory.
(** A KeyChain: its PIB, and the locator of its TPM; or one of security version 1 *)
Inductive keychain : Type := KC (pib : place) (tpm : str) | KV1.
Definition m (A : Type) : Type := world -> world * (A + kerr).
Definition ret {A} (a : A) : m A := fun w => (w, inl a).
Definition fail {A} (x : kerr) : m A := fun w => (w, inr x).
Definition mb {A B} (p : m A) (f : A -> m B) : m B := fun w => match p w with (w, inl a) => f a w | (w, inr x) => (w, inr x) end.
Definition lift {A} (r : A + kerr) : m A := fun w => (w, r).
Declare Scope loc_scope.
Notation "x <~~ p ;; k" := (mb p (fun x => k)) (at level 100, p at next level, right associativity) : loc_scope.
Local Open Scope loc_scope.

Section Loc.
Variable dir : str.
(** 1585-1592, 1611-1619 *)
Definition first_choice (ev : option str) (conf : list str) (key scheme : str) : str :=
  match ev with Some (c :: s) => c :: s | _ => conf_get (conf_parse conf) key (scheme ++ [58]) end.
(** 1575-1600: _getDefaultPibLocator *)
Definition get_default_pib (e : env) : m str := fun w =>
  match w_pibdef w with
  | Some l => (w, inl l)
  | None =>
      let l := first_choice (e_pib e) (e_conf e) s_pib s_sqlite in
      match check_pib l with
      | inr x => (World (Some l) (w_tpmdef w) (w_files w) (w_mem w), inr x)
      | inl sl => (World (Some (canonical sl)) (w_tpmdef w) (w_files w) (w_mem w), inl (canonical sl))
      end
  end.
(** 1602-1627: _getDefaultTpmLocator *)
Definition get_default_tpm (e : env) : m str := fun w =>
  match w_tpmdef w with
  | Some l => (w, inl l)
  | None =>
      let l := first_choice (e_tpm e) (e_conf e) s_tpm s_file in
      match check_tpm l with
      | inr x => (World (w_pibdef w) (Some l) (w_files w) (w_mem w), inr x)
      | inl sl => (World (w_pibdef w) (Some (canonical sl)) (w_files w) (w_mem w), inl (canonical sl))
      end
  end.
Definition put_file (f : str -> option db) (p : str) (d : db) : str -> option db := fun q => if zlist_eqb p q then Some d else f q.
Definition db_at (pl : place) (w : world) : db := match pl with InFile p => match w_files w p with Some d => d | None => db_new end | InMemory => w_mem w end.
Definition put_db (pl : place) (d : db) (w : world) : world :=
  match pl with InFile p => World (w_pibdef w) (w_tpmdef w) (put_file (w_files w) p d) (w_mem w) | InMemory => World (w_pibdef w) (w_tpmdef w) (w_files w) d end.
(** A call on the PIB *)
Definition on {A} (pl : place) (p : prog A) : m A := fun w =>
  let dr := perform p (db_at pl w) in (put_db pl (fst dr) w, match snd dr with Ok a => inl a | Err _ => inr PibFailed end).
(** pib_sqlite3.py 219-225: the directory *)
Definition dir_of (l : str) : str := match l with [] => dir | _ => l end.
Definition place_of (sl : str * str) : place := if zlist_eqb (fst sl) s_sqlite then InFile (dir_of (snd sl)) else InMemory.
(** 1543-1557: _createPib; pib_sqlite3.py 219-248 makes the tables if they are not there; a PibMemory is new *)
Definition create_pib (u : str) : m place :=
  sl <~~ lift (check_pib u) ;;
  (fun w => match place_of sl with
            | InFile p => (put_db (InFile p) (db_at (InFile p) w) w, inl (InFile p))
            | InMemory => (put_db InMemory db_new w, inl InMemory)
            end).
(** 1559-1573: _createTpm *)
Definition create_tpm (u : str) : m str := sl <~~ lift (check_tpm u) ;; ret (canonical sl).
(** pib.py 145-153: _reset; 86-98: setTpmLocator, which does not call _reset (97).  That the maps of
    Pib are emptied is not modelled here (FrontModel, C42): the Pib is new. *)
Definition p_reset : prog unit := pbind p_clearIdentities (fun _ => p_setTpmLocator []).
Definition p_pibSet (l : str) : prog unit := pbind p_getTpmLocator (fun x => if zlist_eqb l x then give tt else p_setTpmLocator l).

Definition emptyb (s : str) : bool := match s with [] => true | _ => false end.
(** 130-188: the constructor with locators; [tl] is None if the second argument is None (159: it has no find) *)
Definition k_init (e : env) (pl : str) (tl : option str) (allow : bool) : m keychain :=
  pl <~~ (if emptyb pl then get_default_pib e else ret pl) ;;
  tl <~~ (match tl with Some [] => t <~~ get_default_tpm e ;; ret (Some t) | _ => ret tl end) ;;
  sl <~~ lift (check_pib pl) ;;
  pib <~~ create_pib (canonical sl) ;;
  old <~~ on pib p_getTpmLocator ;;
  tsl <~~ (match tl with None => fail NoTpmLocator | Some t => lift (check_tpm t) end) ;;
  dp <~~ get_default_pib e ;;
  tpm <~~
    (if zlist_eqb (canonical sl) dp then
       if emptyb old then ret (canonical tsl)
       else dt <~~ get_default_tpm e ;;
            if zlist_eqb old dt then ret (canonical tsl) else (_ <~~ on pib p_reset ;; get_default_tpm e)
     else
       if emptyb old || zlist_eqb old (canonical tsl) then ret (canonical tsl)
       else if allow then (_ <~~ on pib p_reset ;; ret (canonical tsl)) else fail Mismatch) ;;
  t <~~ create_tpm tpm ;;
  _ <~~ on pib (p_pibSet tpm) ;;
  ret (KC pib t).
(** 117-128: without arguments; [v1] tells if the database file of security version 1 exists *)
Definition k_init0 (e : env) (v1 : bool) : m keychain := fun w =>
  if v1 && (match w_files w dir with None => true | Some _ => false end) then (w, inl KV1) else k_init e [] (Some []) false w.

(** ** Histories *)
Inductive event : Type :=
  | New (e : env) (pl : str) (tl : option str) (allow : bool)
  | New0 (e : env) (v1 : bool)
  (* a call of the PIB in the file, by a KeyChain *)
  | Use (p : str) (o : call data)
  (* the process ends, and another begins *)
  | Process.
Definition ev_step (w : world) (ev : event) : world :=
  match ev with
  | New e pl tl allow => fst (k_init e pl tl allow w)
  | New0 e v1 => fst (k_init0 e v1 w)
  | Use p o => match w_files w p with Some d => put_db (InFile p) (fst (perform (p_call o) d)) w | None => w end
  | Process => World None None (w_files w) db_new
  end.
Definition ev_run (h : list event) (w : world) : world := fold_left ev_step h w.
End Loc.
