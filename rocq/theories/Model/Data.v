(** Model of the life cycle of a Data object: pdr/pdr.py:530-615 (unloaded, load,
    _add_loaded_objects, load_all), 714-760 (_load_pds4), 1089-1124 (purging in
    dump_browse) and 1126-1178 (attribute and item access).  Line numbers cite pdr.py. *)
From Verif.Base Require Import Py Val.
From Verif.Model Require Import Dispatch.

Section Data.
  (** any kind of data object *)
  Context {V : Type}.
  (** methods and bookkeeping attributes of the object: always in dir(self) *)
  Variable builtin : str -> option V.
  (** What trying to load an object does, by the branches of [load] (538-600) and
      [_load_pds4] (714-760):
      - a loader's dict of objects (possibly without the one asked for, or with None);
      - setattr of the object asked for (PDS4);
      - a loader that returned None (575-576);
      - an exception that is caught, or a missing file: the metadata of that name,
        possibly None, instead (584-600, 617-627);
      - an exception that is not caught (KeyboardInterrupt, and everything in PDS4,
        FITS and desktop-image products). *)
  Inductive outcome :=
  | Returned (objects : list (str * option V))
  | Assigned (v : V)
  | Nothing
  | Failed (fallback : V)
  | Escaped (e : exn).
  (** [index], the loaded objects, and (for the theorems) the names of the loading
      attempts made so far, newest first *)
  Record state := mkState { listed : list str; attr : str -> option V; calls : list str }.
  (** any behaviour of the loaders and files, depending on all that happened before *)
  Variable loader : state -> str -> outcome.

  Definition setattr (st : state) (k : str) (v : V) : state :=
    mkState (listed st) (fun n => if str_eqb n k then Some v else attr st n) (calls st).
  Definition lookup (st : state) (n : str) : option V :=
    match attr st n with Some v => Some v | None => builtin n end.
  (** (n in dir(self)) *)
  Definition in_dir (st : state) (n : str) : bool := match lookup st n with Some _ => true | None => false end.
  (** 602-608 *)
  Definition add_loaded_object (st : state) (kv : str * option V) : state :=
    match snd kv with
    | None => st
    | Some v =>
        let st := setattr st (fst kv) v in
        if str_in (fst kv) (listed st) then st else mkState (listed st ++ [fst kv]) (attr st) (calls st)
    end.
  Definition add_loaded_objects (st : state) (objects : list (str * option V)) : state :=
    fold_left add_loaded_object objects st.
  (** 551-600 *)
  Definition run_loader (st : state) (name : str) : state * res unit :=
    let called := mkState (listed st) (attr st) (name :: calls st) in
    match loader st name with
    | Returned objects => (add_loaded_objects called objects, Ok tt)
    | Assigned v => (setattr called name v, Ok tt)
    | Nothing => (called, Ok tt)
    | Failed v => (setattr called name v, Ok tt)
    | Escaped e => (called, Err e)
    end.
  (** 540-550, for names other than "all" *)
  Definition load_one (st : state) (name : str) (reload : bool) : state * res unit :=
    if negb (str_in name (listed st)) then (st, Err KeyError)
    else if in_dir st name && negb reload then (st, Err AlreadyLoadedError)
    else run_loader st name.
  (** 610-620: iterating over a list that may grow meanwhile: the loop is at position
      [i].  [None]: the bound on the recursion is used up. *)
  Fixpoint load_all_from (fuel : nat) (st : state) (i : nat) : option (state * res unit) :=
    match fuel with
    | O => None
    | S f =>
        match nth_error (listed st) i with
        | None => Some (st, Ok tt)
        | Some name =>
            if ignored_by_default name then load_all_from f st (S i)
            else match (if str_eqb name $"all" then load_all_from f st 0 else Some (load_one st name false)) with
                 | None => None
                 | Some (st', Ok _) => load_all_from f st' (S i)
                 | Some (st', Err AlreadyLoadedError) => load_all_from f st' (S i)
                 | Some (st', Err e) => Some (st', Err e)
                 end
        end
    end.
  (** 538-550 *)
  Definition load (fuel : nat) (st : state) (name : str) (reload : bool) : option (state * res unit) :=
    if str_eqb name $"all" then load_all_from fuel st 0 else Some (load_one st name reload).
  (** 1126-1136, 1164-1178 *)
  Definition access (fuel : nat) (st : state) (name : str) : option (state * res V) :=
    match lookup st name with
    | Some v => Some (st, Ok v)
    | None =>
        if negb (str_in name (listed st)) then Some (st, Err AttributeError)
        else match load fuel st name false with
             | None => None
             | Some (st', Err e) => Some (st', Err e)
             | Some (st', Ok _) =>
                 match lookup st' name with Some v => Some (st', Ok v) | None => Some (st', Err AttributeError) end
             end
    end.
  (** 532 *)
  Definition unloaded (st : state) : list str := filter (fun n => negb (in_dir st n)) (listed st).
  (** 1089-1124 with purge: [dump] says whether writing the browse product fails *)
  Variable dump : state -> str -> option exn.
  Definition delattr (st : state) (n : str) : state * res unit :=
    match attr st n with
    | Some _ => (mkState (listed st) (fun k => if str_eqb k n then None else attr st k) (calls st), Ok tt)
    | None => (st, Err AttributeError)
    end.
  Fixpoint purge_browse (st : state) (names : list str) : state * res unit :=
    match names with
    | [] => (st, Ok tt)
    | n :: names' =>
        if in_dir st n then
          match dump st n with
          | Some e => (st, Err e)
          | None => let '(st', r) := delattr st n in
                    match r with Err e => (st', Err e) | Ok _ => purge_browse st' names' end
          end
        else purge_browse st names'
    end.

  (** what a user can do *)
  Inductive request := Load (name : str) (reload : bool) | Access (name : str) | PurgeBrowse.
  Inductive answer := Done | Gave (v : V) | Raised (e : exn).
  Definition perform (fuel : nat) (st : state) (q : request) : option (state * answer) :=
    match q with
    | Load n r => match load fuel st n r with
                  | None => None | Some (st', Ok _) => Some (st', Done) | Some (st', Err e) => Some (st', Raised e) end
    | Access n => match access fuel st n with
                  | None => None | Some (st', Ok v) => Some (st', Gave v) | Some (st', Err e) => Some (st', Raised e) end
    | PurgeBrowse => match purge_browse st (listed st) with
                     | (st', Ok _) => Some (st', Done) | (st', Err e) => Some (st', Raised e) end
    end.
End Data.
Arguments state : clear implicits. Arguments outcome : clear implicits. Arguments answer : clear implicits.
