(** Model of pdr/parselabel/pds3.py (PDS3 label text -> nested MultiDict).
    Line numbers cite /repo/pdr/parselabel/pds3.py unless stated otherwise. *)
From Verif.Base Require Import Py Val.

(** pds3.py:25 PVL_BLOCK_INITIALS *)
Definition PVL_BLOCK_INITIALS : list str :=
  [$"OBJECT"; $"GROUP"; $"BEGIN_OBJECT"; $"BEGIN_GROUP"].

(** pds3.py:26,34-39 [extract_pvl_block_terminal]: [re.match("END(_OBJECT|$)")].
    [$] also matches before one final newline. *)
Definition extract_pvl_block_terminal (line : str) : option str :=
  if startswith $"END_OBJECT" line then Some $"END_OBJECT"
  else if str_eqb line $"END" || str_eqb line ($"END" ++ [NL])
       then Some $"END"
       else None.

(** pds3.py:42-60 [is_an_assignment_line].  [str.upper] is ASCII-only here. *)
Definition is_an_assignment_line (line : str) : bool :=
  if negb (has_char "="%char line) then
    match extract_pvl_block_terminal line with
    | Some _ => true
    | None => false
    end
  else
    let start := firstn 8 line in
    str_eqb start (upper start).

(** more_itertools.split_before(iterable, pred): a new group is started before
    every item satisfying [pred], except at the very beginning. *)
Fixpoint split_before_aux {A} (pred : A -> bool) (buf : list A) (l : list A)
  : list (list A) :=
  match l with
  | [] => match buf with [] => [] | _ => [buf] end
  | x :: l' =>
      match buf with
      | [] => split_before_aux pred [x] l'
      | _ => if pred x then buf :: split_before_aux pred [x] l'
             else split_before_aux pred (buf ++ [x]) l'
      end
  end.
Definition split_before {A} (pred : A -> bool) (l : list A) : list (list A) :=
  split_before_aux pred [] l.

(** pds3.py:63-82 body of the loop of [chunk_statements] for one group of
    lines; [None] models [continue] after the ValueError of the tuple
    unpacking (number of '=' different from one). *)
Definition chunk_one (statement : list str) : option (str * str) :=
  match statement with
  | [] => None (* split_before never yields an empty group *)
  | assignment :: rest =>
      match extract_pvl_block_terminal assignment with
      | Some terminal => Some (terminal, [])
      | None =>
          match map strip (split_on "="%char assignment) with
          | [parameter; value_head] =>
              Some (parameter, value_head ++ join $" " (map strip rest))
          | _ => None
          end
      end
  end.

Fixpoint filter_map {A B} (f : A -> option B) (l : list A) : list B :=
  match l with
  | [] => []
  | a :: l' => match f a with
               | Some b => b :: filter_map f l'
               | None => filter_map f l'
               end
  end.

(** pds3.py:63-82 [chunk_statements] *)
Definition chunk_statements (trimmed_lines : list str) : list (str * str) :=
  filter_map chunk_one (split_before is_an_assignment_line trimmed_lines).

(** pds3.py:85-133 class [BlockParser].  The stacks are lists with the top at
    the head (Python: at the end).  [aggregations[0]] is the last element. *)
Record parser := mkParser {
  names : list str;
  aggs : list multidict;
  params : list str
}.
(** pds3.py:90-92 *)
Definition parser_init : parser := mkParser [] [[]] [].

(** pds3.py:103-106 [add_statement]; [aggregations[-1]] raises IndexError on an
    empty stack (proved unreachable). *)
Definition add_statement (p : str) (v : pv) (st : parser) : res parser :=
  match aggs st with
  | a :: rest =>
      Ok (mkParser (names st) (md_add a p v :: rest) (params st ++ [p]))
  | [] => Err IndexError
  end.
(** pds3.py:98-101 [_step_in] *)
Definition step_in (name : str) (st : parser) : parser :=
  mkParser (name :: names st) ([] :: aggs st) (params st).
(** pds3.py:94-96 [_step_out]: the Python call pops the name, then the
    aggregation, then adds to the enclosing aggregation; popping from an empty
    list raises IndexError. *)
Definition step_out (st : parser) : res parser :=
  match names st, aggs st with
  | n :: ns, a :: rest => add_statement n (PMulti a) (mkParser ns rest (params st))
  | _, _ => Err IndexError
  end.

(** pds3.py:115-123 loop body of [parse_statements] *)
Definition parse_step (st : parser) (s : str * str) : res parser :=
  let '(parameter, value) := s in
  if str_in parameter PVL_BLOCK_INITIALS then Ok (step_in value st)
  else if startswith $"END" parameter then
    match names st with
    | [] => Ok st
    | _ => step_out st
    end
  else add_statement parameter (PStr value) st.

Fixpoint parse_loop (statements : list (str * str)) (st : parser) : res parser :=
  match statements with
  | [] => Ok st
  | s :: rest => do st' <- parse_step st s; parse_loop rest st'
  end.

(** pds3.py:108-133 [parse_statements]; the boolean says whether the
    "Leftover aggregations" warning was given; [aggregations[0]] is the last
    element of the model's stack. *)
Definition parse_statements (statements : list (str * str))
  : res (multidict * list str * bool) :=
  do st <- parse_loop statements parser_init;
  match aggs st with
  | [] => Err IndexError
  | _ => Ok (last (aggs st) [], params st, (1 <? List.length (aggs st))%nat)
  end.

(** pds3.py:145 the comment substitution: the regular expression is
    slash-star, then as few non-newline characters as possible, then one of CR,
    LF or another slash-star; each match is replaced by LF.
    [comment_end s] is the text after the shortest match of the part that
    follows the opening slash-star, at the start of [s]. *)
Fixpoint comment_end (s : str) : option str :=
  match s with
  | [] => None
  | c :: s' =>
      if Ascii.eqb c CR || Ascii.eqb c NL then Some s'
      else if startswith $"/*" s then Some (skipn 2 s)
      else comment_end s'
  end.
Fixpoint strip_comments_fuel (fuel : nat) (s : str) : str :=
  match fuel with
  | O => s
  | S f =>
      match s with
      | [] => []
      | c :: s' =>
          if startswith $"/*" s then
            match comment_end (skipn 2 s) with
            | Some rest => NL :: strip_comments_fuel f rest
            | None => c :: strip_comments_fuel f s'
            end
          else c :: strip_comments_fuel f s'
      end
  end.
Definition strip_comments (s : str) : str :=
  strip_comments_fuel (List.length s) s.

(** pds3.py:146-148 trimmed_lines *)
Definition trimmed_lines (label : str) : list str :=
  filter (fun l => match l with [] => false | _ => true end)
         (map strip (split_on NL (strip_comments label))).

(** pds3.py:362-369 *)
Definition pointerize (s : str) : str :=
  if startswith $"^" s then s else "^"%char :: s.
Definition depointerize (s : str) : str :=
  if startswith $"^" s then skipn 1 s else s.

(** pds3.py:186-250 [multidict_dig_and_edit], mtypes = (MultiDict,).
    The mutable [input_object] is threaded as a state of type [St].
    [pred key value] is the matching predicate (value after recursion);
    [set_key] is used when key_editor is True, [set_val] otherwise. *)
Section DigEdit.
  Context {St : Type}.
  Variable pred : str -> pv -> bool.
  Variable key_editor keep_values : bool.
  Variable set_key : St -> str -> res (St * str).
  Variable set_val : St -> pv -> res (St * pv).

  (** pds3.py:236-249: what one item contributes, once its value is final *)
  Definition edit_item (s : St) (k : str) (v : pv) (is_map : bool)
    : res (St * multidict) :=
    if pred k v then
      if key_editor
      then do r <- set_key s k; Ok (fst r, [(snd r, v)])
      else do r <- set_val s v; Ok (fst r, [(k, snd r)])
    else if keep_values || is_map then Ok (s, [(k, v)]) else Ok (s, []).

  Fixpoint dig_value (s : St) (v : pv) {struct v} : res (St * pv) :=
    match v with
    | PMulti kvs =>
        do r <- (fix go (s : St) (l : multidict) {struct l} : res (St * multidict) :=
                   match l with
                   | [] => Ok (s, [])
                   | (k, v0) :: l' =>
                       do r1 <- dig_value s v0;
                       do r2 <- edit_item (fst r1) k (snd r1) (is_multi v0);
                       do r3 <- go (fst r2) l';
                       Ok (fst r3, snd r2 ++ snd r3)
                   end) s kvs;
        Ok (fst r, PMulti (snd r))
    | _ => Ok (s, v)
    end.

  Fixpoint multidict_dig_and_edit (s : St) (l : multidict)
    : res (St * multidict) :=
    match l with
    | [] => Ok (s, [])
    | (k, v0) :: l' =>
        do r1 <- dig_value s v0;
        do r2 <- edit_item (fst r1) k (snd r1) (is_multi v0);
        do r3 <- multidict_dig_and_edit (fst r2) l';
        Ok (fst r3, snd r2 ++ snd r3)
    end.
End DigEdit.

(** pds3.py:433-440 [set_key_index]: [pointer_range[0]] raises IndexError on an
    empty list; [pop(0)] mutates the shared list. *)
Definition set_key_index (pointer_range : list nat) (key : str)
  : res (list nat * str) :=
  match pointer_range with
  | [] => Err IndexError
  | i :: rest => Ok (rest, key ++ $"_" ++ str_of_nat i)
  end.

(** pds3.py:408-414, 421-427: one call of [multidict_dig_and_edit] with
    [target], [list(range(n))] and [set_key_index] as a key editor. *)
Definition rename_indexed (target : str) (n : nat) (m : multidict)
  : res multidict :=
  do r <- multidict_dig_and_edit
            (fun k _ => str_eqb k target) true true
            set_key_index (fun s v => Ok (s, v)) (seq 0 n) m;
  Ok (snd r).

(** dustgoggles.structures.dig_for_keys / dig_for_value: external library; the
    order in which it walks the tree is a parameter.  [LevelFirst]: all matching
    items of a mapping before those of its child mappings; [DepthFirst]: plain
    document order (pre-order). *)
Inductive order := LevelFirst | DepthFirst.

(** All (key, value) pairs of a tree in document order (pre-order). *)
Fixpoint items_df (l : multidict) (fuel : nat) : multidict :=
  match fuel with
  | O => []
  | S f => flat_map (fun kv => kv :: match snd kv with
                                     | PMulti kvs => items_df kvs f
                                     | _ => []
                                     end) l
  end.
Fixpoint items_lf (l : multidict) (fuel : nat) : multidict :=
  match fuel with
  | O => []
  | S f => l ++ flat_map (fun kv => match snd kv with
                                    | PMulti kvs => items_lf kvs f
                                    | _ => []
                                    end) l
  end.
(** Nesting depth: enough fuel for the two walks. *)
Fixpoint depth (v : pv) : nat :=
  match v with
  | PMulti kvs => S (fold_right (fun kv n => Nat.max (depth (snd kv)) n) 0%nat kvs)
  | _ => 0%nat
  end.
Definition walk (o : order) (m : multidict) : multidict :=
  match o with
  | LevelFirst => items_lf m (depth (PMulti m))
  | DepthFirst => items_df m (depth (PMulti m))
  end.

(** pds3.py:344-357 [get_pds3_pointers]; [None] (nothing found) is []. *)
Definition get_pds3_pointers (o : order) (m : multidict) : list str :=
  filter (startswith $"^") (map fst (walk o m)).

(** cytoolz.groupby(identity, pointers): distinct pointers in order of first
    occurrence with the size of their group. *)
Fixpoint nodup_str (l : list str) : list str :=
  match l with
  | [] => []
  | x :: l' => x :: filter (fun y => negb (str_eqb y x)) (nodup_str l')
  end.
Definition count_str (x : str) (l : list str) : nat :=
  List.length (filter (str_eqb x) l).

(** [params.remove(x)] removes the first occurrence; [None] = ValueError *)
Fixpoint remove_first (x : str) (l : list str) : option (list str) :=
  match l with
  | [] => None
  | y :: l' => if str_eqb x y then Some l'
               else match remove_first x l' with
                    | Some r => Some (y :: r)
                    | None => None
                    end
  end.

(** pds3.py:405-430 body of [for ix in range(len(group))] *)
Definition index_one (pointer : str) (n : nat) (depoint : bool) (ix : nat)
  (st : multidict * list str) : res (multidict * list str) :=
  let '(mapping, ps) := st in
  do m1 <- rename_indexed pointer n mapping;
  let ps1 := ps ++ [pointer ++ $"_" ++ str_of_nat ix] in
  match remove_first pointer ps1 with
  | None => Err ValueError
  | Some ps2 =>
      if depoint then
        let d := depointerize pointer in
        do m2 <- rename_indexed d n m1;
        let ps3 := ps2 ++ [d ++ $"_" ++ str_of_nat ix] in
        match remove_first d ps3 with     (* [if depointer in params: remove] *)
        | Some ps4 => Ok (m2, ps4)
        | None => Ok (m2, ps3)
        end
      else Ok (m1, ps2)
  end.

Fixpoint index_loop (pointer : str) (n : nat) (depoint : bool) (ixs : list nat)
  (st : multidict * list str) : res (multidict * list str) :=
  match ixs with
  | [] => Ok st
  | ix :: ixs' => do st' <- index_one pointer n depoint ix st;
                  index_loop pointer n depoint ixs' st'
  end.

(** pds3.py:372-430 [index_duplicate_pointers] *)
Fixpoint index_groups (pointers : list str) (groups : list str)
  (st : multidict * list str) : res (multidict * list str) :=
  match groups with
  | [] => Ok st
  | p :: gs =>
      let n := count_str p pointers in
      do st' <-
        (if (1 <? n)%nat
            && negb (contains $"STRUCTURE" p || contains $"PDS_OBJECT" p)
         then index_loop p n (negb (contains $"DESCRIPTION" p)) (seq 0 n) st
         else Ok st);
      index_groups pointers gs st'
  end.
Definition index_duplicate_pointers (pointers : list str) (m : multidict)
  (ps : list str) : res (multidict * list str) :=
  index_groups pointers (nodup_str pointers) (m, ps).
