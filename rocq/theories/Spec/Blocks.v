(** What reading the block of an object may do to it, without the code.  A block is a list of
    keywords with values, in the order of the label; keywords may repeat. *)
From Coq Require Import ZArith.
From Verif.Base Require Import Py Val.
Open Scope Z_scope.

(** all the values of a keyword, in order *)
Definition values (b : multidict) (k : str) : list pv := map snd (filter (fun kv => str_eqb (fst kv) k) b).
(** [b'] is [b] with these keywords having just these values, and all others as they were *)
Definition corrected (b b' : multidict) (l : list (str * pv)) : Prop :=
  (forall k v, In (k, v) l -> values b' k = [v]) /\
  (forall k, ~ In k (map fst l) -> values b' k = values b k).
(** [b'] is [b] with something done to its COLUMNs, one by one *)
Definition columns_related (R : multidict -> multidict -> Prop) (b b' : multidict) : Prop :=
  Forall2 (fun kv kv' =>
    fst kv' = fst kv /\
    if str_eqb (fst kv) $"COLUMN" then exists c c', snd kv = PMulti c /\ snd kv' = PMulti c' /\ R c c'
    else snd kv' = snd kv) b b'.
(** a COLUMN with a number and a position *)
Definition placed (c : multidict) (number start : Z) : Prop :=
  values c $"COLUMN_NUMBER" = [PInt number] /\ values c $"START_BYTE" = [PInt start].
(** a table all of whose COLUMNs are placed; no other keyword has the value COLUMN *)
Definition table_of_columns (b : multidict) : Prop :=
  Forall (fun kv => if str_eqb (fst kv) $"COLUMN" then exists c n s, snd kv = PMulti c /\ placed c n s
                    else snd kv <> PStr $"COLUMN") b.
(** columns 13 and 14 of the Phoenix WCL tables are off by 1 and 2 bytes *)
Definition off_by (number : Z) : Z := if number =? 13 then 1 else if number =? 14 then 2 else 0.
Definition moved (times : Z) (c c' : multidict) : Prop :=
  forall n s, placed c n s -> corrected c c' [($"START_BYTE", PInt (s - times * off_by n))].
(** the first block of this name inside [b] is changed as [R] says, and nothing else *)
Definition first_within (k : str) (R : multidict -> multidict -> Prop) (b b' : multidict) : Prop :=
  exists c c' rest, values b k = PMulti c :: rest /\ values b' k = PMulti c' :: rest /\ R c c' /\
  forall k', k' <> k -> values b' k' = values b k'.
(** a table whose COLUMNs are all of some sort *)
Definition columns_are (P : multidict -> Prop) (b : multidict) : Prop :=
  Forall (fun kv => if str_eqb (fst kv) $"COLUMN" then exists c, snd kv = PMulti c /\ P c else snd kv <> PStr $"COLUMN") b.
Definition called (c : multidict) : Prop := exists t, values c $"NAME" = [PStr t].
(** the SWEEP columns of Voyager PRA tables after so many corrections: BYTES is 284 and
    ITEM_BYTES of 4 is added each time *)
Definition swept (n : nat) (c c' : multidict) : Prop :=
  forall t, values c $"NAME" = [PStr t] ->
  if contains $"SWEEP" t then
    values c' $"ITEM_BYTES" = values c $"ITEM_BYTES" ++ repeat (PInt 4) n /\
    values c' $"BYTES" = match n with O => values c $"BYTES" | S _ => [PInt 284] end /\
    forall k, k <> $"ITEM_BYTES" -> k <> $"BYTES" -> values c' k = values c k
  else c' = c.
(** the two time columns of PFS tables *)
Definition retyped (c c' : multidict) : Prop :=
  forall t, values c $"NAME" = [PStr t] ->
  if str_eqb t $"OBT OBSERVATION TIME" then corrected c c' [($"DATA_TYPE", PStr $"PC_REAL")]
  else if str_eqb t $"SCET OBSERVATION TIME" then corrected c c' [($"DATA_TYPE", PStr $"PC_UNSIGNED_INTEGER")]
  else c' = c.
(** the columns of the meteor tables that have no name, by where they start *)
Definition starting (c : multidict) : Prop := exists s, values c $"START_BYTE" = [PInt s].
Definition named_by_start (c c' : multidict) : Prop :=
  forall s, values c $"START_BYTE" = [PInt s] ->
  if (s =? 17) && negb (md_has c $"NAME") then c' = c ++ [($"NAME", PStr $">=1SEC")]
  else if (s =? 21) && negb (md_has c $"NAME") then c' = c ++ [($"NAME", PStr $">=8SEC")]
  else c' = c.
(** the second block of this name *)
Definition second_within (k : str) (R : multidict -> multidict -> Prop) (b b' : multidict) : Prop :=
  exists v c c' rest, values b k = v :: PMulti c :: rest /\ values b' k = v :: PMulti c' :: rest /\ R c c' /\
  forall k', k' <> k -> values b' k' = values b k'.
(** the columns of the CONTAINER in Jupiter PRA tables *)
Definition restarted (c c' : multidict) : Prop :=
  forall t, values c $"NAME" = [PStr t] ->
  if str_eqb t $"STATUS_WORD" then corrected c c' [($"START_BYTE", PInt 1)]
  else if str_eqb t $"DATA_CHANNELS" then corrected c c' [($"START_BYTE", PInt 5)]
  else c' = c.
