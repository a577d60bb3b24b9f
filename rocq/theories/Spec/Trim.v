(** What an attached label's end is. *)
From Verif.Base Require Import Py.
Definition sp (k : nat) : str := repeat " "%char k.
Definition END_line : str := NL :: $"END".
(** the usual end of a PVL label: END on a line of its own, ended by a carriage
    return after at most eight blanks, or padded with at least eight blanks
    (of which at most sixteen count as part of the marker) *)
Inductive end_marker : str -> Prop :=
| EM_cr k : (k <= 8)%nat -> end_marker (END_line ++ sp k ++ [CR])
| EM_pad k : (8 <= k <= 16)%nat -> end_marker (END_line ++ sp k).
(** other things that are taken for the end of a label *)
Definition three_nulls : str := ["000"%char; "000"%char; "000"%char].
Definition unix_end : str := END_line ++ [NL].
Definition occurs (m s : str) : Prop := exists a b, s = a ++ m ++ b.
Definition no_end_marker (s : str) : Prop := forall m, end_marker m -> ~ occurs m s.
Definition no_ending (s : str) : Prop :=
  no_end_marker s /\ ~ occurs three_nulls s /\ ~ occurs unix_end s.
(** [m] is the first end marker of [a ++ m ++ b], taken as long as possible *)
Definition first_marker (a m b : str) : Prop :=
  end_marker m /\
  (forall m' b', end_marker m' -> m ++ b = m' ++ b' -> (length m' <= length m)%nat) /\
  (forall a' m' b', end_marker m' -> a ++ m ++ b = a' ++ m' ++ b' -> (length a <= length a')%nat).
Definition first_occurrence (a m b : str) : Prop :=
  forall a' b', a ++ m ++ b = a' ++ m ++ b' -> (length a <= length a')%nat.
