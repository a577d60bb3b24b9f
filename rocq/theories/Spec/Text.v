(** Specification for C70: the text of a part of a file. *)
From Verif.Base Require Export Py Val.

(** Lines [start] (from zero) on, at most [n] of them, of a text of the lines [ls]: every
    line that is followed by another keeps its line feed. *)
Definition lines_text (ls : list str) (start n : nat) : str :=
  if (start + n <? length ls)%nat then concat (map (fun l => l ++ [NL]) (firstn n (skipn start ls)))
  else join [NL] (skipn start ls).
(** Bytes [start] to [start + n] of a file, as far as it goes *)
Definition bytes_of (file : str) (start n : nat) : str := firstn n (skipn start file).
