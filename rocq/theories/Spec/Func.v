(** When an argument is required, and when an annotation says it is optional. *)
From Verif.Base Require Import Py.
From Verif.Model Require Import Func. (* the types pyfun and param *)
(** argument [a] is required by [f] or by one of the queries *)
Definition needs {V} (f : pyfun V) (queries : list (str * pyfun V)) (a : str) : Prop :=
    exists g p, (g = f \/ In g (map snd queries)) /\ In p (f_params g) /\ not_optional p = true /\ p_name p = a.
(** the annotation text of an optional argument: Optional[...], ... | None or None | ... *)
Definition optional_text (a : str) : bool :=
  startswith $"Optional[" a || endswith $" | None" a || startswith $"None | " a.
(** the legal order of parameter kinds *)
Definition rank (k : pkind) : nat :=
  match k with POSITIONAL_ONLY => 0 | POSITIONAL_OR_KEYWORD => 1 | VAR_POSITIONAL => 2 | KEYWORD_ONLY => 3 | VAR_KEYWORD => 4 end.
(** kinds in legal order and, within a kind, required parameters first *)
Definition key (p : param) : nat := (2 * rank (p_kind p) + if not_optional p then 0 else 1)%nat.
