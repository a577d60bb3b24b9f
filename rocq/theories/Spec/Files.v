(** What "the same file in other letter case, or compressed" means. *)
From Verif.Base Require Import Py.
From Verif.Model Require Import Files. (* the types path and fsys *)
Definition compressions : list str := [$".gz"; $".bz2"; $".zip"].
(** a file name like x.y.gz: a compressed file with a suffix of its own *)
Definition compressed_form (entry plain : str) : Prop :=
  exists s, In s compressions /\ lower entry = lower plain ++ s /\ In "."%char plain.
(** [entry] is an acceptable stand-in for the requested name *)
Definition stands_for (entry request : str) : Prop :=
  compressed_form entry request \/
  lower entry = lower request /\ forall plain, ~ compressed_form entry plain.
(** names that neither begin nor end with a dot *)
Definition ordinary (name : str) : Prop :=
  name <> [] /\ hd "."%char name <> "."%char /\ last name "."%char <> "."%char.
(** the last suffix of a name: [name] is [stem ++ "." ++ ext] *)
Definition splits_at_last_dot (name stem ext : str) : Prop :=
  name = stem ++ $"." ++ ext /\ ~ In "."%char ext /\ stem <> [] /\ ext <> [].
(** nothing in the requested file's directory may stand in for it *)
Definition no_candidate (fs : fsys) (p : path) : Prop :=
  match fs (pdir p) with
  | None => True
  | Some l => ~ In (pname p) l /\ forall e, In e l -> ~ stands_for e (pname p)
  end.
(** no directory holds entries beginning or ending with a dot *)
Definition ordinary_dirs (fs : fsys) : Prop := forall d l e, fs d = Some l -> In e l -> ordinary e.

