(** Specification for C34-C36: what happens to a Data object over time. *)
From Verif.Base Require Export Py Val.
From Verif.Model Require Import Data.
From Verif.Spec Require Import Dispatch.

Definition prefix {A} (l l' : list A) : Prop := exists more, l' = l ++ more.
Section Data.
  Context {V : Type} (builtin : str -> option V) (loader : state V -> str -> outcome V) (dump : state V -> str -> option exn).
  (** the attempt to load [n] yields the value [v] for it *)
  Definition provides (out : outcome V) (n : str) (v : V) : Prop :=
    match out with
    | Returned objects => In (n, Some v) objects
    | Assigned w | Failed w => w = v
    | Nothing | Escaped _ => False
    end.
  (** other objects that come with it *)
  Definition brings (out : outcome V) (k : str) (v : V) : Prop :=
    match out with Returned objects => In (k, Some v) objects | _ => False end.
  (** loaders return dicts, whose keys are distinct *)
  Definition returns_dicts : Prop := forall st n objects, loader st n = Returned objects -> NoDup (map fst objects).
  (** no product has an object called "all" *)
  Definition none_called_all (st : state V) : Prop :=
    ~ In $"all" (listed st) /\ forall s n v, ~ brings (loader s n) $"all" v.
  (** a name that is not also that of a method or internal attribute *)
  Definition plain_name (n : str) : Prop := builtin n = None.
  Definition loaded (st : state V) (n : str) : Prop := exists v, attr st n = Some v.
  (** a sequence of requests with their answers *)
  Inductive happens : state V -> list (request * answer V) -> state V -> Prop :=
  | nothing_yet st : happens st [] st
  | one_more st st1 st2 fuel q a h : perform builtin loader dump fuel st q = Some (st1, a) -> happens st1 h st2 ->
      happens st ((q, a) :: h) st2.
End Data.
