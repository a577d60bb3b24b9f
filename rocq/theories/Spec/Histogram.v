(** What the label of a HISTOGRAM object says. *)
From Verif.Base Require Import Py Val.
From Verif.Spec Require Import Table TableValues.
Open Scope Z_scope.

(** so many items (bins) of so many bytes each, of a type; perhaps a factor and an offset *)
Record histogram := mkHist { h_name : str; h_type : str; h_items : nat; h_width : nat; h_scale : option pv; h_shift : option pv }.
Definition says_histogram (m : multidict) (object : str) (h : histogram) : Prop :=
  (md_get m $"NAME" = Some (PStr (h_name h)) \/ (md_get m $"NAME" = None /\ h_name h = object)) /\
  md_get m $"DATA_TYPE" = Some (PStr (h_type h)) /\
  md_get m $"ITEMS" = Some (PInt (Z.of_nat (h_items h))) /\ md_get m $"ITEM_BYTES" = Some (PInt (Z.of_nat (h_width h))) /\
  (md_get m $"BYTES" = None \/ exists b, md_get m $"BYTES" = Some (PInt b)) /\
  md_get m $"SCALING_FACTOR" = h_scale h /\ md_get m $"OFFSET" = h_shift h /\
  md_get m $"START_BYTE" = None /\ md_get m $"ROWS" = None /\ md_get m $"INTERCHANGE_FORMAT" <> Some (PStr $"ASCII") /\
  ~ mentions $"SPREADSHEET" object /\ ~ mentions $"ASCII" object.
(** the name of bin [i]: numbered from 0 unless there is only one *)
Definition bin_name (h : histogram) (i : nat) : str := if Nat.eqb (h_items h) 1 then h_name h else numbered (h_name h) i.
