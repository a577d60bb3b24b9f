(** Specification for C89: what tables are that special cases find. *)
From Verif.Base Require Export Py Val.
From Verif.Spec Require Export Position.
Open Scope Z_scope.

(** rows of [w] bytes each *)
Definition rows_of (w : Z) (rows : list str) : Prop := Forall (fun r => Z.of_nat (List.length r) = w) rows.
Definition count {A} (l : list A) : Z := Z.of_nat (List.length l).
(** the rows and their widths that the special cases know of: [ids] are the identifiers of the
    product, [m] is the label's block of the table *)
Inductive known (ids : str -> pv) (m : multidict) : str -> str -> Z -> Z -> Prop :=
(* LRO RSS, MEX MRS level 1b ICL and level 2 ODF: each row is one byte longer than said *)
| rss n r : holds m $"ROWS" (PInt n) -> holds m $"ROW_BYTES" (PInt r) -> known ids m $"lro" $"rss_get_position" n (r + 1)
| mrs n r : holds m $"ROWS" (PInt n) -> holds m $"ROW_BYTES" (PInt r) -> known ids m $"mex" $"mrs_get_position" n (r + 1)
(* occultations of the rings of Uranus: two bytes *)
| ebrocc n r : holds m $"ROWS" (PInt n) -> holds m $"ROW_BYTES" (PInt r) -> known ids m $"ground" $"ebrocc_geom_get_position" n (r + 2)
(* MEX MRS atmospheres: 278 bytes *)
| atmo n : holds m $"ROWS" (PInt n) -> known ids m $"mex" $"mrs_ddr_atmo_position" n 278
(* CRISM: a record each *)
| crism n r : holds m $"ROWS" (PInt n) -> ids $"RECORD_BYTES" = PInt r -> known ids m $"mro" $"crism_mrdr_ancill_position" n r
(* MARSIS: 143 bytes, as many as the file has records; Cassini RPWS: as many as the file has records *)
| marsis n : ids $"FILE_RECORDS" = PInt n -> known ids m $"mex" $"marsis_get_position" n 143
| rpws n r : ids $"FILE_RECORDS" = PInt n -> ids $"ROW_BYTES" = PInt r -> known ids m $"cassini" $"rpws_ancil_position" n r.

(** Huygens: rows are a byte longer than said, but for three kinds of files *)
Definition complete (file : str) : Prop := mentions file $"ULVS_DDP" \/ mentions file $"DLIS_AZ_DDP" \/ mentions file $"DLV_DDP".
Inductive huygens_width (file : str) (said : Z) : Z -> Prop :=
| as_said : complete file -> huygens_width file said said
| one_longer : ~ complete file -> huygens_width file said (said + 1).

(** a pointer (file, n), with or without <BYTES> *)
Definition bare (file : str) (n : Z) : pv := PTuple [PStr file; PInt n].
Definition with_bytes (file : str) (n : Z) : pv := PTuple [PStr file; PDict [($"value", PInt n); ($"units", PStr $"BYTES")]].
(** a text without commas, parentheses and bars *)
Definition unmarked (s : str) : Prop := forall c, In c s -> ~ In c $",(|)".
