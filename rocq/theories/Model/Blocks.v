(** The blocks of the label that special cases correct *in place*.  Models
    pdr/pdr.py:153-182 and 1221-1233 (metablock_ hands out the mapping of the metadata itself,
    remembered for each name), pdr/loaders/queries.py:310-320 and 891 (the query for a block:
    specialize(get_block, check_special_block)), and functions of pdr/formats/*.py that
    check_special_block calls (formats/checkers.py:816-1019).
    Simplifications: blocks are MultiDicts (those of PDS3 labels are); the block of the object is
    in the label; what the functions look up elsewhere in the metadata (metaget_: remembered, and
    none of it is assigned to by these functions) does not change. *)
From Coq Require Import QArith ZArith.
From Verif.Base Require Import Py Val.
From Verif.Model Require Import PvlLiteral.
Open Scope Z_scope.

(** multidict's [md[k] = v]: the first pair of that key is replaced, others of it are removed *)
Fixpoint multi_set (b : multidict) (k : str) (v : pv) : multidict :=
  match b with
  | [] => [(k, v)]
  | kv :: b => if str_eqb (fst kv) k then (k, v) :: filter (fun kv => negb (str_eqb (fst kv) k)) b else kv :: multi_set b k v
  end.
(** [del md[k]] *)
Definition multi_del (b : multidict) (k : str) : multidict := filter (fun kv => negb (str_eqb (fst kv) k)) b.

(** *** Python code that works on a block in place: what becomes of the block, and the result or
    the exception (a block stays as it is at the exception) *)
Definition upd (A : Type) := multidict -> multidict * res A.
Definition ret {A} (a : A) : upd A := fun b => (b, Ok a).
Definition raise {A} (e : exn) : upd A := fun b => (b, Err e).
Definition bind {A B} (m : upd A) (f : A -> upd B) : upd B :=
  fun b => let '(b', r) := m b in match r with Ok a => f a b' | Err e => (b', Err e) end.
Notation "x <~ m ;; k" := (bind m (fun x => k)) (at level 61, m at next level, right associativity).
Notation "m ;;; k" := (bind m (fun _ => k)) (at level 61, right associativity).
(** block[k], block[k] = v, del block[k], block.add(k, v), k in block *)
Definition get (k : str) : upd pv := fun b => (b, match md_get b k with Some v => Ok v | None => Err KeyError end).
Definition set (k : str) (v : pv) : upd unit := fun b => (multi_set b k v, Ok tt).
Definition del (k : str) : upd unit := fun b => if md_has b k then (multi_del b k, Ok tt) else (b, Err KeyError).
Definition add (k : str) (v : pv) : upd unit := fun b => (md_add b k v, Ok tt).
Definition has (k : str) : upd bool := fun b => (b, Ok (md_has b k)).
(** work on a value that is a block itself *)
Definition inside {A} (f : upd A) (v : pv) : pv * res A :=
  match v with PMulti c => let '(c', r) := f c in (PMulti c', r) | v => (v, Err TypeError) end.
(** block.getall(k)[n] (block[k] for n = 0): the n-th value of the key, worked on by [f] *)
Fixpoint nth_of (absent : exn) (n : nat) (k : str) (f : upd unit) (b : multidict) : multidict * res unit :=
  match b with
  | [] => ([], Err absent)
  | (k', v) :: b =>
      if str_eqb k' k then
        match n with
        | O => let '(v', r) := inside f v in ((k', v') :: b, r)
        | S n => let '(b', r) := nth_of IndexError n k f b in ((k', v) :: b', r)
        end
      else let '(b', r) := nth_of absent n k f b in ((k', v) :: b', r)
  end.
Definition within (k : str) (f : upd unit) : upd unit := nth_of KeyError 0 k f.
Definition within_nth (n : nat) (k : str) (f : upd unit) : upd unit := nth_of KeyError n k f.
(** for item in iter(block.items()): if "COLUMN" in item: ... item[1] ...
    ([in]: of the pair, so a value "COLUMN" counts, too) *)
Definition is_column (kv : str * pv) : bool :=
  str_eqb (fst kv) $"COLUMN" || match snd kv with PStr s => str_eqb s $"COLUMN" | _ => false end.
Fixpoint each_column (f : upd unit) (b : multidict) : multidict * res unit :=
  match b with
  | [] => ([], Ok tt)
  | kv :: b =>
      if is_column kv then
        let '(v', r) := inside f (snd kv) in
        match r with
        | Ok _ => let '(b', r) := each_column f b in ((fst kv, v') :: b', r)
        | Err e => ((fst kv, v') :: b, Err e)
        end
      else let '(b', r) := each_column f b in (kv :: b', r)
  end.
Definition when (c : bool) (m : upd unit) : upd unit := if c then m else ret tt.

(** v == 13, v == "...", "..." in v.  Simplification: [in] of what is no text is a TypeError *)
Definition eq_int (v : pv) (z : Z) : bool :=
  match v with PInt x => x =? z | PFloat q => Qeq_bool q (inject_Z z) | _ => false end.
Definition eq_text (v : pv) (s : str) : bool := match v with PStr x => str_eqb x s | _ => false end.
Definition text_in (s : str) (v : pv) : upd bool := match v with PStr x => ret (contains s x) | _ => raise TypeError end.
(** v - z *)
Definition minus (v : pv) (z : Z) : upd pv :=
  match v with PInt x => ret (PInt (x - z)) | PFloat q => ret (PFloat (q - inject_Z z)%Q) | _ => raise TypeError end.

(** what is looked up elsewhere: identifiers["DATA_SET_ID"], data.metaget_(...), the object's name *)
Record context := mkContext { data_set : str; metaget : str -> pv; name : str }.
(** a function that check_special_block returns the result of (with True if it returns no pair):
    [Some b], block [b]; [None], the block of the metadata that it works on *)
Definition handler := context -> upd (bool * option multidict).
Definition special (m : upd unit) : upd (bool * option multidict) := m ;;; ret (true, None).
Definition unless_false : upd (bool * option multidict) := ret (false, None).

(** voyager.py:4-17 *)
Definition mag_special_block : handler := fun _ => special (set $"ROW_BYTES" (PInt 145)).
(** voyager.py:39-55 *)
Definition pls_avg_special_block : handler := fun _ =>
  v <~ get $"^STRUCTURE";;
  if eq_text v $"VGR_PLS_HR_2017.FMT" then special (set $"ROW_BYTES" (PInt 57)) else unless_false.
(** voyager.py:58-72 *)
Definition pls_fine_special_block : handler := fun _ =>
  v <~ get $"ROW_BYTES";;
  if eq_int v 57 then special (set $"ROW_BYTES" (PInt 64)) else unless_false.
(** voyager.py:75-85 *)
Definition pls_ionbr_special_block : handler := fun _ => special (set $"^STRUCTURE" (PStr $"SUMRY.FMT")).
(** voyager.py:88-111 *)
Definition pra_special_block : handler := fun c => special (
  if str_in (data_set c) [$"VG2-S-PRA-3-RDR-LOWBAND-6SEC-V1.0"; $"VG2-N-PRA-3-RDR-LOWBAND-6SEC-V1.0"; $"VG2-U-PRA-3-RDR-LOWBAND-6SEC-V1.0"] then
    each_column (v <~ get $"NAME";; s <~ text_in $"SWEEP" v;;
                 when s (add $"ITEM_BYTES" (PInt 4);;; set $"BYTES" (PInt 284)))
  else if str_eqb (data_set c) $"VG2-J-PRA-3-RDR-LOWBAND-6SEC-V1.0" then
    within $"CONTAINER" (each_column (
      v <~ get $"NAME";; when (eq_text v $"STATUS_WORD") (set $"START_BYTE" (PInt 1));;;
      v <~ get $"NAME";; when (eq_text v $"DATA_CHANNELS") (set $"START_BYTE" (PInt 5))))
  else ret tt).
(** pvo.py:4-16, 19-30 *)
Definition orpa_low_res_loader : handler := fun _ => special (set $"ROW_BYTES" (PInt 243)).
Definition oims_12s_loader : handler := fun c => special (set $"ROWS" (metaget c $"FILE_RECORDS")).
(** galileo.py:97-108, 127-153 *)
Definition epd_special_block : handler := fun c => special (set $"ROW_BYTES" (metaget c $"RECORD_BYTES")).
Definition pws_special_block : handler := fun c => special (
  s <~ text_in $"B.TAB" (metaget c $"PRODUCT_ID");; when s (set $"ROW_BYTES" (PInt 366));;;
  s <~ text_in $"E.TAB" (metaget c $"PRODUCT_ID");; when s (set $"ROW_BYTES" (PInt 516))).
(** lro.py:77-88 *)
Definition mini_rf_image_loader : handler := fun _ => special (set $"LINES" (PInt 5760);;; set $"LINE_SAMPLES" (PInt 11520)).
(** msl_edr.py:72-97 *)
Definition msl_edr_special_block : handler := fun _ => special (
  set $"INTERCHANGE_FORMAT" (PStr $"BINARY");;; set $"SAMPLE_TYPE" (PStr $"UNSIGNED_INTEGER");;;
  set $"BAND_STORAGE_TYPE" (PStr $"BAND_SEQUENTIAL");;; set $"CHECKSUM" (PStr $"N/A");;;
  set $"INVALID_CONSTANT" (PFloat 0);;; set $"MISSING_CONSTANT" (PFloat 0);;; set $"SAMPLE_BIT_MASK" (PStr $"2#11111111#")).
(** mariner.py:3-14 *)
Definition mariner_special_block : handler := fun _ => special (within $"COLUMN" (set $"START_BYTE" (PInt 1))).
(** ihw.py:57-74 *)
Definition ihw_special_block : handler := fun _ => special (each_column (
  v <~ get $"START_BYTE";; h <~ (if eq_int v 17 then has $"NAME" else ret true);; when (negb h) (add $"NAME" (PStr $">=1SEC"));;;
  v <~ get $"START_BYTE";; h <~ (if eq_int v 21 then has $"NAME" else ret true);; when (negb h) (add $"NAME" (PStr $">=8SEC")))).
(** phoenix.py:124-141 *)
Definition wcl_edr_special_block : handler := fun _ => special (each_column (
  n <~ get $"COLUMN_NUMBER";; when (eq_int n 13) (v <~ get $"START_BYTE";; v <~ minus v 1;; set $"START_BYTE" v);;;
  n <~ get $"COLUMN_NUMBER";; when (eq_int n 14) (v <~ get $"START_BYTE";; v <~ minus v 2;; set $"START_BYTE" v))).
(** mex.py:63-94; int(...) of integers, floats and text *)
Definition int_of (v : pv) : upd Z :=
  match v with
  | PInt z => ret z
  | PFloat q => ret (Z.quot (Qnum q) (Zpos (Qden q)))
  | PStr s => fun b => (b, py_int 10 s)
  | _ => raise TypeError
  end.
Definition pfs_edr_special_block : handler := fun c =>
  let orbit := metaget c $"ORBIT_NUMBER" in
  early <~ (if eq_text orbit $"N/A" then ret true else z <~ int_of orbit;; ret (z <? 8945));;
  if early then special (
    set $"ROWS" (metaget c $"FILE_RECORDS");;;
    each_column (
      v <~ get $"NAME";; when (eq_text v $"OBT OBSERVATION TIME") (set $"DATA_TYPE" (PStr $"PC_REAL"));;;
      v <~ get $"NAME";; when (eq_text v $"SCET OBSERVATION TIME") (set $"DATA_TYPE" (PStr $"PC_UNSIGNED_INTEGER"))))
  else unless_false.
(** ground.py:18-37; startswith of what is no text: AttributeError *)
Definition wff_atm_special_block : handler := fun c =>
  match metaget c $"PRODUCT_ID" with
  | PStr id =>
      if startswith $"S" id then special (
        real_line_samples <~ get $"LINES";; real_lines <~ get $"LINE_SAMPLES";;
        set $"LINES" real_lines;;; set $"LINE_SAMPLES" real_line_samples)
      else unless_false
  | _ => raise AttributeError
  end.
(** cassini.py:252-268 *)
Definition iss_calib_da_special_block : handler := fun _ =>
  h <~ has $"LINE_PREFIX_BYTES";;
  if h then special (del $"LINE_PREFIX_BYTES") else unless_false.
(** cassini.py:271-289 *)
Definition last_part (v : pv) : pv := match v with PStr s => PStr (last (split_on "/"%char s) []) | v => v end.
Definition iss_edr_special_block : handler := fun c =>
  prefix <~ (if str_eqb (name c) $"LINE_PREFIX_TABLE" then v <~ get $"^LINE_PREFIX_STRUCTURE";; text_in $"/" v else ret false);;
  if prefix then special (v <~ get $"^LINE_PREFIX_STRUCTURE";; set $"^LINE_PREFIX_STRUCTURE" (last_part v))
  else
    telemetry <~ (if str_eqb (name c) $"TELEMETRY_TABLE" then v <~ get $"^STRUCTURE";; text_in $"/" v else ret false);;
    if telemetry then special (v <~ get $"^STRUCTURE";; set $"^STRUCTURE" (last_part v))
    else unless_false.
(** ulysses.py:46-70 *)
Definition ulysses_special_block : handler := fun c => special (
  if contains $"ULY-J-EPAC-4-SUMM-PSTL" (data_set c) then
    within $"CONTAINER" (within $"COLUMN" (set $"ITEM_BYTES" (PInt 13)));;;
    within $"CONTAINER" (within $"COLUMN" (set $"START_BYTE" (PInt 1)))
  else if contains $"ULY-J-EPAC-4-SUMM-ALL-CHAN" (data_set c) then
    within_nth 0 $"CONTAINER" (within $"COLUMN" (set $"START_BYTE" (PInt 1)));;;
    within_nth 1 $"CONTAINER" (within $"CONTAINER" (set $"START_BYTE" (PInt 1)));;;
    within_nth 1 $"CONTAINER" (within $"CONTAINER" (within $"COLUMN" (set $"START_BYTE" (PInt 1))))
  else ret tt).
(** kaguya.py:53-70: works on a copy of all but the last four items.
    Simplification: the columns are shared with the metadata, and so not copied; nothing is changed in them here *)
Definition sp_2b_supp_special_block : handler := fun _ b =>
  match (v <~ get $"COLUMNS";; v <~ minus v 4;; set $"COLUMNS" v) (firstn (length b - 4) b) with
  | (copy, Ok _) => (b, Ok (true, Some copy))
  | (_, Err e) => (b, Err e)
  end.

(** the table of check_special_block's targets that are modelled here: module and function *)
Definition handlers : list (str * str * handler) :=
  [($"voyager", $"mag_special_block", mag_special_block); ($"voyager", $"pls_avg_special_block", pls_avg_special_block);
   ($"voyager", $"pls_fine_special_block", pls_fine_special_block); ($"voyager", $"pls_ionbr_special_block", pls_ionbr_special_block);
   ($"voyager", $"pra_special_block", pra_special_block); ($"pvo", $"orpa_low_res_loader", orpa_low_res_loader);
   ($"pvo", $"oims_12s_loader", oims_12s_loader); ($"galileo", $"epd_special_block", epd_special_block);
   ($"galileo", $"pws_special_block", pws_special_block); ($"lro", $"mini_rf_image_loader", mini_rf_image_loader);
   ($"msl_edr", $"get_special_block", msl_edr_special_block); ($"mariner", $"get_special_block", mariner_special_block);
   ($"ihw", $"get_special_block", ihw_special_block); ($"phoenix", $"wcl_edr_special_block", wcl_edr_special_block);
   ($"mex", $"pfs_edr_special_block", pfs_edr_special_block); ($"ground", $"wff_atm_special_block", wff_atm_special_block);
   ($"cassini", $"iss_calib_da_special_block", iss_calib_da_special_block); ($"cassini", $"iss_edr_special_block", iss_edr_special_block);
   ($"ulysses", $"get_special_block", ulysses_special_block); ($"kaguya", $"get_special_block_sp_2b_supp", sp_2b_supp_special_block)].

(** *** The query for the block of an object (datawrap.py:55-60, queries.py:891 and 310-320; the
    object is not interleaved with another): the special block, or that of the metadata *)
Definition query (h : handler) (c : context) : upd multidict := fun b =>
  match h c b with
  | (b', Ok (true, Some x)) => (b', Ok x)
  | (b', Ok _) => (b', Ok b')
  | (b', Err e) => (b', Err e)
  end.
(** the metadata after it was asked [n] times *)
Fixpoint after (h : handler) (c : context) (n : nat) (b : multidict) : multidict :=
  match n with O => b | S n => after h c n (fst (query h c b)) end.
