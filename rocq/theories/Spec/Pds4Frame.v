(** Specification for C66 and C67: the DataFrame of a PDS4 table, independently of how it is
    made. *)
From Coq Require Import QArith.
From Verif.Base Require Import Py Val.
From Verif.Model Require Import Types Scaling Pds4Types Pds4Values.
From Verif.Spec Require Import Scaling Pds4Types Pds4Values.
From Verif.Model Require Import Pds4Tables Pds4Frame.
From Verif.Spec Require Import Pds4Tables.
Open Scope nat_scope.

(** ** Names *)
(** a name without the characters that full names put between and after names *)
Definition plain_name (s : str) : Prop := ~ In ","%char s /\ ~ In "["%char s /\ ~ In ":"%char s.
(** ** Fields and groups with their names: groups need not have one *)
Inductive named := NF (name : str) (l n : Z) | NG (name : option str) (r : nat) (l n : Z) (cs : list named).
Fixpoint unnamed (i : named) : item := match i with NF _ l n => Fld l n | NG _ r l n cs => Grp r l n (map unnamed cs) end.
(** the names in the order of the label *)
Fixpoint names_item (i : named) : list (option str) :=
  match i with NF s _ _ => [Some s] | NG o _ _ _ cs => o :: flat_map names_item cs end.
Definition label_fields (l : list named) : list item := map unnamed l.
Definition label_names (l : list named) : list (option str) := flat_map names_item l.
(** whether siblings are groups, and their names; groups without name are called after
    their number among the groups *)
Fixpoint bases (g : nat) (l : list named) : list (bool * str) :=
  match l with
  | [] => []
  | NF s _ _ :: l => (false, s) :: bases g l
  | NG o _ _ _ _ :: l => (true, match o with Some s => s | None => $"GROUP_" ++ str_of_nat g end) :: bases (S g) l
  end.
Definition like (a b : bool * str) : bool := Bool.eqb (fst a) (fst b) && str_eqb (snd a) (snd b).
(** sibling number [k]; siblings of one kind and name are numbered *)
Definition label_of (bs : list (bool * str)) (k : nat) : str :=
  let b := nth k bs (false, []) in
  snd b ++ (if 2 <=? length (filter (like b) bs) then $" [" ++ str_of_nat (length (filter (like b) (firstn k bs))) ++ $"]" else []).
Definition labels (l : list named) : list str := map (label_of (bases 0 l)) (seq 0 (length l)).
(** for each field the labels of its groups and itself, and the repetitions of its groups *)
Fixpoint heads_item (lab : str) (i : named) {struct i} : list (list str * list nat) :=
  match i with
  | NF _ _ _ => [([lab], [])]
  | NG _ r _ _ cs =>
      map (fun h => (lab :: fst h, r :: snd h))
        ((fix go (labs : list str) (cs : list named) {struct cs} :=
            match labs, cs with lab :: labs, c :: cs => heads_item lab c ++ go labs cs | _, _ => [] end) (labels cs) cs)
  end.
Fixpoint heads_go (labs : list str) (cs : list named) {struct cs} : list (list str * list nat) :=
  match labs, cs with lab :: labs, c :: cs => heads_item lab c ++ heads_go labs cs | _, _ => [] end.
Definition heads (l : list named) : list (list str * list nat) := heads_go (labels l) l.
(** the name of a field: labels separated by commas, with underscores for colons *)
Definition head_name (h : list str * list nat) : str := map (fun c => if Ascii.eqb c ":"%char then "_"%char else c) (join $", " (fst h)).
(** a list of names for the fields and groups of a label: fields have names, groups may *)
Definition names_for (m : list entry) (ns : list (option str)) : Prop :=
  length ns = length m /\
  forall i, i < length m -> match nth i ns None with Some s => plain_name s | None => is_group (ent m i) = true end.
Definition occurs (p s : str) : Prop := exists a b, s = a ++ p ++ b.
(** does not begin or end with a comma or a space *)
Definition trimmed_name (s : str) : Prop :=
  match s with [] => True | c :: _ => c <> ","%char /\ c <> " "%char end /\
  forall u c, s = u ++ [c] -> c <> ","%char /\ c <> " "%char.
Definition quiet_name (s : str) : Prop := ~ occurs $"GROUP" s /\ trimmed_name s.

(** ** Columns *)
Definition plain (f : tfield) : Prop := t_shape f = [].
(** the columns of a field: one for each of its repetitions *)
Definition columns_in (shape : list nat) : nat := fold_right Nat.mul 1 shape.
Definition width (f : tfield) : nat := columns_in (t_shape f).
(** a field of [n] records *)
Definition field_length (v : fvals) : nat :=
  match v with FInts _ l => length l | FReals l => length l | FBools l => length l | FRaw _ l => length l | FText l => length l end.
Definition of_records (n : nat) (f : tfield) : Prop := field_length (t_vals f) = n * width f.
(** value number [i] of a field is [x]; [m] tells whether it is missing *)
Definition stored (v : fvals) (i : nat) (m : bool) (x : dfvalue) : Prop :=
  match v with
  | FInts _ l => exists z, nth_error l i = Some (z, m) /\ x = VI z
  | FReals l => exists r, nth_error l i = Some (r, m) /\ x = VR r
  | FBools l => exists b, nth_error l i = Some (b, m) /\ x = VB b
  | FRaw _ l => exists p, nth_error l i = Some p /\ x = VP p /\ m = false
  | FText l => exists s, nth_error l i = Some s /\ x = VT s /\ m = false
  end.
Definition known (v : fvals) (i : nat) (x : dfvalue) : Prop := stored v i false x.
Definition missing (v : fvals) (i : nat) : Prop := exists x, stored v i true x.
Definition complete (v : fvals) : Prop := forall i, ~ missing v i.
(** the name of column [j] of a field *)
Definition column_of (name : str) (shape : list nat) (j : nat) : str :=
  match shape with [] => name | _ => name ++ $"_" ++ str_of_nat j end.
(** a DataFrame of [n] rows with the columns of the fields, given with their names and the
    repetitions of their groups, one after the other, whose cell for the value number [i] of
    field number [k] satisfies [cell k i] *)
Definition frame (n : nat) (fields : list (str * list nat)) (cell : nat -> nat -> dfvalue -> Prop) (cols : list (str * list dfvalue)) : Prop :=
  let width p := columns_in (snd p) in
  length cols = list_sum (map width fields) /\
  forall k name shape j, nth_error fields k = Some (name, shape) -> j < columns_in shape ->
    exists col, nth_error cols (list_sum (map width (firstn k fields)) + j) = Some (column_of name shape j, col) /\ length col = n /\
      forall r x, nth_error col r = Some x -> cell k (r * columns_in shape + j) x.
Definition described (f : tfield) : str * list nat := (t_name f, t_shape f).
(** a field in a group, or without group between such fields (or none) *)
Definition lone (fs : list tfield) (k : nat) : Prop :=
  (exists f, nth_error fs k = Some f /\ ~ plain f) \/
  ((forall g, nth_error fs (S k) = Some g -> ~ plain g) /\ forall k' g, k = S k' -> nth_error fs k' = Some g -> ~ plain g).
(** a number of a column of doubles *)
Definition as_float (v : fvals) (x y : dfvalue) : Prop :=
  match v, x with
  | FInts (TNum _) _, VI z => exists d, y = VR d /\ double_for (inject_Z z) d
  | _, _ => y = x
  end.

(** what stands for a value in the DataFrame: NaN for a missing one (and then integers are
    doubles), or, if [keep] does not hold, the value in store even if it is missing *)
Definition shown (keep : Prop) (v : fvals) (i : nat) (y : dfvalue) : Prop :=
  (keep -> (missing v i /\ y = VR NaN) \/ exists x, known v i x /\ (complete v -> y = x) /\ (~ complete v -> as_float v x y)) /\
  (~ keep -> exists m, stored v i m y).

(** ** Special constants of the label *)
(** the field [f'] is [f] with the special constants missing *)
Definition specials_missing (f f' : tfield) : Prop :=
  t_name f' = t_name f /\ t_shape f' = t_shape f /\ t_special f' = None /\
  match t_special f with
  | None => t_vals f' = t_vals f
  | Some sc =>
      match t_vals f, t_vals f' with
      | FInts t l, FInts t' l' => t' = t /\ Forall2 (fun p p' => fst p' = fst p /\ (snd p' = true <-> snd p = true \/ special_int sc (fst p))) l l'
      | FReals l, FReals l' => Forall2 (fun p p' => fst p' = fst p /\ (snd p' = true <-> snd p = true \/ special_float DF64 sc (fst p))) l l'
      | v, v' => v' = v
      end
  end.
(** the special constants of a field are numbers of its type *)
Definition specials_fit (f : tfield) : Prop :=
  forall sc, t_special f = Some sc ->
    match t_vals f with
    | FInts t l => machine_int t /\ Forall (fun p => int_fits t (fst p)) l /\ forall z, special_int sc z -> int_fits t z
    | FReals l => Forall (fun p => forall q, fst p = Fin q -> holds DF64 q) l /\ finite_constants (TNum DF64) (Some sc)
    | _ => True
    end.

(** ** What a text of a field says *)
Inductive meaning := MInt (signed : bool) | MBased (b : N) | MReal | MBool | MText | MBytes (o : byte_order) (f : format) (w : nat).
(** what the type of a field means; types of binary numbers mean them only in binary tables *)
Inductive meant (k : table_kind) (name : str) : meaning -> Prop :=
| m_int (signed : bool) : name = (if signed then $"ASCII_Integer" else $"ASCII_NonNegative_Integer") -> meant k name (MInt signed)
| m_based b : In b [2; 8; 16]%N -> name = $"ASCII_Numeric_Base" ++ str_of_N b -> meant k name (MBased b)
| m_real : name = $"ASCII_Real" -> meant k name MReal
| m_bool : name = $"ASCII_Boolean" -> meant k name MBool
| m_text : ~ In name (map fst PDS_NUMERIC_TYPES) -> meant k name MText
| m_bytes o f w : k = Binary -> pds4_type name o f w -> meant k name (MBytes o f w).
(** integers have 64 bits, texts lose zero bytes at their end *)
Definition says (t : meaning) (s : str) (x : dfvalue) : Prop :=
  match t with
  | MInt signed => exists z, x = VI z /\ int_text 10 s z /\ of_width signed 8 z
  | MBased b => exists z, x = VI z /\ int_text b s z
  | MReal => exists v, x = VR v /\ real_text s v
  | MBool => exists b, x = VB b /\ bool_text s b
  | MText => exists u n, x = VT u /\ s = u ++ repeat "000"%char n /\ no_final_nul u
  | MBytes o f w => exists p, x = VP p /\ length s = w /\ pixel_holds o f w s p
  end.
(** in delimited tables numbers may be left out *)
Definition left_out (k : table_kind) (t : meaning) (s : str) : Prop := k = Delimited /\ t <> MText /\ blanks s.
Definition zero_of (t : meaning) : dfvalue := match t with MReal => VR (Fin 0) | MBool => VB false | _ => VI 0 end.
(** the cell for a text that may be left out: NaN, or zero if [keep] does not hold; an integer may
    become a double *)
Definition shown_text (k : table_kind) (t : meaning) (s : str) (keep : Prop) (y : dfvalue) : Prop :=
  (left_out k t s /\ (keep -> y = VR NaN) /\ (~ keep -> y = zero_of t)) \/
  (exists x, says t s x /\ (y = x \/ (keep /\ exists z d, x = VI z /\ y = VR d /\ double_for (inject_Z z) d))).

(** ** Tables of a label *)
(** what the DataFrame of a label's fields looks like *)
Definition label_frame (n : nat) (F : list named) := frame n (map (fun h => (head_name h, snd h)) (heads F)).
(** names that stay as they are, and no groups in groups in groups *)
Definition showable (F : list named) : Prop :=
  heads F <> [] /\ NoDup (map head_name (heads F)) /\ Forall (fun h => quiet_name (head_name h) /\ length (snd h) <= 2) (heads F).
(** [lone] fields of a label *)
Definition lone_in (hs : list (list str * list nat)) (k : nat) : Prop :=
  (exists h, nth_error hs k = Some h /\ snd h <> []) \/
  ((forall g, nth_error hs (S k) = Some g -> snd g <> []) /\ forall k' g, k = S k' -> nth_error hs k' = Some g -> snd g <> []).
(** the texts of field [k] in the records of a delimited table *)
Definition delimited_texts (f : list item) (recs : list (list coltext)) (k : nat) : list str :=
  flat_map (fun cols => values_of k (owners f) (map value cols)) recs.
(** a file with a delimited table of these fields, as the label describes it *)
Definition delimited_file (f : list item) (d : ascii) (rd : str) (recs : list (list coltext)) (object_length maximum_record_length : option Z) : Prop :=
  let table := table_text d rd recs [] in
  delimiter d /\ record_end rd /\ recs <> [] /\
  (forall o, object_length = Some o -> o = Z.of_nat (length table)) /\
  (forall l, object_length = None -> maximum_record_length = Some l -> Forall (fun cols => Z.of_nat (length (record_text d cols ++ rd)) <= l)%Z recs) /\
  all_repeated f /\ safe_columns f /\
  Forall (fun cols => good_record d rd cols /\ length cols = length (owners f)) recs.
