(** Specification for C82: products as they lie on a disk. *)
From Verif.Base Require Import Py Val.
From Verif.Model Require Import Files Pvl. (* the types path, fsys and order *)
From Verif.Spec Require Import Pvl Meta Trim Files Objects.

(** ** The values that label texts stand for *)
Section Values.
(** Python's ast.literal_eval *)
Variable literal : str -> res pv.
(** not a number in another base, like 16#FF# *)
Definition unbased (s : str) : Prop := (exists t, s = $"""" ++ t) \/ ~ In "#"%char (firstn 2 (skipn 1 s)).
Definition no_literal (s : str) : Prop := literal s = Err SyntaxError \/ literal s = Err ValueError.
(** what Python reads as a literal is that; a word is a text, without quotes *)
Inductive plain_value : str -> pv -> Prop :=
| v_literal s v : unbased s -> literal s = Ok v -> plain_value s v
| v_word s : unbased s -> no_literal s -> ~ In "<"%char s \/ ~ In ">"%char s -> (forall t, s <> $"(" ++ t /\ s <> $"{" ++ t) -> plain_value s (PStr s).
(** ... and quantities: 600 <BYTES>, ("A.DAT", 600 <BYTES>) *)
Inductive value_of_text : str -> pv -> Prop :=
| v_plain s v : plain_value s v -> value_of_text s v
| v_quantity items vs : Forall wf_qitem items -> Exists is_quantity items -> Forall2 (qmeaning plain_value) items vs ->
    no_literal (join $"," (map qtext items)) -> value_of_text (join $"," (map qtext items)) (match vs with [v] => v | _ => PTuple vs end)
| v_quantities items vs : Forall wf_qitem items -> Exists is_quantity items -> Forall2 (qmeaning plain_value) items vs ->
    no_literal ($"(" ++ join $"," (map qtext items) ++ $")") ->
    value_of_text ($"(" ++ join $"," (map qtext items) ++ $")") (match vs with [v] => v | _ => PTuple vs end).
(** the label that these entries make, with their values *)
Definition label_of_entries (es : list entry) (label : multidict) : Prop :=
  same_shape (fun v v' => exists s, v = PStr s /\ value_of_text s v') (PMulti (denote es)) (PMulti label).
End Values.

(** ** The label in a file *)
(** the library looks for the end of a label in pieces of 50 KiB *)
Definition piece : nat := N.to_nat (50 * 1024).
Definition ascii_text (s : str) : Prop := Forall (fun c => (N_of_ascii c < 128)%N) s.
(** [text] is the label at the beginning of [file]: up to and including the first END line; or
    the whole file, if it has none.  At most [max] bytes are looked at *)
Inductive label_in (max : nat) (file : list ascii) : str -> Prop :=
| ends_here head chunks a m b rest :
    file = head ++ concat chunks ++ a ++ m ++ b ++ rest -> length head = 20%nat ->
    Forall (fun c => length c = piece /\ no_ending c) chunks -> (piece * length chunks < max)%nat ->
    (length (a ++ m ++ b) = piece \/ (length (a ++ m ++ b) < piece)%nat /\ rest = []) ->
    first_marker a m b \/ m = unix_end /\ no_end_marker (a ++ m ++ b) /\ ~ occurs three_nulls (a ++ m ++ b) /\ first_occurrence a m b ->
    label_in max file (head ++ concat chunks ++ a ++ m)
| no_end head chunks last :
    file = head ++ concat chunks ++ last -> length head = 20%nat ->
    Forall (fun c => length c = piece /\ no_ending c) chunks -> (piece * length chunks < max)%nat ->
    (length last < piece)%nat -> no_ending last -> label_in max file (head ++ concat chunks ++ last).
(** [text] writes the entries [es], with or without an END after them *)
Definition written (es : list entry) (text : str) : Prop :=
  exists last lss, (last = [] \/ last = [($"END", [])]) /\ Forall2 writes (label_statements es ++ last) lss /\
    text = text_of_lines (concat lss) /\ uncommented text.

(** ** Where the label is *)
Definition label_name (p : path) : Prop := exists e, In e [$".xml"; $".lbl"; $".lblx"] /\ exists s, lower (pname p) = s ++ e.
(** the labels of Chang'e products: ceN in the path and one of their suffixes *)
Definition change_name (p : path) : Prop :=
  (exists m a b, In m $"123456" /\ lower (pstr p) = a ++ ($"ce" ++ [m]) ++ b) /\
  exists e s, In e [$".2bl"; $".2al"; $".2cl"; $".01l"; $".3bl"; $".3al"; $".3cl"] /\ lower (pstr p) = s ++ e.
Definition on_disk (fs : fsys) (p : path) : Prop := exists l, fs (pdir p) = Some l /\ In (pname p) l.
(** [fn] was asked for; [label] is the file its label is in *)
Inductive labelled (fs : fsys) (fn : path) : path -> Prop :=
(** the label is opened *)
| opened_label : label_name fn -> labelled fs fn fn
(** the label is in the file itself, and there is none next to it *)
| attached stem ext : ~ label_name fn -> ~ change_name fn -> splits_at_last_dot (pname fn) stem ext ->
    Forall (fun e => no_candidate fs (mkPath (pdir fn) (stem ++ e))) [$".xml"; $".lbl"; $".lblx"] -> labelled fs fn fn
(** the label has the same name, with another suffix *)
| detached stem ext : ~ label_name fn -> ~ change_name fn -> splits_at_last_dot (pname fn) stem ext ->
    no_candidate fs (mkPath (pdir fn) (stem ++ $".xml")) -> on_disk fs (mkPath (pdir fn) (stem ++ $".lbl")) ->
    labelled fs fn (mkPath (pdir fn) (stem ++ $".lbl")).
(** not a label of PDS4, nor a FITS file or a picture *)
Definition pds3_name (p : path) : Prop :=
  (forall s, pstr p <> s ++ $".xml" /\ pstr p <> s ++ $".lblx") /\
  (forall s e, In e [$".2BL"; $".2AL"; $".2CL"; $".01L"] -> pstr p <> s ++ e) /\
  (forall s e, In e [$".fits"; $".fit"; $".fits.gz"; $".fit.gz"; $".fz"] -> lower (pstr p) <> s ++ e) /\
  ~ (exists e, In e [$".bmp"; $".tif"; $".tiff"; $".jp2"; $".jpf"; $".jpc"; $".jpx"; $".jpg"; $".jpeg"; $".gif"; $".png"; $".webp"] /\ In e (suffixes (lower (pname p)))).

(** ** What the label says *)
(** not one of the products whose objects the library knows without their labels *)
Definition ordinary_product (label : multidict) : Prop :=
  ~ In (PStr $"MARS SCIENCE LABORATORY") (values_of $"INSTRUMENT_HOST_NAME" (PMulti label)) /\
  ~ In (PStr $"Chang'E-3 Rover") (values_of $"SPACECRAFT_NAME" (PMulti label)).
(** nor a spectrum of Kaguya *)
Definition not_kaguya_spectrum (label : multidict) : Prop :=
  forall s, In (PStr s) (values_of $"DATA_SET_ID" (PMulti label)) -> ~ Objects.mentions $"SLN-L-SP" s.
(** the objects it points to, which, if they are described, have no format files for line prefixes *)
Definition lists_objects (o : order) (label : multidict) (names : list str) : Prop :=
  exists all, pointed_to o label all /\ picked shown all names /\
    forall n, In n names -> ~ Objects.mentions $"LINE_PREFIX" n /\
      forall v, In v (values_of n (PMulti label)) -> exists b, v = PMulti b /\ Forall (fun kv => ~ points_to_format kv) b.
(** the label gives this value to a key, once *)
Definition gives (es : list entry) (label : multidict) (k : str) (v : pv) : Prop :=
  In k (flat_map completed_keys es) /\ values_of k (PMulti label) = [v].
(** all that is needed of a label: [es] are its entries, [label] is what they say, [names] are the objects *)
Definition legible (literal : str -> res pv) (o : order) (max : nat) (file : list ascii) (es : list entry) (label : multidict) (names : list str) : Prop :=
  (exists text, label_in max file text /\ ascii_text text /\ written es text) /\
  wf_label es /\ (forall p, ~ renamed_pointer (flat_map completed_keys es) p) /\ label_of_entries literal es label /\
  ordinary_product label /\ lists_objects o label names.
(** ** Where an object is *)
(** the file that holds an object whose pointer has this value, if the file [fn] was opened *)
Inductive data_file (fs : fsys) (fn : path) (pointer_value : pv) : path -> Prop :=
| same_file : names_no_file pointer_value -> data_file fs fn pointer_value fn
| other_file f : names_file pointer_value f -> bare_name f -> on_disk fs (mkPath (pdir fn) f) -> data_file fs fn pointer_value (mkPath (pdir fn) f).
(** a label that describes compressed files names both forms; this one does not *)
Definition one_form (label : multidict) : Prop := md_get label $"COMPRESSED_FILE" = None \/ md_get label $"UNCOMPRESSED_FILE" = None.
