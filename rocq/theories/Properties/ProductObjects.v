(** * C82, continued: arrays and histograms of products, and products that cannot be read *)
From Verif.Base Require Import Py Val Numpy PyFacts.
From Verif.Model Require Import Files Pvl Meta Position Types Pds4Types Pds4Values Array Objects Dispatch Scaling Table TableValues Histogram PdsImage Product.
From Verif.Spec Require Import Types Pds4Values Pvl Meta Trim Files Dispatch Objects Position Array Table TableValues PdsImage Image Histogram Product.
From Verif.Proofs Require Import Product.
From Verif.Properties Require Import Files Dispatch Objects ObjectFiles Position Table PdsImage TableValues Array Histogram Product.
Local Open Scope nat_scope.

(** an object [name] with the block [m], in the file [q] from the byte [z] on *)
Record object_in (d : disk) (fn : path) (es : list entry) (label : multidict) (names : list str) (name : str) (m : multidict) (target : pv) (r : Z) (q : path) (z : Z) : Prop := {
  oi_listed : In name names; oi_name : name <> $"LABEL"; oi_caret : forall s, name <> "^"%char :: s;
  oi_block : gives es label name (PMulti m); oi_pointer : gives es label (pointer name) target;
  oi_form : one_form label; oi_kaguya : not_kaguya_spectrum label; oi_file : data_file (listing d) fn target q;
  oi_records : gives es label $"RECORD_BYTES" (PInt r); oi_start : starts_at (PInt r) (Some m) (Product.size d q) target z }.
Lemma product_object x d fn label_path max strict extra es label names name m target r q z :
  sane x -> ordinary_dirs (listing d) -> on_disk (listing d) fn -> labelled (listing d) fn label_path -> pds3_name label_path ->
  legible (literal_eval x) (walk_order x) max (contents d label_path) es label names ->
  object_in d fn es label names name m target r q z ->
  exists p, open_product x d fn None extra max strict = Ok p /\ In name (idx (p_found p)) /\ snd (load x d p name) = read_object x d p name q /\
    p_meta p = label /\ get_block (walk_order x) (p_meta p) (p_keys p) (format_file x) (p_found p) name = Ok (PMulti m) /\
    get_target (walk_order x) (p_meta p) (p_keys p) (p_found p) name = target /\
    record_field x (p_meta p) (p_keys p) $"RECORD_BYTES" = PInt r /\ data_start_byte (PInt r) (Some m) target (Product.size d q) = Ok z.
Proof.
  intros [T D] O Hd L N ((text & I & A & W) & Wf & R & S & Op & Lo) [In_ Nl Na G1 G2 H1 Nk Q G3 P].
  destruct (product_opened x d fn label_path max strict extra es text label names) as (st & E & Ei & Ep & Ef); auto.
  eexists. split; [exact E|]. cbn [p_found p_meta p_keys]. rewrite Ei. split; [now right|]. split.
  { unfold load. cbn [p_found p_meta p_keys p_filename p_dirs]. rewrite Ei.
    assert (X : str_in name ($"LABEL" :: names) = true) by (apply str_in_iff; now right). rewrite X. cbn [negb].
    rewrite (file_found x d fn label_path label es st extra name target q) by assumption. reflexivity. }
  destruct G1 as [I1 E1], G2 as [I2 E2], G3 as [I3 E3]. split; [reflexivity|].
  assert (Pt : pointerize name = pointer name).
  { unfold pointerize. destruct (startswith $"^" name) eqn:Y; [|reflexivity]. apply startswith_iff in Y. destruct Y as [y ->]. now destruct (Na y). }
  unfold get_block, get_target, record_field. rewrite Ep, (mblock_unique _ _ _ _ _ I1 E1), (mget_unique _ _ _ _ _ I1 E1), (mget_unique _ _ _ _ _ I3 E3), Pt.
  split; [reflexivity|]. split; [now apply mget_unique|]. split; [reflexivity|]. exact (start_ok _ _ _ _ _ P).
Qed.

(** ** Arrays *)
Theorem C82_array x d fn label_path max strict extra es label names name m target r q z type w o f sh :
  sane x -> ordinary_dirs (listing d) -> on_disk (listing d) fn -> labelled (listing d) fn label_path -> pds3_name label_path ->
  legible (literal_eval x) (walk_order x) max (contents d label_path) es label names ->
  object_in d fn es label names name m target r q z -> read_as KArray name (pname q) -> compressed q = false ->
  says_array m type w sh -> pds3_type type w o f -> Z.to_nat z + prod sh * w <= length (contents d q) ->
  exists p a, open_product x d fn None extra max strict = Ok p /\ In name (idx (p_found p)) /\ snd (load x d p name) = Ok (OImage a) /\ shape a = sh /\
    forall i, valid sh i -> cell_holds o f w (item (contents d q) (Z.to_nat z) w (lin sh i)) (at_ a i).
Proof.
  intros X O Hd L N Lg Ob Ra Cq Sa Ty Len.
  destruct (product_object x d fn label_path max strict extra es label names name m target r q z X O Hd L N Lg Ob) as (p & Eo & Ei & El & Em & Eb & Et & Er & Es).
  destruct (C72_binary (Model.Product.number_text x) m type w o f sh (contents d q) (contents d q) (Z.to_nat z) Sa Ty Len) as (a & Ea & Sh & V).
  exists p, a. split; [exact Eo|]. split; [exact Ei|]. split; [|split; [exact Sh|exact V]]. rewrite El. unfold read_object.
  rewrite (loader_is x (p_meta p) (p_keys p) KArray name (pname q)); [|rewrite Em; exact (oi_kaguya _ _ _ _ _ _ _ _ _ _ _ Ob)|exact Ra].
  rewrite Eb, Et, Er. cbn [rbind block_items]. rewrite Es. cbn [rbind]. rewrite Cq, Ea. reflexivity.
Qed.
Print Assumptions C82_array.

(** ** Histograms *)
Theorem C82_histogram x d fn label_path max strict extra es label names name m target r q z h o f pre data post len :
  sane x -> ordinary_dirs (listing d) -> on_disk (listing d) fn -> labelled (listing d) fn label_path -> pds3_name label_path ->
  legible (literal_eval x) (walk_order x) max (contents d label_path) es label names ->
  object_in d fn es label names name m target r q z -> read_as KTable name (pname q) -> Objects.mentions $"HISTOGRAM" name ->
  target <> PTuple [] -> says_length (PInt r) m len -> (len <> None \/ ~ Spec.Position.mentions name $"HEADER") ->
  contents d q = pre ++ data ++ post -> Z.of_nat (length pre) = z ->
  says_histogram m name h -> 0 < h_items h -> h_scale h = None -> h_shift h = None ->
  of_kind (h_type h) (h_width h) (Number o f) -> ~ Objects.mentions $"ASCII" (h_type h) ->
  h_name h <> $"RESERVED" -> ~ Objects.mentions $"PLACEHOLDER" (h_name h) -> length data = h_items h * h_width h ->
  exists p counts, open_product x d fn None extra max strict = Ok p /\ In name (idx (p_found p)) /\
    snd (load x d p name) =
      Ok (OTable (map (fun ic => mkFC (bin_name h (fst ic)) (CT (number_type f (h_width h))) [VNum (snd ic)]) (combine (seq 0 (h_items h)) counts))) /\
    length counts = h_items h /\
    forall i c, nth_error counts i = Some c -> pixel_holds o f (h_width h) (Image.item data 0 (h_width h) i) (PElt c).
Proof.
  intros X O Hd L N Lg Ob Ra Hh Nt Sl Hl Ec Ez Sh Hp H1 H2 K Na Hr Hpl Ld.
  destruct (product_object x d fn label_path max strict extra es label names name m target r q z X O Hd L N Lg Ob) as (p & Eo & Ei & El & Em & Eb & Et & Er & Es).
  destruct (C81_counts (vax_number x) (cp500 x) (compressed q) pre data post m name h o f Sh Hp H1 H2 K Na Hr Hpl Ld) as (counts & Eh & Lc & V).
  exists p, counts. split; [exact Eo|]. split; [exact Ei|]. split; [|split; [exact Lc|exact V]]. rewrite El. unfold read_object.
  rewrite (loader_is x (p_meta p) (p_keys p) KTable name (pname q)); [|rewrite Em; exact (oi_kaguya _ _ _ _ _ _ _ _ _ _ _ Ob)|exact Ra].
  rewrite Eb, Et, Er. cbn [rbind block_items]. rewrite Es. cbn [rbind].
  destruct (C16_extent (PInt r) (record_field x (p_meta p) (p_keys p) $"RECORD_TYPE") m target name z len) as (pos & Epos & _); auto; [lia| |].
  { intros (_ & _ & _ & B & _). destruct B; discriminate. }
  rewrite Epos. cbn [rbind]. apply contains_iff in Hh. rewrite Hh, Ec. replace (Z.to_nat z) with (length pre) by lia. rewrite Eh. reflexivity.
Qed.
Print Assumptions C82_histogram.

(** ** Objects that cannot be read *)
(** A name that is not in the index is a KeyError. *)
Theorem C82_unlisted x d p name : ~ In name (idx (p_found p)) -> snd (load x d p name) = Err KeyError.
Proof.
  intros H. unfold load. destruct (str_in name (idx (p_found p))) eqn:E; [apply str_in_iff in E; contradiction|reflexivity].
Qed.
Print Assumptions C82_unlisted.
(** The product opens even if the file of an object is nowhere to be found (in the directory of
    the product, or in those to be searched): loading the object is a FileNotFoundError. *)
Theorem C82_missing_file x d fn label_path max strict extra es label names name target f :
  sane x -> ordinary_dirs (listing d) -> on_disk (listing d) fn -> labelled (listing d) fn label_path -> pds3_name label_path ->
  legible (literal_eval x) (walk_order x) max (contents d label_path) es label names ->
  In name names -> name <> $"LABEL" -> (forall s, name <> "^"%char :: s) -> gives es label (pointer name) target -> one_form label ->
  names_file target f -> bare_name f -> Forall (fun dir => no_candidate (listing d) (mkPath dir f)) (pdir fn :: extra) ->
  exists p, open_product x d fn None extra max strict = Ok p /\ In name (idx (p_found p)) /\ snd (load x d p name) = Err FileNotFoundError.
Proof.
  intros [T D] O Hd L N ((text & I & A & W) & Wf & R & S & Op & Lo) In_ Nl Na [I2 E2] H1 Hf Hb Hn.
  destruct (product_opened x d fn label_path max strict extra es text label names) as (st & E & Ei & Ep & Ef); auto.
  eexists. split; [exact E|]. cbn [p_found]. rewrite Ei. split; [now right|].
  unfold load. cbn [p_found p_meta p_keys p_filename p_dirs]. rewrite Ei.
  assert (X : str_in name ($"LABEL" :: names) = true) by (apply str_in_iff; now right). rewrite X. cbn [negb].
  assert (Pt : pointerize name = pointer name).
  { unfold pointerize. destruct (startswith $"^" name) eqn:Y; [|reflexivity]. apply startswith_iff in Y. destruct Y as [y ->]. now destruct (Na y). }
  rewrite (C76_missing_file (walk_order x) label (flat_map completed_keys es) fn (pdir fn :: extra) (listing d) (compkeys x) (files st) true false name target f);
    [reflexivity|exact O|exact H1| |rewrite Pt; now apply mget_unique|exact Hf|exact Hb|exact Hn].
  rewrite Ef. unfold mapped. cbn [find fst]. rewrite (proj2 (str_eqb_neq _ _)); [reflexivity|congruence].
Qed.
Print Assumptions C82_missing_file.

(** ** The name a product is opened by, and how its label is decoded *)
(** Opening a product by a name that is not in its directory but stands for one file there (in
    other letter case, or compressed: see C13) is opening it by the name of that file. *)
Theorem C82_letter_case x d dir l name n label_fn extra max strict : ordinary_dirs (listing d) ->
  listing d dir = Some l -> ~ In name l -> In n l -> Spec.Files.stands_for n name -> (forall e, In e l -> Spec.Files.stands_for e name -> e = n) ->
  open_product x d (mkPath dir name) label_fn extra max strict = open_product x d (mkPath dir n) label_fn extra max strict.
Proof.
  intros O Hl Hn Hi Hs Hu.
  assert (E : check_cases (listing d) [mkPath dir name] false = Ok (mkPath dir n)).
  { destruct (check_cases (listing d) [mkPath dir name] false) as [p|e] eqn:E.
    - destruct (C13_found _ _ _ O E) as (before & cand & after & l' & Ec & _ & Hl' & Hp & Hd & H).
      destruct before as [|b [|]]; cbn in Ec; try discriminate. injection Ec as <- _. cbn [pdir pname] in *. rewrite Hl in Hl'. injection Hl' as <-.
      destruct H as [->|[_ H]]; [contradiction|]. destruct p as [pd pn]. cbn in *. subst pd. now rewrite (Hu pn).
    - rewrite (C13_only_error _ _ _ E) in E. apply (C13_missing _ _ O) in E. inversion E as [|? ? H _]; subst. unfold no_candidate in H. cbn [pdir pname] in H. rewrite Hl in H.
      destruct H as [_ H]. now destruct (H n Hi). }
  assert (E' : check_cases (listing d) [mkPath dir n] false = Ok (mkPath dir n)).
  { cbn [check_cases]. unfold path_exists. cbn [pdir pname]. rewrite Hl. apply str_in_iff in Hi. now rewrite Hi. }
  unfold open_product. now rewrite E, E'.
Qed.
Print Assumptions C82_letter_case.
(** bytes that are no text are replaced by other characters in labels named .lbl and .fmt (in any
    letter case), and are replaced or refused, as the user says, in all other files *)
Definition decoding (x : outside) (f : str -> res str) : outside :=
  mkOutside (literal_eval x) (fun _ => f) (walk_order x) (compkeys x) (image_format x) (vax_pixel x) (vax_number x) (cp500 x) (Model.Product.number_text x) (text_number x)
    (exact_number x) (text_columns x) (bit_columns x) (format_file x) (recursion x).
Theorem C82_decoding x d max strict p :
  (In (lower (suffix (pname p))) [$".lbl"; $".fmt"] -> read_pvl x d max strict p = read_pvl (decoding x (decode x false)) d max false p) /\
  (~ In (lower (suffix (pname p))) [$".lbl"; $".fmt"] -> read_pvl x d max strict p = read_pvl (decoding x (decode x strict)) d max strict p).
Proof.
  unfold read_pvl, looks_pvl. split; intros H.
  - apply str_in_iff in H. rewrite H. cbn [negb]. rewrite Bool.andb_false_r. reflexivity.
  - destruct (str_in _ _) eqn:E; [apply str_in_iff in E; contradiction|]. cbn [negb]. rewrite Bool.andb_true_r. reflexivity.
Qed.
Print Assumptions C82_decoding.
