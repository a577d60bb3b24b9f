(** * C82: from the bytes of a product on disk to the values of its objects
    The models of the label, of the index, of the files and of the loaders put together
    (Model/Product.v): whatever the label's text is, as long as it is written as PVL, opening
    the product and reading an object gives the values that the label describes. *)
From Verif.Base Require Import Py Val Numpy PyFacts.
From Verif.Model Require Import Files Pvl Meta Position Types Array Objects Dispatch Scaling Table TableValues PdsImage Product.
From Verif.Spec Require Import Pvl Meta Trim Files Dispatch Objects Position Array Table TableValues PdsImage Image Product.
From Verif.Proofs Require Import Product.
From Verif.Properties Require Import Files Dispatch Objects ObjectFiles Position Table PdsImage TableValues.
Local Open Scope nat_scope.

(** what is assumed of Python: literal_eval raises nothing else than it may, and bytes below
    128 are decoded as they are *)
Definition sane (x : outside) : Prop := tame (literal_eval x) /\ forall b t, Spec.Product.ascii_text t -> decode x b t = Ok t.
(** the loader that C33's rules choose, in any data set but one *)
Definition read_as (k : Dispatch.kind) (name file_name : str) : Prop :=
  ~ In DOT name /\ forall ds, ~ Objects.mentions $"SLN-L-SP" ds -> first_rule (rules (fun _ => false) ds file_name name) k.

(** ** Opening *)
Theorem C82_opened x d fn label_path max strict extra es label names :
  sane x -> ordinary_dirs (listing d) -> on_disk (listing d) fn -> labelled (listing d) fn label_path -> pds3_name label_path ->
  legible (literal_eval x) (walk_order x) max (contents d label_path) es label names ->
  exists p, open_product x d fn None extra max strict = Ok p /\ p_meta p = label /\ p_labelname p = label_path /\ idx (p_found p) = $"LABEL" :: names.
Proof.
  intros [T D] O Hd L N ((text & I & A & W) & Wf & R & S & Op & Lo).
  destruct (product_opened x d fn label_path max strict extra es text label names) as (st & E & Ei & _); auto.
  eexists. split; [exact E|]. auto.
Qed.
Print Assumptions C82_opened.

Lemma file_found x d fn label_path label es st dirs name target q :
  ordinary_dirs (listing d) -> on_disk (listing d) fn -> one_form label -> (forall r, name <> "^"%char :: r) -> name <> $"LABEL" ->
  gives es label (pointer name) target -> data_file (listing d) fn target q -> files st = [($"LABEL", label_path)] ->
  target_path (walk_order x) label (flat_map completed_keys es) fn (pdir fn :: dirs) (listing d) None (compkeys x) (files st) true false name = ((name, q) :: files st, Ok (Some q)).
Proof.
  intros O (l & Hl & Hin) H1 Na Nl [I2 E2] Q Ef.
  assert (Pt : pointerize name = pointer name).
  { unfold pointerize. destruct (startswith $"^" name) eqn:X; [|reflexivity]. apply startswith_iff in X. destruct X as [y ->]. now destruct (Na y). }
  assert (Ev : mget (walk_order x) label (flat_map completed_keys es) (pointerize name) = target) by (rewrite Pt; now apply mget_unique).
  assert (Hm : mapped (files st) name = None).
  { rewrite Ef. unfold mapped. cbn [find fst]. rewrite (proj2 (str_eqb_neq _ _)); [reflexivity|congruence]. }
  destruct Q as [Hno|f Hf Hb (l' & Hl' & Hin')].
  - destruct fn as [dir n]. apply (C76_opened_file _ _ _ _ _ _ _ _ _ _ _ _ l); auto. now rewrite Ev.
  - unfold target_path. rewrite Hm. unfold object_to_filename. rewrite (not_pair _ _ _ _ _ _ H1). cbn [rbind]. rewrite Ev.
    assert (Hc : match target with PTuple [] => Err IndexError | PTuple (PStr s :: _) | PStr s => Ok (get_absolute_paths (pdir fn :: dirs) s) | _ => Ok [fn] end =
                 Ok (in_directories (pdir fn :: dirs) f)) by (destruct Hf as [-> |[t ->]]; now rewrite absolute_bare).
    rewrite Hc. cbn [rbind in_directories map check_cases]. unfold path_exists. rewrite Hl'. apply str_in_iff in Hin'. now rewrite Hin'.
Qed.
Lemma loader_is x label keys k name fname : not_kaguya_spectrum label -> read_as k name fname ->
  pointer_to_loader (fun _ => false) (identifier x label keys $"DATA_SET_ID") fname name = k.
Proof.
  intros Nk [Hd H]. apply (proj2 (C33_choice (fun _ => false) _ fname name k Hd)). apply H. unfold identifier.
  assert (Z0 : ~ Objects.mentions $"SLN-L-SP" []) by (intros (a & b & X); apply (f_equal (@length ascii)) in X; rewrite !app_length in X; cbn in X; lia).
  destruct (mget_in (walk_order x) label keys $"DATA_SET_ID") as [E|E]; [now rewrite E|].
  destruct (mget (walk_order x) label keys $"DATA_SET_ID") as [| | | |s| | | |]; try exact Z0. now apply Nk.
Qed.

(** ** Images *)
(** One-band images: the value of each pixel is what its bytes in the file say, whichever file
    the label is in, and whichever file the pixels are in. *)
Theorem C82_image x d fn label_path max strict extra es label names name m target q r type w o f nl ns z :
  sane x -> ordinary_dirs (listing d) -> on_disk (listing d) fn -> labelled (listing d) fn label_path -> pds3_name label_path ->
  legible (literal_eval x) (walk_order x) max (contents d label_path) es label names ->
  (* the object, its pointer and the file *)
  In name names -> name <> $"LABEL" -> (forall s, name <> "^"%char :: s) -> gives es label name (PMulti m) -> gives es label (pointer name) target ->
  one_form label -> not_kaguya_spectrum label -> data_file (listing d) fn target q -> read_as KImage name (pname q) ->
  (* what is said of the image *)
  gives es label $"RECORD_BYTES" (PInt r) -> says_image m type w nl ns -> one_band m -> unpadded m -> pds3_type type w o f -> of_pixels name -> ~ of_qube name ->
  starts_at (PInt r) (Some m) (size d q) target z -> (z + Z.of_nat (nl * ns * w) <= Z.of_nat (length (contents d q)))%Z ->
  exists p a, open_product x d fn None extra max strict = Ok p /\ In name (idx (p_found p)) /\ snd (load x d p name) = Ok (OImage a) /\ shape a = [nl; ns] /\
    forall l s, l < nl -> s < ns -> cell_holds o f w (item (contents d q) (Z.to_nat z) w (l * ns + s)) (at_ a [l; s]).
Proof.
  intros [T D] O Hd L N ((text & I & A & W) & Wf & R & S & Op & Lo) In_ Nl Na G1 G2 H1 Nk Q Ra G3 Si Ob U Ty Op' Nq P Len.
  destruct (product_opened x d fn label_path max strict extra es text label names) as (st & E & Ei & Ep & Ef); auto.
  destruct G1 as [I1 E1], G3 as [I3 E3].
  destruct (C79_product (vax_pixel x) (walk_order x) label (flat_map completed_keys es) (format_file x) st name m target r type w o f nl ns (contents d q) (compressed q) (size d q) z)
    as (a & Ea & Sh & V); auto; try apply G2; try apply Ep.
  eexists _, a. split; [exact E|]. cbn [p_found]. rewrite Ei. split; [now right|]. split; [|split; [exact Sh|exact V]].
  unfold load. cbn [p_found p_meta p_keys p_filename p_dirs]. rewrite Ei.
  assert (X : str_in name ($"LABEL" :: names) = true) by (apply str_in_iff; now right). rewrite X. cbn [negb].
  rewrite (file_found x d fn label_path label es st extra name target q) by assumption. cbn [snd rbind].
  unfold read_object. cbn [p_found p_meta p_keys]. rewrite (loader_is x label _ KImage name (pname q) Nk Ra), Ea. reflexivity.
Qed.
Print Assumptions C82_image.

(** ** Tables *)
(** Binary tables: the value of each column in each row is what its bytes in the file say. *)
Theorem C82_table x d fn label_path max strict extra es label names name m target q r z len t blk bb suffix bytes c pre rows post count kinds :
  sane x -> ordinary_dirs (listing d) -> on_disk (listing d) fn -> labelled (listing d) fn label_path -> pds3_name label_path ->
  legible (literal_eval x) (walk_order x) max (contents d label_path) es label names ->
  (* the object, its pointer and the file *)
  In name names -> name <> $"LABEL" -> (forall s, name <> "^"%char :: s) -> gives es label name (PMulti m) -> gives es label (pointer name) target ->
  one_form label -> not_kaguya_spectrum label -> data_file (listing d) fn target q -> read_as KTable name (pname q) ->
  (* where the rows are *)
  gives es label $"RECORD_BYTES" (PInt r) -> target <> PTuple [] -> starts_at (PInt r) (Some m) (size d q) target z ->
  says_length (PInt r) m len -> (len <> None \/ ~ Spec.Position.mentions name $"HEADER") ->
  contents d q = pre ++ concat rows ++ post -> Z.of_nat (length pre) = z ->
  (* what is said of them *)
  says_table m t -> named m blk -> may_hold m $"BYTES" bb -> row_measures m None suffix (Some bytes) ->
  good_table blk t -> name <> $"CONTAINER" -> ~ Objects.mentions $"HISTOGRAM" name -> (3 <= recursion x) -> last_column_ends t c ->
  (0 <= column_end c <= bytes + opt0 suffix)%Z -> (0 < bytes + opt0 suffix)%Z ->
  Forall (fun y => (0 <= fst y)%Z) (table_cells 0 t) -> Forall (fun row => Z.of_nat (length row) = (bytes + opt0 suffix)%Z) rows ->
  (count = length rows \/ (length rows < count) /\ post = []) -> binary_block m name count ->
  let cols := table_columns 0 t in
  let cnames := map (fun y => c_name (fst y)) cols in
  Forall plain_name cnames -> Forall2 kind_of_column cols kinds -> (In IbmShort kinds -> rows <> []) ->
  Forall (fun y => c_scale (fst y) = None /\ c_shift (fst y) = None) cols ->
  exists p frame, open_product x d fn None extra max strict = Ok p /\ In name (idx (p_found p)) /\ snd (load x d p name) = Ok (OTable frame) /\ length frame = length cols /\
    forall i y k, nth_error cols i = Some y -> nth_error kinds i = Some k ->
      exists col, nth_error frame i = Some col /\ frame_name cnames i (k_name col) /\
        Forall2 (fun row v => cell_value (vax_number x) (cp500 x) k (Z.to_nat (snd (snd y))) (cell_in row (snd y)) v) rows (k_values col) /\
        match k with Number _ f => k_type col = CT (number_type f (Z.to_nat (snd (snd y)))) | _ => True end.
Proof.
  intros [T D] O Hd L N ((text & I & A & W) & Wf & R & S & Op & Lo) In_ Nl Na G1 G2 H1 Nk Q Ra G3 Nt P Sl Hh Ec Ez
    Hs Hn Hb Hm Hg Hna Nh Hf Hl He Hp Hnn Hrows Hcount HB cols cnames Hnames Hkinds Hibm Hno.
  destruct (product_opened x d fn label_path max strict extra es text label names) as (st & E & Ei & Ep & Ef); auto.
  destruct (C73_values (vax_number x) (cp500 x) (format_file x) (bit_columns x) (recursion x) m name t blk bb suffix bytes c (compressed q) pre rows post count kinds
    Hs Hn Hb Hm Hg Hna Hf Hl He Hp Hnn Hrows Hcount HB Hnames Hkinds Hibm Hno) as (frame & Er & Lf & V).
  eexists _, frame. split; [exact E|]. cbn [p_found]. rewrite Ei. split; [now right|]. split; [|split; [exact Lf|exact V]].
  unfold load. cbn [p_found p_meta p_keys p_filename p_dirs]. rewrite Ei.
  assert (X : str_in name ($"LABEL" :: names) = true) by (apply str_in_iff; now right). rewrite X. cbn [negb].
  rewrite (file_found x d fn label_path label es st extra name target q) by assumption. cbn [snd rbind].
  unfold read_object. cbn [p_found p_meta p_keys]. rewrite (loader_is x label _ KTable name (pname q) Nk Ra).
  destruct G1 as [I1 E1], G2 as [I2 E2], G3 as [I3 E3].
  assert (Pt : pointerize name = pointer name).
  { unfold pointerize. destruct (startswith $"^" name) eqn:Y; [|reflexivity]. apply startswith_iff in Y. destruct Y as [y ->]. now destruct (Na y). }
  assert (Et : get_target (walk_order x) label (flat_map completed_keys es) st name = target).
  { unfold get_target. rewrite Ep, (mget_unique _ _ _ _ _ I1 E1), Pt. now apply mget_unique. }
  assert (Erb : record_field x label (flat_map completed_keys es) $"RECORD_BYTES" = PInt r) by (unfold record_field; now rewrite (mget_unique _ _ _ _ _ I3 E3)).
  unfold get_block. rewrite Ep, (mblock_unique _ _ _ _ _ I1 E1). cbn [rbind block_items]. rewrite Et, Erb.
  rewrite (start_ok _ _ _ _ _ P). cbn [rbind].
  destruct (C16_extent (PInt r) (record_field x label (flat_map completed_keys es) $"RECORD_TYPE") m target name z len) as (pos & Epos & _); auto; [lia| |].
  { intros (_ & _ & _ & B & _). destruct B; discriminate. }
  rewrite Epos. cbn [rbind].
  assert (Ch : contains $"HISTOGRAM" name = false) by (apply not_true_iff_false; intros Y; apply contains_iff in Y; now apply Nh). rewrite Ch.
  rewrite Ec. replace (Z.to_nat z) with (length pre) by lia. rewrite Er. reflexivity.
Qed.
Print Assumptions C82_table.
