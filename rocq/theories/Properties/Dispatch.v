(** Property C33: the choice of loaders. *)
From Verif.Base Require Import Py PyFacts Val.
From Verif.Model Require Import Files Dispatch.
From Verif.Spec Require Import Dispatch.

Lemma rule_if (b : bool) (C : Prop) k rs k' : (b = true <-> C) -> first_rule rs k' -> first_rule ((C, k) :: rs) (if b then k else k').
Proof.
  intros H R. destruct b; [apply rule_applies; now apply H|]. apply rule_skipped; [|exact R]. intros HC. apply H in HC. discriminate.
Qed.
Lemma first_rule_unique rs k k' : first_rule rs k -> first_rule rs k' -> k = k'.
Proof. intros H. revert k'. induction H as [C k rs HC|C k rs k1 NC H IH]; intros k' H'; inversion H'; subst; try contradiction; [reflexivity|now apply IH]. Qed.
Lemma mentions_iff w p : contains w p = true <-> mentions w p. Proof. apply contains_iff. Qed.
Lemma any_in_iff ws p : any_in ws p = true <-> mentions_any ws p.
Proof.
  unfold any_in, mentions_any. rewrite existsb_exists. split; intros (w & I & H); exists w; (split; [exact I|]); now apply mentions_iff.
Qed.
Lemma not_iff_b b (C : Prop) : (b = true <-> C) -> (negb b = true <-> ~ C).
Proof. intros H. rewrite negb_true_iff, <- not_true_iff_false, H. reflexivity. Qed.
Lemma and_iff_b b1 b2 (C D : Prop) : (b1 = true <-> C) -> (b2 = true <-> D) -> (b1 && b2 = true <-> C /\ D).
Proof. intros H1 H2. rewrite andb_true_iff, H1, H2. reflexivity. Qed.
Lemma ext_iff exts fn : looks_like_this_kind_of_file fn exts = true <-> has_extension exts fn.
Proof.
  unfold looks_like_this_kind_of_file, has_extension. rewrite existsb_exists. split.
  - intros (e & I & H). apply str_in_iff in H. now exists e.
  - intros (e & H & I). exists e. split; [exact I|now apply str_in_iff].
Qed.
Lemma split_on_no_sep c s w : In w (split_on c s) -> ~ In c w.
Proof.
  revert w. induction s as [|x s IH]; intros w; cbn [split_on].
  - intros [<-|[]] [].
  - destruct (Ascii.eqb_spec x c) as [->|Ne].
    + intros [<-|H]; [intros []|now apply IH].
    + destruct (split_on c s) as [|y l] eqn:E.
      * intros [<-|[]]. intros [->|[]]. now apply Ne.
      * intros [<-|H]; [|apply IH; now right]. intros [->|H]; [now apply Ne|]. apply (IH y); [now left|exact H].
Qed.
Lemma suffix_form e fn : In e (suffixes fn) -> exists w, e = DOT :: w /\ ~ In DOT w.
Proof.
  unfold suffixes. destruct (endswith _ _); [intros []|]. intros I. apply in_map_iff in I. destruct I as (w & <- & I). exists w. split; [reflexivity|].
  apply (split_on_no_sep DOT (lstrip_by is_dot fn)). destruct (split_on DOT _); [destruct I|now right].
Qed.
Lemma fits_ext fn : has_extension FITS_EXTENSIONS fn <-> has_extension [$".fits"; $".fit"; $".fz"] fn.
Proof.
  split; intros (e & I & S); exists e; (split; [|exact S]).
  - destruct (suffix_form _ _ S) as (w & -> & N). cbn [FITS_EXTENSIONS In] in I.
    destruct I as [E|[E|[E|[E|[E|[]]]]]]; injection E as <-; cbn; auto; exfalso; apply N; cbn; auto 10.
  - cbn in I |- *. destruct I as [<-|[<-|[<-|[]]]]; auto 8.
Qed.
Lemma no_extension p exts : ~ In DOT p -> looks_like_this_kind_of_file p exts = false.
Proof.
  intros N. apply not_true_iff_false. rewrite ext_iff. intros (e & _ & I). unfold suffixes in I. destruct (endswith _ _); [destruct I|].
  assert (N' : ~ In DOT (lstrip_by is_dot (lower p))).
  { destruct (lstrip_by_spec is_dot (lower p)) as (w & E & _). intros H. apply N. assert (H' : In DOT (lower p)) by (rewrite E; apply in_or_app; now right).
    unfold lower in H'. apply in_map_iff in H'. destruct H' as (c & Ec & Ic). replace DOT with c; [exact Ic|].
    clear -Ec. revert Ec. destruct c as [[] [] [] [] [] [] [] []]; vm_compute; intros E; try discriminate E; reflexivity. }
  rewrite (split_on_no DOT _ N') in I. destruct I.
Qed.

(** every object goes to the first loader whose rule applies *)
Theorem C33_choice special data_set_id fn p k : ~ In DOT p ->
  pointer_to_loader special data_set_id fn p = k <-> first_rule (rules special data_set_id fn p) k.
Proof.
  intros N.
  assert (E : pointer_to_loader special data_set_id fn p =
    if contains $"TIFF" p && (negb (contains $"IMAGE" p) && negb (contains $"DOCUMENT" p)) then KTrivial
    else if contains $"STRUCTURE" p then KTrivial else if contains $"PDS_OBJECT" p then KTrivial else if special p then KTrivial
    else if str_eqb p $"LABEL" then KLabel
    else if looks_like_this_kind_of_file fn FITS_EXTENSIONS then KFits
    else if looks_like_this_kind_of_file fn DESKTOP_IMAGE_EXTENSIONS then KCompressedImage
    else if contains $"SLN-L-SP" data_set_id && contains $"SPECTRUM" p then KImage
    else if contains $"SLN-L-SP" data_set_id && contains $"ANCILLARY_AND_SUPPLEMENT_DATA" p then KTable
    else if any_in [$"TEXT"; $"PDF"; $"MAP_PROJECTION_CATALOG"; $"FILENAME"; $"DESC"] p then KText
    else if contains $"ARRAY" p then KArray
    else if any_in table_words p && (negb (any_in (map (fun w => w ++ $"_HEADER") table_words) p || any_in (map (fun w => w ++ $"_NAME") table_words) p)
         && negb (contains $"HISTOGRAM_IMAGE" p)) then KTable
    else if contains $"HEADER" p then KHeader
    else if any_in [$"IMAGE"; $"QUB"; $"XDR_DOCUMENT"] p then KImage
    else if true then KTBD else KTBD).
  { unfold pointer_to_loader, is_trivial. rewrite <- !andb_assoc.
    destruct (contains $"TIFF" p && _); [reflexivity|]. destruct (contains $"STRUCTURE" p); [reflexivity|]. destruct (contains $"PDS_OBJECT" p); [reflexivity|].
    destruct (special p); [reflexivity|]. cbn [orb]. destruct (str_eqb p $"LABEL"); [reflexivity|]. unfold image_lib_dispatch.
    destruct (looks_like_this_kind_of_file fn FITS_EXTENSIONS); [reflexivity|]. destruct (looks_like_this_kind_of_file fn DESKTOP_IMAGE_EXTENSIONS); [reflexivity|].
    unfold special_pointer_dispatch. destruct (contains $"SLN-L-SP" data_set_id && contains $"SPECTRUM" p); [reflexivity|].
    destruct (contains $"SLN-L-SP" data_set_id && contains $"ANCILLARY_AND_SUPPLEMENT_DATA" p); [reflexivity|].
    unfold any_in at 1 6. cbn [existsb]. rewrite !orb_false_r.
    destruct (contains $"TEXT" p); [reflexivity|]. destruct (contains $"PDF" p); [reflexivity|]. destruct (contains $"MAP_PROJECTION_CATALOG" p); [reflexivity|].
    destruct (contains $"FILENAME" p); [reflexivity|]. cbn [orb]. destruct (contains $"DESC" p); [reflexivity|]. destruct (contains $"ARRAY" p); [reflexivity|].
    rewrite negb_orb, <- !andb_assoc. destruct (any_in table_words p && _); [reflexivity|]. destruct (contains $"HEADER" p); [reflexivity|].
    destruct (any_in [$"IMAGE"; $"QUB"; $"XDR_DOCUMENT"] p); [reflexivity|]. destruct (contains $"FILE_NAME" p); [|reflexivity].
    unfold file_extension_to_loader. now rewrite !(no_extension p _ N). }
  assert (R : first_rule (rules special data_set_id fn p) (pointer_to_loader special data_set_id fn p)).
  { rewrite E. clear E N. unfold rules.
    apply rule_if. { apply and_iff_b; [apply mentions_iff|]. apply and_iff_b; apply not_iff_b, mentions_iff. }
    apply rule_if; [apply mentions_iff|]. apply rule_if; [apply mentions_iff|]. apply rule_if; [reflexivity|].
    apply rule_if; [apply str_eqb_eq|]. apply rule_if; [rewrite ext_iff; apply fits_ext|]. apply rule_if; [apply ext_iff|].
    apply rule_if; [apply and_iff_b; apply mentions_iff|]. apply rule_if; [apply and_iff_b; apply mentions_iff|].
    apply rule_if; [apply any_in_iff|]. apply rule_if; [apply mentions_iff|].
    apply rule_if.
    { apply and_iff_b; [apply any_in_iff|]. apply and_iff_b; [|apply not_iff_b, mentions_iff]. apply not_iff_b. rewrite orb_true_iff, !any_in_iff.
      unfold mentions_any. split.
      - intros [(w & I & M)|(w & I & M)]; apply in_map_iff in I; destruct I as (v & <- & I); exists v; (split; [exact I|]); [now left|now right].
      - intros (w & I & [M|M]); [left|right]; (eexists; split; [apply in_map_iff; exists w; split; [reflexivity|exact I]|exact M]). }
    apply rule_if; [apply mentions_iff|]. apply rule_if; [apply any_in_iff|]. apply rule_applies. exact I. }
  split; [intros <-; exact R|]. intros R'. now apply (first_rule_unique _ _ _ R).
Qed.
Print Assumptions C33_choice.
Example C33_choice_meets :
  pointer_to_loader (fun _ => false) $"X" $"A.IMG" $"IMAGE_TIME_TABLE" = KTable /\
  pointer_to_loader (fun _ => false) $"X" $"A.IMG" $"IMAGE" = KImage /\
  pointer_to_loader (fun _ => false) $"X" $"A.FIT.GZ" $"IMAGE" = KFits /\
  pointer_to_loader (fun _ => false) $"X" $"A.DAT" $"TABLE_HEADER" = KHeader /\
  pointer_to_loader (fun _ => false) $"X" $"A.DAT" $"CATALOG" = KTBD.
Proof. repeat split; vm_compute; reflexivity. Qed.


(** numbering a repeated object does not change its loader *)
Definition ends_in_letter (w : str) : Prop := exists x c, w = x ++ [c] /\ c <> "_"%char /\ ~ digit c.
Lemma contains_numbered w p ds : ends_in_letter w -> Forall digit ds -> contains w (numbered p ds) = contains w p.
Proof.
  intros (x & c & -> & N1 & N2) D. apply eq_true_iff_eq. rewrite !mentions_iff. unfold mentions, numbered.
  assert (NI : ~ In c ("_"%char :: ds)). { intros [H|H]; [now apply N1|]. rewrite Forall_forall in D. now apply N2, D. }
  split.
  - intros (a & b & E). destruct (app_eq_app (a ++ x) (c :: b) p ("_"%char :: ds)) as (l & [[E1 E2]|[E1 E2]]).
    { rewrite E, <- !app_assoc. reflexivity. }
    + exfalso. apply NI. rewrite E2. apply in_or_app. right. now left.
    + destruct l as [|y l].
      * exfalso. apply NI. cbn in E2. rewrite <- E2. now left.
      * injection E2 as <- E2. exists a, l. now rewrite E1, <- !app_assoc.
  - intros (a & b & ->). exists a, (b ++ "_"%char :: ds). now rewrite <- !app_assoc.
Qed.
Ltac letter := match goal with |- ends_in_letter ?w =>
  exists (removelast w), (last w "_"%char); split; [vm_compute; reflexivity|split; [vm_compute; discriminate|
    vm_compute; intros [H1 H2]; repeat (apply le_S_n in H2; try (now inversion H2))]] end.
Lemma any_numbered ws p ds : Forall ends_in_letter ws -> Forall digit ds -> any_in ws (numbered p ds) = any_in ws p.
Proof.
  intros H D. unfold any_in. induction H as [|w ws L H IH]; [reflexivity|]. cbn [existsb]. now rewrite (contains_numbered _ _ _ L D), IH.
Qed.
Lemma words_letters : Forall ends_in_letter table_words.
Proof. repeat constructor; letter. Qed.
Lemma words_letters' x : ends_in_letter x -> Forall ends_in_letter (map (fun w => w ++ x) table_words).
Proof.
  intros (y & c & -> & H). apply Forall_forall. intros w I. apply in_map_iff in I. destruct I as (v & <- & _).
  exists (v ++ y), c. split; [apply app_assoc|exact H].
Qed.
Theorem C33_numbered special data_set_id fn p ds : ~ In DOT p -> p <> $"LABEL" -> Forall digit ds ->
  special (numbered p ds) = special p ->
  pointer_to_loader special data_set_id fn (numbered p ds) = pointer_to_loader special data_set_id fn p.
Proof.
  intros ND NL D HS. unfold pointer_to_loader, is_trivial, special_pointer_dispatch. rewrite HS.
  rewrite !(contains_numbered _ p ds) by (first [exact D|letter]).
  rewrite (any_numbered table_words p ds words_letters D).
  rewrite (any_numbered (map (fun w => w ++ $"_HEADER") table_words) p ds) by (first [exact D|apply words_letters'; letter]).
  rewrite (any_numbered (map (fun w => w ++ $"_NAME") table_words) p ds) by (first [exact D|apply words_letters'; letter]).
  rewrite (any_numbered [$"TEXT"; $"PDF"; $"MAP_PROJECTION_CATALOG"; $"FILENAME"] p ds) by (first [exact D|repeat constructor; letter]).
  rewrite (any_numbered [$"IMAGE"; $"QUB"; $"XDR_DOCUMENT"] p ds) by (first [exact D|repeat constructor; letter]).
  assert (E1 : str_eqb p $"LABEL" = false). { apply not_true_iff_false. now rewrite str_eqb_eq. }
  assert (E2 : str_eqb (numbered p ds) $"LABEL" = false).
  { apply not_true_iff_false. rewrite str_eqb_eq. unfold numbered. intros E. assert (In "_"%char $"LABEL") by (rewrite <- E; apply in_or_app; right; now left).
    cbn in H. repeat destruct H as [H|H]; discriminate H || exact H. }
  rewrite E1, E2.
  assert (E3 : file_extension_to_loader (numbered p ds) = file_extension_to_loader p).
  { unfold file_extension_to_loader. rewrite !(no_extension p _ ND). rewrite !no_extension; [reflexivity| | | | |];
    unfold numbered; intros H; apply in_app_or in H; (destruct H as [H|[H|H]]; [now apply ND|discriminate H|
      rewrite Forall_forall in D; specialize (D _ H); unfold digit in D; vm_compute in D; destruct D as [D _]; repeat (apply le_S_n in D; try (now inversion D))]). }
  now rewrite E3.
Qed.
Print Assumptions C33_numbered.
Example C33_numbered_meets : numbered $"TABLE" (str_of_nat 12) = $"TABLE_12" /\ Forall digit (str_of_nat 12) /\
  pointer_to_loader (fun _ => false) [] $"A.DAT" (numbered $"TABLE" (str_of_nat 12)) = KTable.
Proof. split; [vm_compute; reflexivity|]. split; [|vm_compute; reflexivity]. vm_compute. repeat constructor. Qed.

(** what load_all leaves alone *)
Lemma is_digit_iff c : is_digit c = true <-> digit c.
Proof. destruct c as [[] [] [] [] [] [] [] []]; vm_compute; (split; [intros E; first [discriminate E|split; repeat constructor]|intros [A B]; try reflexivity; exfalso; repeat (first [apply le_S_n in A|apply le_S_n in B]); now (inversion A || inversion B)]). Qed.
Lemma without_number_numbered t ds : Forall digit ds -> without_number (t ++ "_"%char :: ds) = t.
Proof.
  intros D. unfold without_number. rewrite rev_app_distr. cbn [rev]. rewrite <- app_assoc.
  assert (E : lstrip_by is_digit (rev ds ++ ["_"%char] ++ rev t) = "_"%char :: rev t).
  { assert (D' : Forall (fun c => is_digit c = true) (rev ds)).
    { apply Forall_rev. eapply Forall_impl; [|exact D]. intros c H. now apply is_digit_iff. }
    induction D' as [|c l H D' IH]; [vm_compute; reflexivity|]. cbn [lstrip_by app]. now rewrite H. }
  rewrite E. apply rev_involutive.
Qed.
Lemma without_number_spec s : without_number s = s \/ exists ds, Forall digit ds /\ s = without_number s ++ "_"%char :: ds.
Proof.
  unfold without_number. destruct (lstrip_by_spec is_digit (rev s)) as (w & E & F & _).
  destruct (lstrip_by is_digit (rev s)) as [|c r]; [now left|]. destruct (Ascii.eqb_spec c "_"%char) as [->|Ne].
  - right. exists (rev w). split.
    + apply Forall_rev. eapply Forall_impl; [|exact F]. intros x H. now apply is_digit_iff.
    + rewrite <- (rev_involutive s), E, rev_app_distr. cbn [rev]. now rewrite <- app_assoc.
  - left. destruct c as [[] [] [] [] [] [] [] []]; try reflexivity. now destruct Ne.
Qed.
Theorem C33_ignored name : ignored_by_default name = true <-> ignorable name.
Proof.
  unfold ignored_by_default, ignorable. rewrite !orb_true_iff, startswith_iff, !endswith_iff. split.
  - intros [[[H|H]|H]|(t & H)]; auto. destruct (without_number_spec name) as [E|(ds & D & E)].
    + right. right. left. exists t. now rewrite <- E.
    + right. right. right. exists t, ds. split; [exact D|]. rewrite E, H. now rewrite <- app_assoc.
  - intros [H|[H|[H|(t & ds & D & ->)]]]; auto. right. exists t.
    rewrite app_assoc, without_number_numbered by exact D. reflexivity.
Qed.
Print Assumptions C33_ignored.
Example C33_ignored_meets : ignorable $"FILE_DESCRIPTION_3" /\ ~ ignorable $"DESCRIPTION_TABLE" /\ ~ ignorable $"TABLE_DESC_3".
Proof. rewrite <- !C33_ignored. split; [|split]; vm_compute; [reflexivity|discriminate|discriminate]. Qed.

(** the objects of FILE_NAME pointers are never loaded by what their file is:
    dispatch.py:124-125 gives the pointer where the file's name was meant *)
Theorem C33_file_name_refuted :
  ~ (forall special data_set_id fn p, mentions $"FILE_NAME" p -> special p = false -> ~ In DOT p ->
       has_extension [$".img"] fn -> pointer_to_loader special data_set_id fn p = KImage).
Proof.
  intros H. specialize (H (fun _ => false) [] $"a.img" $"FILE_NAME").
  assert (E : pointer_to_loader (fun _ => false) [] $"a.img" $"FILE_NAME" = KTBD) by (vm_compute; reflexivity). rewrite E in H.
  discriminate H.
  - now exists [], [].
  - reflexivity.
  - cbn. intros D. repeat destruct D as [D|D]; discriminate D || exact D.
  - exists $".img". split; [now left|]. vm_compute. now left.
Qed.
Print Assumptions C33_file_name_refuted.
