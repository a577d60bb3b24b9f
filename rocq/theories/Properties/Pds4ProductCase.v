(** C84: a product that meets the hypotheses of its theorems. *)
From Coq Require Import ZArith Lia QArith.
From Verif.Base Require Import Py Val PyFacts Numpy.
From Verif.Model Require Import Types Scaling Pds4Types Pds4Values Xml.
From Verif.Spec Require Import Scaling Pds4Types Pds4Values Xml.
From Verif.Proofs Require Import Xml.
From Verif.Properties Require Import Xml Pds4Fields.
From Verif.Properties Require Pds4Names Pds4FrameFiles Objects.
From Verif.Proofs Require Pds4Fields Pds4Names.
From Verif.Model Require Import Pds4Tables Pds4Frame Pds4Product.
From Verif.Spec Require Import Pds4Tables Pds4Frame Objects Pds4Product.
From Verif.Proofs Require Import Pds4Product.
From Verif.Properties Require Import Pds4Product.
Open Scope nat_scope.
Local Notation parts e := (Spec.Xml.children e).
Local Notation object_names := Pds4Names.object_names.

(** ** Checks of the specification by computation *)
Definition calledb (e : xml) (n : str) : bool := str_eqb (tag_of e) n || str_eqb (tag_of e) ($"{" ++ PDS ++ $"}" ++ n).
Lemma calledb_iff n e : calledb e n = true <-> called e n.
Proof. unfold calledb, called. now rewrite Bool.orb_true_iff, !str_eqb_eq. Qed.
Lemma not_calledb n e : calledb e n = false -> ~ called e n.
Proof. intros H C. apply calledb_iff in C. congruence. Qed.
Definition childrenb (e : xml) (n : str) : list xml := filter (fun c => calledb c n) (parts e).
Lemma filter_empty {A} (f : A -> bool) l : filter f l = [] -> Forall (fun x => f x = false) l.
Proof. induction l as [|x l IH]; [constructor|]. cbn [filter]. destruct (f x) eqn:E; [discriminate|]. constructor; auto. Qed.
Lemma lacks_by e n : childrenb e n = [] -> lacks e n.
Proof. intros H. apply filter_empty in H. eapply Forall_impl; [|exact H]. intros x. apply not_calledb. Qed.
Lemma only_by e n c : childrenb e n = [c] -> only e n c.
Proof.
  unfold childrenb, only. induction (parts e) as [|x l IH]; [discriminate|]. cbn [filter]. destruct (calledb x n) eqn:E.
  - intros [= -> H]. exists [], l. split; [reflexivity|]. split; [now apply calledb_iff|]. apply filter_empty in H. eapply Forall_impl; [|exact H]. intros y. apply not_calledb.
  - intros H. destruct (IH H) as (b & a & -> & C & F). exists (x :: b), a. split; [reflexivity|]. split; [exact C|]. constructor; [now apply not_calledb|exact F].
Qed.
Definition giveb (e : xml) (n : str) : option str :=
  match childrenb e n with
  | [c] => match parts c, label_text false (text_of c) with [], Some s => if is_blank s then None else Some s | _, _ => None end
  | _ => None
  end.
Lemma gives_by e n s : giveb e n = Some s -> gives e n s.
Proof.
  unfold giveb. destruct (childrenb e n) as [|c [|]] eqn:E; try discriminate. destruct (parts c) eqn:P; [|discriminate]. intros H. exists c. split; [now apply only_by|]. split; [exact P|].
  pose proof (text_ok false (text_of c)) as T. cbn [negb] in T. destruct (label_text false (text_of c)) as [u|]; [|discriminate]. destruct (is_blank u); [discriminate|]. now rewrite <- H.
Qed.
Definition numberb (e : xml) (n : str) : option Z := match giveb e n with Some s => match int_bytes 10 s with Ok z => Some z | Err _ => None end | None => None end.
Lemma number_by e n z : numberb e n = Some z -> gives_number e n z.
Proof.
  unfold numberb. destruct (giveb e n) as [s|] eqn:E; [|discriminate]. destruct (int_bytes 10 s) as [y|] eqn:I; [|discriminate]. intros [= ->]. exists s. split; [now apply gives_by|now apply decimal_bytes].
Qed.
Lemma child_by e n : childrenb e n <> [] -> has_child e n.
Proof.
  unfold childrenb. intros H. destruct (filter (fun c => calledb c n) (parts e)) as [|c l] eqn:E; [contradiction|]. exists c.
  assert (I : In c (filter (fun c => calledb c n) (parts e))) by (rewrite E; now left). apply filter_In in I as [I1 I2]. split; [exact I1|now apply calledb_iff].
Qed.
Lemma worded_by s : (exists x, int_bytes 10 s = Err x) -> (exists x, float_bytes s = Err x) -> worded s.
Proof.
  intros [x A] [y B]. split; [intros z Z; apply decimal_bytes in Z; congruence|]. intros v V. apply Proofs.Pds4Fields.real_total in V as [v' V]. congruence.
Qed.
Lemma made_by names e : forallb (fun c => existsb (calledb c) names) (parts e) = true -> made_of names e.
Proof.
  intros H. apply Forall_forall. intros c I. rewrite forallb_forall in H. specialize (H c I). apply existsb_exists in H as (n & In_ & C). exists n. split; [exact In_|now apply calledb_iff].
Qed.
(** names: plain, of PDS, or of the namespace of displays *)
Definition plainb (n : str) : bool := negb (has_char "{" n) && negb (has_char "}" n) && negb (has_char "/" n).
Definition nameb (t : str) : bool :=
  plainb t || (startswith ($"{" ++ PDS ++ $"}") t && plainb (skipn (length ($"{" ++ PDS ++ $"}")) t)) || (startswith ($"{" ++ DISP ++ $"}") t && plainb (skipn (length ($"{" ++ DISP ++ $"}")) t)).
Fixpoint namesb (e : xml) : bool := match e with Elem t _ _ _ cs => nameb t && forallb namesb cs end.
Lemma starts_skip p t : startswith p t = true -> t = p ++ skipn (length p) t.
Proof. intros H. apply startswith_iff in H as [s ->]. now rewrite skipn_app, skipn_all, Nat.sub_diag. Qed.
Lemma name_by e : nameb (tag_of e) = true -> has_name e.
Proof.
  unfold nameb. rewrite !Bool.orb_true_iff, !Bool.andb_true_iff. intros [[H|[H1 H2]]|[H1 H2]].
  - exists (tag_of e). split; [now apply name_dec|]. left. now left.
  - eexists. split; [apply name_dec; exact H2|]. left. right. apply starts_skip in H1. rewrite <- !app_assoc in H1. exact H1.
  - eexists. split; [apply name_dec; exact H2|]. right. exists DISP. apply starts_skip in H1. rewrite <- !app_assoc in H1. split; [exact H1|]. split; [cbn; intuition discriminate|]. split; [cbn; intuition discriminate|].
    intros a b E. assert (C : contains PDS DISP = true) by (apply contains_iff; now exists a, b). vm_compute in C. discriminate C.
Qed.
Lemma well_named_by e : namesb e = true -> well_named e.
Proof.
  intros H x I. induction I as [e|x c e Ic _ IH].
  - apply name_by. destruct e. cbn [namesb] in H. now apply Bool.andb_true_iff in H.
  - apply IH. destruct e as [t a y z cs]. cbn [namesb Spec.Xml.children] in *. apply Bool.andb_true_iff in H as [_ H]. rewrite forallb_forall in H. now apply H.
Qed.
Definition structureb (c : xml) : bool := contains $"Header" (tag_of c) || contains $"Array" (tag_of c) || existsb (calledb c) TABLES.
Lemma structure_iff c : structureb c = true <-> exists k, kind_is c k.
Proof.
  unfold structureb. rewrite !Bool.orb_true_iff, !contains_occurs, existsb_exists. split.
  - intros [[H|H]|(n & I & C)].
    + exists $"HEADER". now left.
    + destruct (contains $"Header" (tag_of c)) eqn:E; [exists $"HEADER"; left; split; [reflexivity|now apply contains_occurs]|].
      exists $"ARRAY". right. left. split; [reflexivity|]. split; [|exact H]. intros O. apply contains_occurs in O. congruence.
    + exists $"TABLE". right. right. split; [reflexivity|]. exists n. split; [exact I|now apply calledb_iff].
  - intros (k & [(_ & H)|[(_ & _ & H)|(_ & n & I & C)]]); [left; now left|left; now right|right]. exists n. split; [exact I|now apply calledb_iff].
Qed.
Lemma record_iff c : contains $"Record_" (tag_of c) = true <-> occurs $"Record_" (tag_of c).
Proof. apply contains_occurs. Qed.

(** ** A product: a header, an image and a table of bytes in one file, a delimited table
    in another *)
Definition el (n : str) (cs : list xml) : xml := Elem ($"{" ++ PDS ++ $"}" ++ n) [] (Some [NL]) (Some [NL]) cs.
Definition tx (n s : str) : xml := Elem ($"{" ++ PDS ++ $"}" ++ n) [] (Some s) (Some [NL]) [].
Definition un (n s : str) : xml := Elem ($"{" ++ PDS ++ $"}" ++ n) [($"unit", $"byte")] (Some s) (Some [NL]) [].
Definition c84_axis (n k i : str) : xml := el $"Axis_Array" [tx $"axis_name" n; tx $"elements" k; tx $"sequence_number" i].
Definition c84_header : xml := el $"Header" [un $"offset" $"0"; un $"object_length" $"4"; tx $"parsing_standard_id" $"PDS3"].
Definition c84_image : xml :=
  el $"Array_2D_Image" [tx $"local_identifier" $" the   image "; un $"offset" $"4"; tx $"axes" $"2"; tx $"axis_index_order" $"Last Index Fastest";
    el $"Element_Array" [tx $"data_type" $"UnsignedMSB2"]; c84_axis $"Sample" $"3" $"2"; c84_axis $"Line" $"2" $"1"].
Definition c84_time : xml := el $"Field_Binary" [tx $"name" $"time"; tx $"field_number" $"1"; un $"field_location" $"1"; tx $"data_type" $"ASCII_Integer"; un $"field_length" $"4"].
Definition c84_level : xml := el $"Field_Binary" [tx $"name" $"level"; un $"field_location" $"1"; tx $"data_type" $"UnsignedMSB2"; un $"field_length" $"2"; tx $"description" $"12"].
Definition c84_sensor : xml := el $"Group_Field_Binary" [tx $"name" $"sensor"; tx $"repetitions" $"3"; tx $"fields" $"1"; tx $"groups" $"0"; un $"group_location" $"5"; un $"group_length" $"6"; c84_level].
Definition c84_record : xml := el $"Record_Binary" [tx $"fields" $"1"; tx $"groups" $"1"; un $"record_length" $"10"; c84_time; c84_sensor].
Definition c84_binary : xml := el $"Table_Binary" [tx $"name" $"my table"; un $"offset" $"16"; tx $"records" $"2"; c84_record].
Definition c84_x : xml := el $"Field_Delimited" [tx $"name" $"x"; tx $"data_type" $"ASCII_Integer"].
Definition c84_y : xml := el $"Field_Delimited" [tx $"name" $"y"; tx $"data_type" $"ASCII_Real"; un $"maximum_field_length" $"8"].
Definition c84_drecord : xml := el $"Record_Delimited" [tx $"fields" $"2"; tx $"groups" $"0"; c84_x; c84_y].
Definition c84_delimited : xml :=
  el $"Table_Delimited" [un $"offset" $"2"; tx $"records" $"2"; tx $"record_delimiter" $"Line-Feed"; tx $"field_delimiter" $"Comma"; c84_drecord].
Definition c84_label : xml :=
  el $"Product_Observational" [
    el $"Identification_Area" [tx $"title" $"A product"];
    el $"Discipline_Area" [Elem ($"{" ++ DISP ++ $"}Display_Settings") [] None None []];
    el $"File_Area_Observational_Supplemental" [el $"File" [tx $"file_name" $"b.csv"]; c84_delimited];
    el $"File_Area_Observational" [el $"File" [tx $"comment" $"none"; tx $"file_name" $"a.dat"]; c84_header; c84_image; c84_binary]].
Definition c84_list : list (str * xml) := [($"a.dat", c84_header); ($"a.dat", c84_image); ($"a.dat", c84_binary); ($"b.csv", c84_delimited)].
Definition c84_structures : list structure := [mkS $"HEADER" None None; mkS $"ARRAY" (Some $"the image") None; mkS $"TABLE" None (Some $"my table"); mkS $"TABLE" None None].
Ltac lk := apply lacks_by; vm_compute; reflexivity.
Ltac gv := apply gives_by; vm_compute; reflexivity.
Ltac nb := apply number_by; vm_compute; reflexivity.
Ltac ch := apply child_by; vm_compute; discriminate.
Ltac on := apply only_by; vm_compute; reflexivity.
Lemma not_occurs p s : contains p s = false -> ~ occurs p s.
Proof. intros E O. apply contains_occurs in O. congruence. Qed.
Lemma c84_kinds : kind_is c84_header $"HEADER" /\ kind_is c84_image $"ARRAY" /\ kind_is c84_binary $"TABLE" /\ kind_is c84_delimited $"TABLE".
Proof.
  split; [left; split; [reflexivity|apply contains_occurs; vm_compute; reflexivity]|].
  split; [right; left; split; [reflexivity|]; split; [apply not_occurs; vm_compute; reflexivity|apply contains_occurs; vm_compute; reflexivity]|].
  split; right; right; (split; [reflexivity|]); [exists $"Table_Binary"|exists $"Table_Delimited"]; (split; [cbn; auto|]); apply calledb_iff; vm_compute; reflexivity.
Qed.
Lemma c84_records : record_of c84_binary $"Binary" c84_record /\ record_of c84_delimited $"Delimited" c84_drecord.
Proof.
  split; (split; [apply (Objects.by_filter _ _ _ _ record_iff); vm_compute; reflexivity|]); (split; [apply calledb_iff; vm_compute; reflexivity|cbn; auto]).
Qed.
Lemma c84_axes : picked (fun c => called c $"Axis_Array") (parts c84_image) [c84_axis $"Sample" $"3" $"2"; c84_axis $"Line" $"2" $"1"].
Proof. apply (Objects.by_filter _ _ _ _ (calledb_iff $"Axis_Array")). vm_compute. reflexivity. Qed.
Lemma kind_other e a b : well_named e -> kind_is e a -> kind_is e b -> a = b.
Proof. intros W A B. apply kind_iff in A as (x & A1 & A2); [|now apply wn_name]. apply kind_iff in B as (y & B1 & B2); [|now apply wn_name]. congruence. Qed.
Lemma c84_named : well_named c84_header /\ well_named c84_image /\ well_named c84_binary /\ well_named c84_delimited.
Proof. repeat split; apply well_named_by; vm_compute; reflexivity. Qed.
Ltac notkind W K := intros X; pose proof (kind_other _ _ _ W K X) as E; vm_compute in E; discriminate E.
Lemma c84_sufficient : Forall (fun x => sufficient (snd x)) c84_list.
Proof.
  destruct c84_kinds as (K1 & K2 & K3 & K4). destruct c84_named as (W1 & W2 & W3 & W4). destruct c84_records as (R1 & R2). unfold c84_list.
  apply Forall_cons; [|apply Forall_cons; [|apply Forall_cons; [|apply Forall_cons; [|constructor]]]]; cbn [snd]; unfold sufficient.
  - split; [intros _; repeat split; ch|]. split; [notkind W1 K1|notkind W1 K1].
  - split; [notkind W2 K2|]. split; [|notkind W2 K2]. intros _. split; [ch|]. split; [ch|]. split.
    + eexists. split; [exact c84_axes|]. split; [discriminate|]. apply Forall_cons; [|apply Forall_cons; [|constructor]]; (split; [ch|]); (split; [ch|]); eexists; nb.
    + exists (el $"Element_Array" [tx $"data_type" $"UnsignedMSB2"]). split; [on|ch].
  - split; [notkind W3 K3|]. split; [notkind W3 K3|]. intros _. split; [ch|]. split; [ch|]. exists $"Binary", c84_record. split; [exact R1|]. split; [ch|]. split; [ch|]. split; [intros X; vm_compute in X; discriminate X|intros _; ch].
  - split; [notkind W4 K4|]. split; [notkind W4 K4|]. intros _. split; [ch|]. split; [ch|]. exists $"Delimited", c84_drecord. split; [exact R2|]. split; [ch|]. split; [ch|]. split; [intros _; split; ch|intros X; now destruct X].
Qed.
Lemma c84_product : product_label c84_label c84_list c84_structures.
Proof.
  destruct c84_kinds as (K1 & K2 & K3 & K4). split; [apply well_named_by; vm_compute; reflexivity|]. split; [apply contains_occurs; vm_compute; reflexivity|]. split; [|split; [exact c84_sufficient|]].
  - exists [[el $"File_Area_Observational" [el $"File" [tx $"comment" $"none"; tx $"file_name" $"a.dat"]; c84_header; c84_image; c84_binary]];
            [el $"File_Area_Observational_Supplemental" [el $"File" [tx $"file_name" $"b.csv"]; c84_delimited]]; []; []; []],
           [[($"a.dat", c84_header); ($"a.dat", c84_image); ($"a.dat", c84_binary)]; [($"b.csv", c84_delimited)]].
    split; [|split; [|reflexivity]].
    + unfold FILE_AREAS. repeat (apply Forall2_cons; [apply (Objects.by_filter _ _ _ _ (calledb_iff _)); vm_compute; reflexivity|]). constructor.
    + cbn [concat app]. apply Forall2_cons; [|apply Forall2_cons; [|constructor]].
      * exists $"a.dat", [c84_header; c84_image; c84_binary]. split; [|split; [apply (Objects.by_filter _ _ _ _ structure_iff); vm_compute; reflexivity|reflexivity]].
        eexists. eexists. split; [reflexivity|]. split; [apply calledb_iff; vm_compute; reflexivity|]. split; [repeat constructor|gv].
      * exists $"b.csv", [c84_delimited]. split; [|split; [apply (Objects.by_filter _ _ _ _ structure_iff); vm_compute; reflexivity|reflexivity]].
        eexists. eexists. split; [reflexivity|]. split; [apply calledb_iff; vm_compute; reflexivity|]. split; [repeat constructor|gv].
  - unfold c84_list, c84_structures. apply Forall2_cons; [|apply Forall2_cons; [|apply Forall2_cons; [|apply Forall2_cons; [|constructor]]]]; unfold entitled; cbn [snd s_kind s_local s_name may_give].
    + split; [exact K1|]. split; lk.
    + split; [exact K2|]. split; [gv|lk].
    + split; [exact K3|]. split; [lk|gv].
    + split; [exact K4|]. split; lk.
Qed.
Definition c84_a : str :=
  $"HEAD" ++ map ascii_of_nat [0; 1; 0; 2; 0; 3; 1; 0; 1; 1; 255; 255] ++
  $"  12" ++ map ascii_of_nat [0; 1; 0; 2; 1; 0] ++ $" -7 " ++ map ascii_of_nat [0; 0; 255; 255; 0; 9].
Definition c84_recs : list (list coltext) := [[Plain $"1"; Plain $".5"]; [Plain $"-3"; Quoted $"1e1"]].
Definition c84_b : str := $"--" ++ table_text ","%char [NL] c84_recs [] ++ $"tail".
Definition c84_contents (path : str) : option str := if str_eqb path $"/data/a.dat" then Some c84_a else if str_eqb path $"/data/b.csv" then Some c84_b else None.
Lemma c84_names : object_names c84_structures = [$"HEADER_0"; $"the_image"; $"my_table"; $"TABLE_1"].
Proof. vm_compute. reflexivity. Qed.
Lemma not_fits_by path : existsb (fun e => endswith e (lower path)) [$".fits"; $".fit"; $".fits.gz"; $".fit.gz"; $".fz"] = false -> ~ fits_name path.
Proof.
  intros H (a & e & E & I). assert (X : existsb (fun e => endswith e (lower path)) [$".fits"; $".fit"; $".fits.gz"; $".fit.gz"; $".fz"] = true); [|congruence].
  apply existsb_exists. exists e. split; [exact I|]. apply endswith_iff. now exists a.
Qed.
Lemma c84_object i name f e path file : nth_error (object_names c84_structures) i = Some name -> nth_error c84_list i = Some (f, e) -> relative f -> path = $"/data/" ++ f ->
  existsb (fun e => endswith e (lower path)) [$".fits"; $".fit"; $".fits.gz"; $".fit.gz"; $".fz"] = false -> c84_contents path = Some file -> product_object $"/data" c84_label c84_contents name e file.
Proof.
  intros A B R -> N C. exists c84_list, c84_structures, i, f, ($"/data/" ++ f). split; [exact c84_product|]. split.
  { rewrite c84_names. repeat constructor; cbn; intuition discriminate. }
  split; [exact A|]. split; [exact B|]. split; [exact R|]. split; [|split; [now apply not_fits_by|exact C]].
  change ($"/data/" ++ f) with ($"/data" ++ $"/" ++ f). apply next_in; [discriminate|]. intros d E. apply (f_equal (@rev _)) in E. rewrite rev_app_distr in E. discriminate E.
Qed.
(** The index of the product. *)
Example C84_index_meets : exists p, open_pds4 $"/data" c84_label = Ok p /\ p4_index p = [$"HEADER_0"; $"the_image"; $"my_table"; $"TABLE_1"; $"label"].
Proof. destruct (C84_index $"/data" c84_label c84_list c84_structures c84_product) as (p & E & I). exists p. split; [exact E|]. rewrite I, c84_names. reflexivity. Qed.
(** The image: its axes stand in the wrong order in the label. *)
Example C84_array_meets : product_object $"/data" c84_label c84_contents $"the_image" c84_image c84_a /\
  describes_array c84_image 4 [(2%Z, 3); (1%Z, 2)] $"UnsignedMSB2" /\ pds4_type $"UnsignedMSB2" MSB (Integer false) 2 /\ axes_shape [(2%Z, 3); (1%Z, 2)] [2; 3] /\
  4 + prod [2; 3] * 2 <= length c84_a /\
  exists p a, open_pds4 $"/data" c84_label = Ok p /\ load_pds4 true (fun _ _ => 0%Z) c84_contents p $"the_image" = Ok (OArray4 a) /\ shape a = [2; 3] /\
    map (at_ a) [[0; 0]; [0; 2]; [1; 0]; [1; 1]; [1; 2]] = map (fun z => PElt (EI z)) [1; 3; 256; 257; 65535]%Z.
Proof.
  split; [apply (c84_object 1 _ $"a.dat" _ $"/data/a.dat"); [vm_compute; reflexivity|reflexivity|discriminate|reflexivity|vm_compute; reflexivity|vm_compute; reflexivity]|].
  split.
  { split; [apply c84_kinds|]. split; [apply (number_by _ _ 4%Z); vm_compute; reflexivity|]. split; [|split; [|lk]].
    - eexists. split; [exact c84_axes|]. apply Forall2_cons; [|apply Forall2_cons; [|constructor]]; split; cbn [fst snd]; nb.
    - exists (el $"Element_Array" [tx $"data_type" $"UnsignedMSB2"]). split; [on|gv]. }
  split; [apply (t_int false MSB 2); cbn; auto|]. split; [split; [reflexivity|]; intros i Hi; cbn in Hi; destruct i as [|[|i]]; cbn; auto; lia|]. split; [vm_compute; lia|].
  eexists. eexists. split; [vm_compute; reflexivity|]. split; [vm_compute; reflexivity|]. split; vm_compute; reflexivity.
Qed.
Lemma wd s : (match int_bytes 10 s, float_bytes s with Err _, Err _ => true | _, _ => false end) = true -> worded s.
Proof. intros H. destruct (int_bytes 10 s) eqn:A; [discriminate|]. destruct (float_bytes s) eqn:B; [discriminate|]. apply worded_by; eauto. Qed.
Ltac cb := apply calledb_iff; vm_compute; reflexivity.
Ltac ncb := apply not_calledb; vm_compute; reflexivity.
Ltac fld := split; [cb|]; split; [apply made_by; vm_compute; reflexivity|]; split; [gv|]; split; [gv|]; split; [apply wd; vm_compute; reflexivity|]; unfold placed; cbn [str_eqb type_of].
Ltac other := apply lf_other; [ncb|ncb|].
(** The table of bytes. *)
Example C84_fixed_meets : product_object $"/data" c84_label c84_contents $"my_table" c84_binary c84_a /\
  describes_fixed Binary c84_binary 2 16 10 Pds4FrameFiles.readings [$"ASCII_Integer"; $"UnsignedMSB2"] /\
  showable Pds4FrameFiles.readings /\ even_groups (label_fields Pds4FrameFiles.readings) /\ fits_record 10 (label_fields Pds4FrameFiles.readings) /\
  Forall2 (fun type t => meant Binary type t) [$"ASCII_Integer"; $"UnsignedMSB2"] [MInt true; MBytes MSB (Integer false) 2] /\
  field_values (label_fields Pds4FrameFiles.readings) 10 2 16 c84_a 0 = [$"  12"; $" -7 "] /\
  exists p, open_pds4 $"/data" c84_label = Ok p /\ load_pds4 true (fun _ _ => 0%Z) c84_contents p $"my_table" =
    Ok (OTable4 [($"time", [VI 12; VI (-7)]); ($"sensor, level_0", [VP (PElt (EI 1)); VP (PElt (EI 0))]);
        ($"sensor, level_1", [VP (PElt (EI 2)); VP (PElt (EI 65535))]); ($"sensor, level_2", [VP (PElt (EI 256)); VP (PElt (EI 9))])]).
Proof.
  split; [apply (c84_object 2 _ $"a.dat" _ $"/data/a.dat"); [vm_compute; reflexivity|reflexivity|discriminate|reflexivity|vm_compute; reflexivity|vm_compute; reflexivity]|].
  split.
  { exists c84_record. split; [|apply (number_by _ _ 10%Z); vm_compute; reflexivity]. split; [left; cb|]. split; [apply c84_records|]. split; [lk|]. split; [apply (number_by _ _ 2%Z); vm_compute; reflexivity|]. split; [apply (number_by _ _ 16%Z); vm_compute; reflexivity|].
    split; [eexists; nb|]. split; [eexists; nb|]. change (parts c84_record) with [tx $"fields" $"1"; tx $"groups" $"1"; un $"record_length" $"10"; c84_time; c84_sensor]. unfold Pds4FrameFiles.readings.
    other. other. other. apply lf_field; [fld; split; nb|].
    apply (lf_group _ _ _ _ _ _ _ [$"UnsignedMSB2"] [] [] []); [| |constructor].
    - split; [cb|]. split; [apply made_by; vm_compute; reflexivity|]. split; [cbn [may_give]; gv|]. split; [apply (number_by _ _ 3%Z); vm_compute; reflexivity|]. split; [ch|]. split; [ch|]. unfold placed. cbn [str_eqb type_of]. split; nb.
    - change (parts c84_sensor) with [tx $"name" $"sensor"; tx $"repetitions" $"3"; tx $"fields" $"1"; tx $"groups" $"0"; un $"group_location" $"5"; un $"group_length" $"6"; c84_level].
      do 6 other. apply lf_field; [fld; split; nb|constructor]. }
  split; [apply Pds4FrameFiles.readings_showable|]. split; [repeat constructor; now exists 2%Z|].
  split; [intros q Hq; cbn in Hq; repeat (destruct Hq as [<-|Hq]; [cbn; lia|]); destruct Hq|].
  split; [constructor; [now constructor|constructor; [|constructor]; apply m_bytes; [reflexivity|]; apply (t_int false MSB 2); cbn; auto]|].
  split; [vm_compute; reflexivity|]. eexists. split; [vm_compute; reflexivity|]. vm_compute. reflexivity.
Qed.
Definition c84_xy : list Spec.Pds4Frame.named := [NF $"x" 0 0; NF $"y" 0 0].
(** The delimited table, whose values start after two bytes. *)
Example C84_delimited_meets : product_object $"/data" c84_label c84_contents $"TABLE_1" c84_delimited ($"--" ++ table_text ","%char [NL] c84_recs [] ++ $"tail") /\
  describes_delimited c84_delimited 2 2 ","%char [NL] None None c84_xy [$"ASCII_Integer"; $"ASCII_Real"] /\
  delimited_file (label_fields c84_xy) ","%char [NL] c84_recs None None /\ showable c84_xy /\ Forall2 (fun type t => meant Delimited type t) [$"ASCII_Integer"; $"ASCII_Real"] [MInt true; MReal] /\
  delimited_texts (label_fields c84_xy) c84_recs 1 = [$".5"; $"1e1"] /\
  exists p a b, open_pds4 $"/data" c84_label = Ok p /\ load_pds4 true (fun _ _ => 0%Z) c84_contents p $"TABLE_1" =
    Ok (OTable4 [($"x", [VI 1; VI (-3)]); ($"y", [VR (Fin a); VR (Fin b)])]) /\ (a == 1 # 2 /\ b == 10)%Q.
Proof.
  split; [apply (c84_object 3 _ $"b.csv" _ $"/data/b.csv"); [vm_compute; reflexivity|reflexivity|discriminate|reflexivity|vm_compute; reflexivity|vm_compute; reflexivity]|].
  split.
  { exists c84_drecord, $"Comma", $"Line-Feed". split; [|split; [cbn; auto|split; [gv|split; [cbn; auto|split; [gv|split; [cbn; lk|cbn; lk]]]]]].
    split; [left; cb|]. split; [apply c84_records|]. split; [lk|]. split; [apply (number_by _ _ 2%Z); vm_compute; reflexivity|]. split; [apply (number_by _ _ 2%Z); vm_compute; reflexivity|].
    split; [eexists; nb|]. split; [eexists; nb|]. change (parts c84_drecord) with [tx $"fields" $"2"; tx $"groups" $"0"; c84_x; c84_y]. unfold c84_xy.
    other. other. apply lf_field; [fld; split; reflexivity|]. apply lf_field; [fld; split; reflexivity|constructor]. }
  split.
  { split; [left; reflexivity|]. split; [now left|]. split; [discriminate|]. split; [discriminate|]. split; [discriminate|]. split; [repeat constructor|]. split.
    - intros k n _ H _. assert (Hn : n < length (owners (label_fields c84_xy))) by (apply (proj1 (nth_error_Some _ n)); congruence). change (length (owners (label_fields c84_xy))) with 2 in Hn.
      unfold safe_last, signed_last. cbv zeta. split; [|intros _]; left; lia.
    - assert (H : forall s, contains [NL] s = false -> ~ occurs_in [NL] s).
      { intros s H (a & b & ->). rewrite <- Bool.not_true_iff_false in H. apply H. apply contains_iff. now exists a, b. }
      repeat constructor; try discriminate; try (intros (x & Hx); discriminate); try (apply H; reflexivity);
        cbn; intros X; repeat (destruct X as [X|X]; [discriminate|]); destruct X. }
  split.
  { assert (E : heads c84_xy = [([$"x"], []); ([$"y"], [])]) by reflexivity. unfold showable. rewrite E. split; [discriminate|]. split; [repeat constructor; cbn; intuition discriminate|].
    apply Forall_cons; [split; [now apply Proofs.Pds4Names.quiet_easy|cbn; lia]|apply Forall_cons; [split; [now apply Proofs.Pds4Names.quiet_easy|cbn; lia]|constructor]]. }
  split; [constructor; [now constructor|constructor; [now apply m_real|constructor]]|]. split; [vm_compute; reflexivity|].
  do 3 eexists. split; [vm_compute; reflexivity|]. split; [vm_compute; reflexivity|]. split; vm_compute; reflexivity.
Qed.
