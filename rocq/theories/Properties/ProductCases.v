(** * A case of C82: a file with a label and a table, and an image in another file *)
From Verif.Base Require Import Py Val Numpy PyFacts.
From Verif.Model Require Import Files Pvl Meta Position Types Pds4Types Array Objects Dispatch Scaling Table TableValues PdsImage Product.
From Verif.Spec Require Import Types Pds4Values Pvl Meta Trim Files Dispatch Objects Position Array Table TableValues PdsImage Image Histogram Product.
From Verif.Properties Require Import Scaling Trim Files Pvl Dispatch Objects ObjectFiles Types Position Table PdsImage TableValues Product ProductObjects.
From Verif.Properties Require Bits.
From Verif.Proofs Require Files Objects.
Local Open Scope nat_scope.

Definition c82_image : list entry :=
  [Assign $"LINES" $"2"; Assign $"LINE_SAMPLES" $"2"; Assign $"SAMPLE_TYPE" $"LSB_INTEGER"; Assign $"SAMPLE_BITS" $"16"].
Definition c82_column (n s b t : str) : entry :=
  Blk $"OBJECT" $"COLUMN" [Assign $"NAME" n; Assign $"START_BYTE" s; Assign $"BYTES" b; Assign $"DATA_TYPE" t] $"END_OBJECT" [].
Definition c82_table : list entry :=
  [Assign $"ROWS" $"2"; Assign $"ROW_BYTES" $"5"; c82_column $"A" $"1" $"2" $"LSB_UNSIGNED_INTEGER"; c82_column $"T" $"3" $"3" $"CHARACTER"].
Definition c82_entries : list entry :=
  [Assign $"PDS_VERSION_ID" $"PDS3"; Assign $"RECORD_BYTES" $"100"; Assign $"^TABLE" $"21"; Assign $"^IMAGE" $"(""A.IMG"", 9 <BYTES>)";
   Assign $"^HISTOGRAM" $"""A.HIS"""; Assign $"^ARRAY" $"""A.ARR"""; Assign $"^GONE_TABLE" $"""GONE.TAB""";
   Blk $"OBJECT" $"IMAGE" c82_image $"END_OBJECT" []; Blk $"OBJECT" $"TABLE" c82_table $"END_OBJECT" [];
   Blk $"OBJECT" $"HISTOGRAM" [Assign $"ITEMS" $"3"; Assign $"DATA_TYPE" $"LSB_UNSIGNED_INTEGER"; Assign $"ITEM_BYTES" $"2"] $"END_OBJECT" [];
   Blk $"OBJECT" $"ARRAY" [Assign $"AXES" $"1"; Assign $"AXIS_ITEMS" $"3"; Assign $"INTERCHANGE_FORMAT" $"BINARY"; Assign $"DATA_TYPE" $"LSB_INTEGER"; Assign $"BYTES" $"2"] $"END_OBJECT" []].
(** the label as it is written *)
Definition c82_line (kv : str * str) : str :=
  if str_eqb (fst kv) $"END_OBJECT" then fst kv ++ [CR] else if str_eqb (fst kv) $"END" then fst kv ++ [CR] else fst kv ++ $" = " ++ snd kv ++ [CR].
Definition c82_text : str := text_of_lines (map c82_line (label_statements c82_entries ++ [($"END", [])])).
Definition c82_data : list ascii := bytes [1; 2; 65; 66; 0; 255; 255; 67; 0; 68].
Definition c82_pad : str := NL :: repeat " "%char (1999 - length c82_text).
Definition c82_pixels : list ascii := bytes [9;9;9;9;9;9;9;9; 1;0; 2;0; 255;255; 0;1].
Definition c82_label : multidict :=
  [($"PDS_VERSION_ID", PStr $"PDS3"); ($"RECORD_BYTES", PInt 100); ($"^TABLE", PInt 21);
   ($"^IMAGE", PTuple [PStr $"A.IMG"; PDict [($"value", PInt 9); ($"units", PStr $"BYTES")]]);
   ($"^HISTOGRAM", PStr $"A.HIS"); ($"^ARRAY", PStr $"A.ARR"); ($"^GONE_TABLE", PStr $"GONE.TAB");
   ($"IMAGE", PMulti [($"LINES", PInt 2); ($"LINE_SAMPLES", PInt 2); ($"SAMPLE_TYPE", PStr $"LSB_INTEGER"); ($"SAMPLE_BITS", PInt 16)]);
   ($"TABLE", PMulti [($"ROWS", PInt 2); ($"ROW_BYTES", PInt 5);
      ($"COLUMN", PMulti [($"NAME", PStr $"A"); ($"START_BYTE", PInt 1); ($"BYTES", PInt 2); ($"DATA_TYPE", PStr $"LSB_UNSIGNED_INTEGER")]);
      ($"COLUMN", PMulti [($"NAME", PStr $"T"); ($"START_BYTE", PInt 3); ($"BYTES", PInt 3); ($"DATA_TYPE", PStr $"CHARACTER")])]);
   ($"HISTOGRAM", PMulti [($"ITEMS", PInt 3); ($"DATA_TYPE", PStr $"LSB_UNSIGNED_INTEGER"); ($"ITEM_BYTES", PInt 2)]);
   ($"ARRAY", PMulti [($"AXES", PInt 1); ($"AXIS_ITEMS", PInt 3); ($"INTERCHANGE_FORMAT", PStr $"BINARY"); ($"DATA_TYPE", PStr $"LSB_INTEGER"); ($"BYTES", PInt 2)])].
(** a part of Python's literals: unsigned integers and quoted texts *)
Definition c82_literal (s : str) : res pv :=
  if forallb is_digit s && negb (str_eqb s []) then match parse_digits 10 0 s with Some n => Ok (PInt (Z.of_N n)) | None => Err ValueError end
  else match s with
       | """"%char :: t => match rev t with """"%char :: r => if has_char """"%char r then Err SyntaxError else Ok (PStr (rev r)) | _ => Err SyntaxError end
       | _ => Err ValueError
       end.
Definition c82_outside : outside := mkOutside c82_literal (fun _ t => Ok t) DepthFirst [] (fun _ => None) (fun c => c) (fun _ => NaN) (fun c => c)
  (fun _ => []) (fun _ => None) (fun _ => None) (fun _ => []) (fun f _ => Ok f) (fun _ => Err KeyError) 5.
Definition c82_files : list str := [$"A.DAT"; $"A.IMG"; $"A.HIS"; $"A.ARR"].
Definition c82_disk : disk := mkDisk (fun dir => if str_eqb dir $"/d" then Some c82_files else None)
  (fun p => if str_eqb (pname p) $"A.DAT" then c82_text ++ c82_pad ++ c82_data else if str_eqb (pname p) $"A.IMG" then c82_pixels else bytes [1; 0; 2; 1; 255; 255]) (fun p => if str_eqb (pname p) $"A.DAT" then 2010 else if str_eqb (pname p) $"A.IMG" then 16 else 6)%Z.
Definition c82_names : list str := [$"TABLE"; $"IMAGE"; $"HISTOGRAM"; $"ARRAY"; $"GONE_TABLE"].
Definition c82_max : nat := N.to_nat 60000.
Definition c82_path : path := mkPath $"/d" $"A.DAT".

(** ** The hypotheses, one by one *)
Lemma c82_sane : sane c82_outside.
Proof.
  split; [|reflexivity]. intros s e. cbn [literal_eval c82_outside]. unfold c82_literal. destruct (forallb is_digit s && _).
  - destruct (parse_digits 10 0 s); [discriminate|]. intros H. injection H as <-. auto.
  - repeat (match goal with |- context [match ?z with _ => _ end] => destruct z | |- context [if ?b then _ else _] => destruct b end; try discriminate); intros H; injection H as <-; auto.
Qed.
Definition assign_ok (kv : str * str) : bool :=
  let (k, v) := kv in
  str_eqb (strip k) k && negb (str_eqb k []) && str_eqb (strip v) v && negb (has_char "="%char k) && negb (has_char "="%char v) &&
  forallb (fun c => negb (is_lower c)) (firstn 8 (k ++ $" " ++ $"=" ++ $" " ++ v)) && negb (startswith $"END_OBJECT" k) && negb (has_char NL (k ++ $" " ++ $"=" ++ $" " ++ v ++ [CR])).
Lemma no_char c s : has_char c s = false -> ~ In c s.
Proof. intros H I. apply has_char_iff in I. congruence. Qed.
Lemma assign_line k v : assign_ok (k, v) = true -> writes (k, v) [k ++ $" = " ++ v ++ [CR]].
Proof.
  unfold assign_ok. intros H. repeat (apply andb_true_iff in H; destruct H as [H ?]).
  repeat match goal with X : negb _ = true |- _ => apply negb_true_iff in X end.
  rewrite <- (app_nil_r v) at 1. apply (W_assign [] k $" " $" " v [CR] []); try (unfold blank; repeat constructor); try (now apply no_char).
  - now apply str_eqb_eq.
  - intros ->. discriminate.
  - now apply str_eqb_eq.
  - intros i c Hi E. match goal with X : forallb _ _ = true |- _ => rewrite forallb_forall in X; apply negb_true_iff; apply X end.
    apply nth_error_In with i. rewrite Bits.nth_error_firstn' by exact Hi. exact E.
  - intros [t E]. assert (X : startswith $"END_OBJECT" k = true) by (apply startswith_iff; eauto). congruence.
Qed.
Definition c82_statements : list (str * str) := label_statements c82_entries ++ [($"END", [])].
Definition line_ok (kv : str * str) : bool :=
  if str_eqb (fst kv) $"END_OBJECT" then str_eqb (snd kv) [] else if str_eqb (fst kv) $"END" then str_eqb (snd kv) [] else assign_ok kv.
Lemma lines_written l : forallb line_ok l = true -> Forall2 writes l (map (fun kv => [c82_line kv]) l).
Proof.
  induction l as [|[k v] l IH]; cbn [forallb map]; intros H; [constructor|]. apply andb_true_iff in H as [H1 H2]. constructor; [|now apply IH].
  unfold line_ok in H1. unfold c82_line. cbn [fst snd] in *.
  destruct (str_eqb k $"END_OBJECT") eqn:E1.
  { apply str_eqb_eq in E1. apply str_eqb_eq in H1. subst. apply (W_end_object [] [CR] []); [constructor| |constructor]. apply no_char. reflexivity. }
  destruct (str_eqb k $"END") eqn:E2.
  { apply str_eqb_eq in E2. apply str_eqb_eq in H1. subst. apply (W_end [] [CR] []); [constructor|repeat constructor| |constructor]. apply no_char. reflexivity. }
  now apply assign_line.
Qed.
Lemma c82_written : written c82_entries c82_text.
Proof.
  exists [($"END", [])], (map (fun kv => [c82_line kv]) c82_statements). split; [now right|]. split; [apply lines_written; vm_compute; reflexivity|].
  split; [|apply Properties.Pvl.not_mentions; vm_compute; reflexivity]. reflexivity.
Qed.
Lemma c82_head : c82_text ++ c82_pad ++ c82_data = firstn 20 c82_text ++ concat [] ++ skipn 20 (firstn (length c82_text - 5) c82_text) ++ (END_line ++ [CR]) ++ (c82_pad ++ c82_data) ++ [].
Proof. vm_compute. reflexivity. Qed.
(** the first line that is END *)
Definition starts_marker (s : str) : bool := startswith (END_line ++ [CR]) s || startswith (END_line ++ $" ") s.
Lemma marker_starts_ m t : end_marker m -> starts_marker (m ++ t) = true.
Proof.
  unfold starts_marker. intros [k Hk|k Hk]; (destruct k as [|k]; [try lia|]).
  - reflexivity.
  - apply orb_true_iff. right. rewrite <- app_assoc. apply startswith_iff. eexists. cbn [sp repeat]. reflexivity.
  - apply orb_true_iff. right. apply startswith_iff. eexists. cbn [sp repeat]. reflexivity.
Qed.
Lemma first_cr a b : forallb (fun i => negb (starts_marker (skipn i (a ++ (END_line ++ [CR]) ++ b)))) (seq 0 (length a)) = true -> first_marker a (END_line ++ [CR]) b.
Proof.
  intros H. rewrite forallb_forall in H. split; [apply (EM_cr 0); lia|]. split.
  - intros m' b' Hm E. destruct Hm as [k Hk|k Hk]; (destruct k as [|k]; [try lia|]); cbn in E; try discriminate. cbn. lia.
  - intros a' m' b' Hm E. destruct (Nat.lt_ge_cases (length a') (length a)) as [L|L]; [|exact L]. exfalso.
    assert (X : In (length a') (seq 0 (length a))) by (apply in_seq; lia). apply H in X. rewrite E, skipn_app, skipn_all, Nat.sub_diag in X. cbn [app skipn] in X.
    rewrite marker_starts_ in X by assumption. discriminate.
Qed.
Lemma c82_label_in : label_in c82_max (c82_text ++ c82_pad ++ c82_data) c82_text.
Proof.
  assert (E : c82_text = firstn 20 c82_text ++ concat [] ++ skipn 20 (firstn (length c82_text - 5) c82_text) ++ (END_line ++ [CR])) by (vm_compute; reflexivity).
  rewrite E at 2. apply ends_here with (c82_pad ++ c82_data) [].
  - exact c82_head.
  - reflexivity.
  - constructor.
  - rewrite Nat.mul_0_r. apply Nat.ltb_lt. vm_compute. reflexivity.
  - right. split; [|reflexivity]. apply Nat.ltb_lt. vm_compute. reflexivity.
  - left. apply first_cr. vm_compute. reflexivity.
Qed.
Lemma c82_means : label_of_entries c82_literal c82_entries c82_label.
Proof.
  assert (P : forall s v, unbased s -> c82_literal s = Ok v -> same_shape (fun v v' => exists s, v = PStr s /\ value_of_text c82_literal s v') (PStr s) v).
  { intros s v U E. apply SS_leaf; [reflexivity|]. exists s. split; [reflexivity|]. apply v_plain. now apply v_literal. }
  assert (Q : forall s, unbased s -> c82_literal s = Err ValueError -> has_char "<"%char s = false -> startswith $"(" s = false -> startswith $"{" s = false ->
    same_shape (fun v v' => exists s, v = PStr s /\ value_of_text c82_literal s v') (PStr s) (PStr s)).
  { intros s U E B1 B2 B3. apply SS_leaf; [reflexivity|]. exists s. split; [reflexivity|]. apply v_plain. apply v_word; [exact U|right; exact E|left; now apply no_char|].
    intros t. split; intros ->; discriminate. }
  assert (U : forall s, has_char "#"%char (firstn 2 (skipn 1 s)) = false -> unbased s) by (intros s H; right; now apply no_char).
  unfold label_of_entries. cbn [denote denote_entry map c82_entries c82_image c82_table c82_column c82_label]. apply SS_multi.
  apply Forall2_cons; [split; [reflexivity|apply Q; try reflexivity; apply U; reflexivity]|].
  do 2 (apply Forall2_cons; [split; [reflexivity|apply P; [apply U|]; reflexivity]|]).
  apply Forall2_cons; [split; [reflexivity|]|].
  { apply SS_leaf; [reflexivity|]. eexists. split; [reflexivity|].
    apply (v_quantities c82_literal [Plain $"""A.IMG"""; Quantity 1 $"9" 1 $"BYTES" 0] [PStr $"A.IMG"; PDict [($"value", PInt 9); ($"units", PStr $"BYTES")]]).
    - constructor; [|constructor; [|constructor]].
      + split; [discriminate|]. intros c Hin. vm_compute in Hin. repeat (destruct Hin as [<-|Hin]; [repeat split; discriminate|]). contradiction.
      + split; [apply NT_plain; [discriminate|]; constructor; [left; reflexivity|constructor]|].
        intros c Hin. vm_compute in Hin. repeat (destruct Hin as [<-|Hin]; [repeat split; discriminate|]). contradiction.
    - right. left. exact I.
    - constructor; [|constructor; [|constructor]].
      + apply QM_plain. apply v_literal; [left; eexists; reflexivity|reflexivity].
      + apply QM_quantity; [apply v_literal; [apply U|]; reflexivity|]. apply v_word; [apply U; reflexivity|right; reflexivity|left; now apply no_char|]. intros t. split; discriminate.
    - right. reflexivity. }
  assert (Q' : forall s, has_char "#"%char (firstn 2 (skipn 1 s)) = false -> c82_literal s = Err ValueError -> has_char "<"%char s = false -> startswith $"(" s = false -> startswith $"{" s = false ->
    same_shape (fun v v' => exists s, v = PStr s /\ value_of_text c82_literal s v') (PStr s) (PStr s)) by auto.
  assert (P' : forall s v, has_char "#"%char (firstn 2 (skipn 1 s)) = false -> c82_literal s = Ok v -> same_shape (fun v v' => exists s, v = PStr s /\ value_of_text c82_literal s v') (PStr s) v) by auto.
  repeat (match goal with
    | |- Forall2 _ (_ :: _) (_ :: _) => apply Forall2_cons
    | |- Forall2 _ [] [] => apply Forall2_nil
    | |- _ /\ _ => split; [reflexivity|]; cbn [snd]
    | |- same_shape _ (PMulti _) (PMulti _) => apply SS_multi
    | |- same_shape _ (PStr _) (PInt _) => apply P'; reflexivity
    | |- same_shape _ (PStr _) (PStr _) => first [apply Q'; reflexivity|apply P'; reflexivity]
    end).
Qed.
Lemma c82_labelled : labelled (listing c82_disk) c82_path c82_path.
Proof.
  assert (O : forall e, In e c82_files -> ordinary e) by (intros e He; cbn [In c82_files] in He; decompose [or] He; subst; try contradiction; now apply ordinary_bool).
  apply attached with $"A" $"DAT".
  - intros (e & He & s & E). destruct He as [<-|[<-|[<-|[]]]]; apply eq_sym in E; apply (f_equal (fun l => rev l)) in E; rewrite rev_app_distr in E; discriminate.
  - intros ((m & a & b & Hm & E) & _). assert (X : contains ($"ce" ++ [m]) (lower (pstr c82_path)) = true) by (apply contains_iff; eauto).
    cbn [In] in Hm. repeat (destruct Hm as [<-|Hm]; [discriminate X|]). contradiction.
  - split; [reflexivity|]. split; [now apply no_char|]. split; discriminate.
  - apply Forall_forall. intros x Hx. unfold no_candidate. change (listing c82_disk (pdir (mkPath (pdir c82_path) ($"A" ++ x)))) with (Some c82_files). cbn [pname].
    destruct Hx as [<-|[<-|[<-|[]]]];
      (split; [cbn [In c82_files]; intros X; decompose [or] X; try contradiction; discriminate|]); intros e He S; apply (Proofs.Files.stands_for_iff _ _ (O _ He)) in S; cbn [In c82_files] in He; decompose [or] He; subst; try contradiction; vm_compute in S; discriminate.
Qed.
Lemma c82_pds3 : pds3_name c82_path.
Proof.
  assert (T : forall t u e : str, t = u ++ e -> endswith e t = true) by (intros t u e E; apply endswith_iff; eauto).
  split; [intros s; split; intros E; apply T in E; discriminate E|]. split; [intros s e He E; apply T in E; cbn [In] in He; repeat (destruct He as [<-|He]; [discriminate E|]); contradiction|].
  split; [intros s e He E; apply T in E; cbn [In] in He; repeat (destruct He as [<-|He]; [discriminate E|]); contradiction|].
  intros (e & He & I). vm_compute in I. destruct I as [<-|[]]. cbn [In] in He. repeat (destruct He as [He|He]; [discriminate He|]). contradiction.
Qed.
Lemma c82_lists : lists_objects DepthFirst c82_label c82_names.
Proof.
  exists c82_names. split; [apply Proofs.Objects.pointers_eq; vm_compute; reflexivity|].
  split; [apply (by_filter _ _ _ _ Proofs.Objects.trivial_iff); vm_compute; reflexivity|].
  intros n Hn; cbn [In c82_names] in Hn; decompose [or] Hn; subst; try contradiction; (split; [intros X; apply contains_iff in X; discriminate X|]); intros v Hv; vm_compute in Hv; try contradiction; destruct Hv as [<-|[]]; eexists; (split; [reflexivity|]);
    repeat (apply Forall_cons; [intros [X|(w & _ & _ & X)]; discriminate X|]); apply Forall_nil.
Qed.
Lemma plain_assign k v : existsb (str_eqb k) [$"OBJECT"; $"GROUP"; $"BEGIN_OBJECT"; $"BEGIN_GROUP"] = false -> startswith $"END" k = false -> wf_entry (Assign k v).
Proof.
  intros H1 H2. split.
  - intros H. assert (X : existsb (str_eqb k) [$"OBJECT"; $"GROUP"; $"BEGIN_OBJECT"; $"BEGIN_GROUP"] = true); [|congruence].
    apply existsb_exists. exists k. split; [|apply str_eqb_refl]. destruct H as [-> |[-> |[-> | -> ]]]; cbn; auto.
  - intros [t ->]. assert (X : startswith $"END" ($"END" ++ t) = true) by (apply startswith_iff; eauto). congruence.
Qed.
Lemma plain_block n body : Forall wf_entry body -> wf_entry (Blk $"OBJECT" n body $"END_OBJECT" []).
Proof.
  intros H. split; [now left|]. split; [intros X; repeat destruct X as [X|X]; discriminate X|]. split; [eexists; reflexivity|].
  induction H; [exact I|]. now split.
Qed.
Lemma occurs_in p ks : 1 <= Pvl.occurrences p ks -> In p ks.
Proof.
  unfold Pvl.occurrences. intros H. destruct (filter (str_eqb p) ks) as [|q l] eqn:E; [cbn in H; lia|].
  assert (X : In q (filter (str_eqb p) ks)) by (rewrite E; now left). apply filter_In in X as [X Y]. apply str_eqb_eq in Y. now subst.
Qed.
Lemma c82_legible : legible c82_literal DepthFirst c82_max (contents c82_disk c82_path) c82_entries c82_label c82_names.
Proof.
  split; [exists c82_text; split; [exact c82_label_in|split; [|exact c82_written]]|].
  { apply Forall_forall. intros c Hc. apply N.ltb_lt. revert c Hc. apply forallb_forall. vm_compute. reflexivity. }
  split; [unfold wf_label, c82_entries, c82_table, c82_column, c82_image; repeat (first [apply Forall_nil|apply Forall_cons|apply plain_block|apply plain_assign; reflexivity])|].
  split; [|split; [exact c82_means|split; [|exact c82_lists]]].
  - intros p (Hp & H2 & _). assert (I : In p (flat_map completed_keys c82_entries)) by (apply occurs_in; lia). vm_compute in I.
    repeat (destruct I as [<-|I]; [first [destruct Hp as [t X]; discriminate X|vm_compute in H2; lia]|]). contradiction.
  - split; intros X; vm_compute in X; contradiction.
Qed.
Lemma c82_disk_ok : ordinary_dirs (listing c82_disk) /\ on_disk (listing c82_disk) c82_path.
Proof.
  split.
  - intros d l e E I. cbn [listing c82_disk] in E. destruct (str_eqb d $"/d"); [|discriminate]. injection E as <-. cbn [In c82_files] in I; decompose [or] I; subst; try contradiction; now apply ordinary_bool.
  - eexists. split; [reflexivity|]. now left.
Qed.
Ltac not_word := let H := fresh in intros H; apply contains_iff in H; discriminate H.
Ltac no_rule := apply rule_skipped; [first [let H := fresh in intros [H _]; first [now apply contains_iff in H|contradiction|apply any_in_iff in H; discriminate H]|not_word
  |let H := fresh in intros H; first [discriminate H|apply any_in_iff in H; discriminate H|apply ext_iff in H; discriminate H]]|].
Lemma c82_image_rule : read_as KImage $"IMAGE" $"A.IMG".
Proof. split; [now apply no_char|]. intros ds Hds. unfold rules. do 13 no_rule. apply rule_applies. apply any_in_iff. reflexivity. Qed.
Lemma c82_table_rule : read_as KTable $"TABLE" $"A.DAT".
Proof.
  split; [now apply no_char|]. intros ds Hds. unfold rules. do 11 no_rule. apply rule_applies. split; [apply any_in_iff; reflexivity|].
  split; [|not_word]. intros (w & Hw & X). cbn [In words_of_tables] in Hw. destruct X as [X|X]; apply contains_iff in X; repeat (destruct Hw as [<-|Hw]; [discriminate X|]); contradiction.
Qed.
(** ** The image *)
Definition c82_image_block : multidict := [($"LINES", PInt 2); ($"LINE_SAMPLES", PInt 2); ($"SAMPLE_TYPE", PStr $"LSB_INTEGER"); ($"SAMPLE_BITS", PInt 16)].
Definition c82_image_target : pv := PTuple [PStr $"A.IMG"; PDict [($"value", PInt 9); ($"units", PStr $"BYTES")]].
Lemma c82_given k v : existsb (str_eqb k) (flat_map completed_keys c82_entries) = true -> values_of k (PMulti c82_label) = [v] -> gives c82_entries c82_label k v.
Proof. intros H E. split; [|exact E]. apply existsb_exists in H as (k' & I & H). apply str_eqb_eq in H. now subst. Qed.
Example C82_image_meets :
  sane c82_outside /\ ordinary_dirs (listing c82_disk) /\ on_disk (listing c82_disk) c82_path /\ labelled (listing c82_disk) c82_path c82_path /\ pds3_name c82_path /\
  legible c82_literal DepthFirst c82_max (contents c82_disk c82_path) c82_entries c82_label c82_names /\
  gives c82_entries c82_label $"IMAGE" (PMulti c82_image_block) /\ gives c82_entries c82_label (pointer $"IMAGE") c82_image_target /\
  one_form c82_label /\ not_kaguya_spectrum c82_label /\ data_file (listing c82_disk) c82_path c82_image_target (mkPath $"/d" $"A.IMG") /\ read_as KImage $"IMAGE" $"A.IMG" /\
  gives c82_entries c82_label $"RECORD_BYTES" (PInt 100) /\ says_image c82_image_block $"LSB_INTEGER" 2 2 2 /\ one_band c82_image_block /\ unpadded c82_image_block /\
  pds3_type $"LSB_INTEGER" 2 LSB (Integer true) /\ of_pixels $"IMAGE" /\ ~ of_qube $"IMAGE" /\
  starts_at (PInt 100) (Some c82_image_block) (Product.size c82_disk (mkPath $"/d" $"A.IMG")) c82_image_target 8 /\
  (8 + Z.of_nat (2 * 2 * 2) <= Z.of_nat (length (contents c82_disk (mkPath $"/d" $"A.IMG"))))%Z /\
  exists p, open_product c82_outside c82_disk c82_path None [] c82_max true = Ok p /\ p_meta p = c82_label /\ idx (p_found p) = $"LABEL" :: c82_names /\
    exists o, snd (load c82_outside c82_disk p $"IMAGE") = Ok o /\ match o with OImage a => ravel a = map (fun z => Array.CNum (EI z)) [1; 2; -1; 256]%Z | _ => False end.
Proof.
  split; [exact c82_sane|]. split; [apply c82_disk_ok|]. split; [apply c82_disk_ok|]. split; [exact c82_labelled|]. split; [exact c82_pds3|]. split; [exact c82_legible|].
  split; [now apply c82_given|]. split; [now apply c82_given|]. split; [now left|]. split; [intros s X; vm_compute in X; contradiction|].
  split. { apply (other_file (listing c82_disk) c82_path c82_image_target $"A.IMG"); [right; eexists; reflexivity|now apply no_char|]. eexists. split; [reflexivity|]. right. now left. }
  split; [exact c82_image_rule|]. split; [now apply c82_given|]. split; [repeat split|]. split; [left; reflexivity|].
  split; [split; [intros s; split; [destruct s; reflexivity|intros a; destruct a, s; reflexivity]|intros []; left; split; reflexivity]|].
  split. { apply p_integer; [apply integer_name_iff; reflexivity|cbn; auto| |].
    - split; [|reflexivity]. intros _. apply little_iff. reflexivity.
    - split; [discriminate|]. not_word. }
  split; [split; not_word|]. split; [not_word|].
  split; [apply (at_in_file _ _ _ [PStr $"A.IMG"]); [discriminate|]; apply (at_byte _ _ _ _ 9); [lia|reflexivity|reflexivity]|].
  split; [vm_compute; discriminate|].
  eexists. split; [vm_compute; reflexivity|]. split; [reflexivity|]. split; [reflexivity|]. apply ok_with. vm_compute. reflexivity.
Qed.
(** ** The table *)
Definition c82_table_block : multidict :=
  [($"ROWS", PInt 2); ($"ROW_BYTES", PInt 5);
   ($"COLUMN", PMulti [($"NAME", PStr $"A"); ($"START_BYTE", PInt 1); ($"BYTES", PInt 2); ($"DATA_TYPE", PStr $"LSB_UNSIGNED_INTEGER")]);
   ($"COLUMN", PMulti [($"NAME", PStr $"T"); ($"START_BYTE", PInt 3); ($"BYTES", PInt 3); ($"DATA_TYPE", PStr $"CHARACTER")])].
Definition c82_T : column := mkCol $"T" 3 3 None (Some $"CHARACTER") None None.
Definition c82_elements : list element := [Column (mkCol $"A" 1 2 None (Some $"LSB_UNSIGNED_INTEGER") None None); Column c82_T].
Definition c82_rows : list (list ascii) := [bytes [1; 2; 65; 66; 0]; bytes [255; 255; 67; 0; 68]].
Example C82_table_meets :
  gives c82_entries c82_label $"TABLE" (PMulti c82_table_block) /\ gives c82_entries c82_label (pointer $"TABLE") (PInt 21) /\
  data_file (listing c82_disk) c82_path (PInt 21) c82_path /\ read_as KTable $"TABLE" (pname c82_path) /\
  starts_at (PInt 100) (Some c82_table_block) (Product.size c82_disk c82_path) (PInt 21) 2000 /\ says_length (PInt 100) c82_table_block (Some 10%Z) /\
  contents c82_disk c82_path = (c82_text ++ c82_pad) ++ concat c82_rows ++ [] /\ Z.of_nat (length (c82_text ++ c82_pad)) = 2000%Z /\
  says_table c82_table_block c82_elements /\ named c82_table_block None /\ may_hold c82_table_block $"BYTES" None /\ row_measures c82_table_block None None (Some 5%Z) /\
  good_table None c82_elements /\ last_column_ends c82_elements c82_T /\ binary_block c82_table_block $"TABLE" 2 /\
  Forall (fun row => Z.of_nat (length row) = 5%Z) c82_rows /\ Forall plain_name [$"A"; $"T"] /\
  Forall2 kind_of_column (table_columns 0 c82_elements) [Number LSB (Integer false); Characters] /\
  exists p, open_product c82_outside c82_disk c82_path None [] c82_max true = Ok p /\
    exists o, snd (load c82_outside c82_disk p $"TABLE") = Ok o /\
      match o with OTable frame => map (fun c => (k_name c, k_values c)) frame =
        [($"A", map (fun z => VNum (EI z)) [513; 65535]%Z); ($"T", map VBytes [$"AB"; bytes [67; 0; 68]])] | _ => False end.
Proof.
  split; [now apply c82_given|]. split; [now apply c82_given|]. split; [apply same_file; split; [intros n [X|[l X]]; discriminate X|discriminate]|].
  split; [exact c82_table_rule|]. split; [apply (at_record _ _ _ 21 100); [lia|lia|right; split; reflexivity]|].
  split; [apply (by_product_of _ _ 2 5); [reflexivity|apply by_rows; reflexivity|apply (by_row_bytes _ _ 5); reflexivity]|].
  split; [vm_compute; reflexivity|]. split; [vm_compute; reflexivity|].
  split.
  { split; [|reflexivity]. apply other_item; [not_in|not_ptr|]. apply other_item; [not_in|not_ptr|].
    apply part_item; [cbn; tauto|a_column|]. apply part_item; [cbn; tauto|a_column|]. constructor. }
  split; [reflexivity|]. split; [reflexivity|]. split; [repeat split; reflexivity|].
  split.
  { split; [|split; [|split; [|split]]].
    + eexists _, _. split; [reflexivity|]. apply adj_column. constructor.
    + repeat constructor; try (intros; discriminate).
    + constructor.
    + discriminate.
    + vm_compute. constructor. }
  split; [split; [eexists [_]; reflexivity|]; split; [reflexivity|]; vm_compute; repeat constructor; discriminate|].
  split; [split; [not_word|]; split; [not_word|]; split; [discriminate|]; left; reflexivity|].
  split; [repeat constructor|]. split; [constructor; [a_plain|]; constructor; [a_plain|]; constructor|].
  split.
  { constructor; [|constructor; [|constructor]].
    + eexists. split; [reflexivity|]. split; [|split; [not_word|intros [E|E]; discriminate E]]. apply is_number.
      * apply p_integer; [apply integer_name_iff; reflexivity|cbn; auto| |].
        -- split; [|reflexivity]. intros _. apply little_iff. reflexivity.
        -- split; [intros _|reflexivity]. exists $"LSB_", $"_INTEGER". reflexivity.
      * discriminate.
      * intros (p & rest & [<-|[<-|[]]] & E & _); discriminate E.
      * not_word.
    + eexists. split; [reflexivity|]. split; [|split; [not_word|intros [E|E]; discriminate E]]. apply is_characters; [cbn; auto|cbn; lia]. }
  eexists. split; [vm_compute; reflexivity|]. apply ok_with. vm_compute. reflexivity.
Qed.
(** ** The array, the histogram and the table whose file is not there *)
Lemma c82_object name m f : In name c82_names -> name <> $"LABEL" -> (forall s, name <> "^"%char :: s) -> gives c82_entries c82_label name (PMulti m) ->
  gives c82_entries c82_label (pointer name) (PStr f) -> bare_name f -> In f c82_files ->
  object_in c82_disk c82_path c82_entries c82_label c82_names name m (PStr f) 100 (mkPath $"/d" f) 0.
Proof.
  intros H1 H2 H3 H4 H5 H6 H7. constructor; auto.
  - now left.
  - intros s X; vm_compute in X; contradiction.
  - apply (other_file (listing c82_disk) c82_path (PStr f) f); [now left|exact H6|]. eexists. split; [reflexivity|exact H7].
  - now apply c82_given.
  - apply at_file.
Qed.
Definition c82_array_block : multidict := [($"AXES", PInt 1); ($"AXIS_ITEMS", PInt 3); ($"INTERCHANGE_FORMAT", PStr $"BINARY"); ($"DATA_TYPE", PStr $"LSB_INTEGER"); ($"BYTES", PInt 2)].
Example C82_array_meets : let q := mkPath $"/d" $"A.ARR" in
  object_in c82_disk c82_path c82_entries c82_label c82_names $"ARRAY" c82_array_block (PStr $"A.ARR") 100 q 0 /\ read_as KArray $"ARRAY" (pname q) /\ compressed q = false /\
  says_array c82_array_block $"LSB_INTEGER" 2 [3] /\ 0 + prod [3] * 2 <= length (contents c82_disk q) /\
  exists p, open_product c82_outside c82_disk c82_path None [] c82_max true = Ok p /\
    exists o, snd (load c82_outside c82_disk p $"ARRAY") = Ok o /\ match o with OImage a => ravel a = map (fun z => Array.CNum (EI z)) [1; 258; -1]%Z | _ => False end.
Proof.
  intros q. split.
  { apply c82_object; [cbn; auto 9|discriminate|discriminate|now apply c82_given|now apply c82_given|now apply no_char|cbn; auto 9]. }
  split. { split; [now apply no_char|]. intros ds Hds. unfold rules. do 10 no_rule. apply rule_applies. apply contains_iff. reflexivity. }
  split; [reflexivity|]. split.
  { repeat (split; [reflexivity|]). split; [|repeat split; reflexivity]. eexists. split; [reflexivity|]. now apply (s_one 3). }
  split; [cbn; lia|].
  eexists. split; [vm_compute; reflexivity|]. apply ok_with. vm_compute. reflexivity.
Qed.
Definition c82_hist_block : multidict := [($"ITEMS", PInt 3); ($"DATA_TYPE", PStr $"LSB_UNSIGNED_INTEGER"); ($"ITEM_BYTES", PInt 2)].
Definition c82_h : histogram := mkHist $"HISTOGRAM" $"LSB_UNSIGNED_INTEGER" 3 2 None None.
Example C82_histogram_meets : let q := mkPath $"/d" $"A.HIS" in
  object_in c82_disk c82_path c82_entries c82_label c82_names $"HISTOGRAM" c82_hist_block (PStr $"A.HIS") 100 q 0 /\ read_as KTable $"HISTOGRAM" (pname q) /\
  says_length (PInt 100) c82_hist_block None /\ ~ Spec.Position.mentions $"HISTOGRAM" $"HEADER" /\ says_histogram c82_hist_block $"HISTOGRAM" c82_h /\
  of_kind (h_type c82_h) (h_width c82_h) (Number LSB (Integer false)) /\
  exists p, open_product c82_outside c82_disk c82_path None [] c82_max true = Ok p /\
    exists o, snd (load c82_outside c82_disk p $"HISTOGRAM") = Ok o /\
      match o with OTable frame => map (fun c => (k_name c, k_values c)) frame =
        [($"HISTOGRAM_0", [VNum (EI 1)]); ($"HISTOGRAM_1", [VNum (EI 258)]); ($"HISTOGRAM_2", [VNum (EI 65535)])] | _ => False end.
Proof.
  intros q. split.
  { apply c82_object; [cbn; auto 9|discriminate|discriminate|now apply c82_given|now apply c82_given|now apply no_char|cbn; auto 9]. }
  split.
  { split; [now apply no_char|]. intros ds Hds. unfold rules. do 11 no_rule. apply rule_applies. split; [apply any_in_iff; reflexivity|].
    split; [|not_word]. intros (w & Hw & X). cbn [In words_of_tables] in Hw. destruct X as [X|X]; apply contains_iff in X; repeat (destruct Hw as [<-|Hw]; [discriminate X|]); contradiction. }
  split; [apply open_no_records; [reflexivity|apply no_records; reflexivity]|]. split; [not_word|]. split.
  { split; [now right|]. do 3 (split; [reflexivity|]). split; [now left|]. do 4 (split; [reflexivity|]). split; [discriminate|]. split; not_word. }
  split.
  { apply is_number.
    * apply p_integer; [apply integer_name_iff; reflexivity|cbn; auto| |].
      -- split; [|reflexivity]. intros _. apply little_iff. reflexivity.
      -- split; [intros _|reflexivity]. exists $"LSB_", $"_INTEGER". reflexivity.
    * discriminate.
    * intros (p & rest & [<-|[<-|[]]] & E & _); discriminate E.
    * not_word. }
  eexists. split; [vm_compute; reflexivity|]. apply ok_with. vm_compute. reflexivity.
Qed.
Example C82_missing_meets :
  gives c82_entries c82_label (pointer $"GONE_TABLE") (PStr $"GONE.TAB") /\ names_file (PStr $"GONE.TAB") $"GONE.TAB" /\ bare_name $"GONE.TAB" /\
  Forall (fun dir => no_candidate (listing c82_disk) (mkPath dir $"GONE.TAB")) [$"/d"] /\
  exists p, open_product c82_outside c82_disk c82_path None [] c82_max true = Ok p /\ snd (load c82_outside c82_disk p $"GONE_TABLE") = Err FileNotFoundError /\
    snd (load c82_outside c82_disk p $"OTHER") = Err KeyError.
Proof.
  assert (O : forall e, In e c82_files -> ordinary e) by (intros e He; cbn [In c82_files] in He; decompose [or] He; subst; try contradiction; now apply ordinary_bool).
  split; [now apply c82_given|]. split; [now left|]. split; [now apply no_char|]. split.
  { constructor; [|constructor]. unfold no_candidate. change (listing c82_disk (pdir (mkPath $"/d" $"GONE.TAB"))) with (Some c82_files). cbn [pname].
    split; [cbn [In c82_files]; intros X; decompose [or] X; try contradiction; discriminate|].
    intros e He S; apply (Proofs.Files.stands_for_iff _ _ (O _ He)) in S; cbn [In c82_files] in He; decompose [or] He; subst; try contradiction; vm_compute in S; discriminate. }
  eexists. split; [vm_compute; reflexivity|]. split; vm_compute; reflexivity.
Qed.
(** ** What goes wrong *)
(** An array written as text is looked for in the whole file, whatever the position its pointer
    gives: in a file with a label, the numbers of the label count, and the array is an error. *)
Definition c82_text_label : str := text_of_lines (map (fun l => l ++ [CR]) [$"PDS_VERSION_ID = PDS3"; $"RECORD_BYTES = 400"; $"^ARRAY = 2";
  $"OBJECT = ARRAY"; $"AXES = 1"; $"AXIS_ITEMS = 3"; $"INTERCHANGE_FORMAT = ASCII"; $"END_OBJECT = ARRAY"; $"END"]).
Definition c82_text_disk : disk := mkDisk (listing c82_disk)
  (fun _ => c82_text_label ++ (NL :: repeat " "%char (399 - length c82_text_label)) ++ $"1 2 3") (fun _ => 405%Z).
Theorem C82_text_array_refuted : exists p, open_product c82_outside c82_text_disk c82_path None [] c82_max true = Ok p /\
  get_target DepthFirst (p_meta p) (p_keys p) (p_found p) $"ARRAY" = PInt 2 /\
  get_block DepthFirst (p_meta p) (p_keys p) (format_file c82_outside) (p_found p) $"ARRAY" =
    Ok (PMulti [($"AXES", PInt 1); ($"AXIS_ITEMS", PInt 3); ($"INTERCHANGE_FORMAT", PStr $"ASCII")]) /\
  skipn 400 (contents c82_text_disk c82_path) = $"1 2 3" /\
  snd (load c82_outside c82_text_disk p $"ARRAY") = Err ValueError.
Proof. eexists. split; [vm_compute; reflexivity|]. split; [vm_compute; reflexivity|]. split; [vm_compute; reflexivity|]. split; vm_compute; reflexivity. Qed.
Print Assumptions C82_text_array_refuted.
(** the same product, opened by another name *)
Example C82_letter_case_meets : listing c82_disk $"/d" = Some c82_files /\ ~ In $"a.dat" c82_files /\ In $"A.DAT" c82_files /\ Spec.Files.stands_for $"A.DAT" $"a.dat" /\
  forall e, In e c82_files -> Spec.Files.stands_for e $"a.dat" -> e = $"A.DAT".
Proof.
  assert (O : forall e, In e c82_files -> ordinary e) by (intros e He; cbn [In c82_files] in He; decompose [or] He; subst; try contradiction; now apply ordinary_bool).
  split; [reflexivity|]. split; [intros H; cbn in H; decompose [or] H; try discriminate; contradiction|].
  assert (I : In $"A.DAT" c82_files) by (cbn; tauto). split; [exact I|].
  split; [apply (Proofs.Files.stands_for_iff _ _ (O _ I)); reflexivity|].
  intros e He H. apply (Proofs.Files.stands_for_iff _ _ (O _ He)) in H. cbn in He. decompose [or] He; subst; try contradiction; try discriminate; reflexivity.
Qed.
