(** Properties C01-C08, C55, C56: PDS3 labels.
    Specification vocabulary: Spec/Pvl.v.  Model: Model/Pvl.v, Model/PvlLiteral.v. *)
From Coq Require Import Permutation.
From Verif.Base Require Import Py Val PyFacts.
From Verif.Model Require Import Pvl PvlLiteral.
From Verif.Spec Require Import Pvl.
From Verif.Proofs Require Import PvlBlocks PvlText PvlPointers PvlLiteral PvlWhole PvlQuantity PvlMore.

(** * A sample label, used to show that hypotheses are met *)
Definition sample : list entry :=
  [Assign $"PDS_VERSION_ID" $"PDS3";
   Assign $"^IMAGE" $"(""A.IMG"", 2)";
   Assign $"^IMAGE" $"(""A.IMG"", 9)";
   Blk $"OBJECT" $"IMAGE"
     [Assign $"LINES" $"10"; Blk $"GROUP" $"G" [Assign $"X" $"1"] $"END_GROUP" $"G"]
     $"END_OBJECT" [];
   Blk $"OBJECT" $"IMAGE" [Assign $"LINES" $"20"] $"END_OBJECT" []].
Ltac plain := split; [intros [E|[E|[E|E]]]; discriminate|intros [t E]; discriminate].
Ltac opens := unfold opens_block; auto.
Ltac wf :=
  repeat match goal with
  | |- Forall _ [] => apply Forall_nil
  | |- Forall _ (_ :: _) => apply Forall_cons
  | |- wf_label _ => unfold wf_label
  | |- _ /\ _ => split
  | |- wf_entry _ => cbn [wf_entry]
  | |- wf_top _ => cbn [wf_top]
  | |- plain_key _ => plain
  | |- opens_block _ => unfold opens_block; tauto
  | |- ~ opens_block _ => intros [E|[E|[E|E]]]; discriminate
  | |- closes_block _ => first [exists $"_GROUP"; reflexivity|exists $"_OBJECT"; reflexivity]
  | |- True => exact I
  end.
Lemma sample_wf : wf_label sample.
Proof. unfold sample. wf. Qed.

(** * C01 *)
(** A well-bracketed label parses to exactly the nested mapping it denotes; the
    parameter list has exactly the mapping's keys, with multiplicity; there is no
    warning. *)
Theorem C01_block_structure_preserved : forall es : list entry,
  wf_label es ->
  exists ps,
    parse_statements (label_statements es) = Ok (denote es, ps, false) /\
    Permutation ps (keys_of (PMulti (denote es))).
Proof.
  intros es H. exists (flat_map completed_keys es). split.
  - exact (parse_balanced es H).
  - exact (completed_keys_perm es).
Qed.
Print Assumptions C01_block_structure_preserved.
Example C01_meets : wf_label sample /\ label_statements sample <> [] /\
  denote sample =
    [($"PDS_VERSION_ID", PStr $"PDS3"); ($"^IMAGE", PStr $"(""A.IMG"", 2)");
     ($"^IMAGE", PStr $"(""A.IMG"", 9)");
     ($"IMAGE", PMulti [($"LINES", PStr $"10"); ($"G", PMulti [($"X", PStr $"1")])]);
     ($"IMAGE", PMulti [($"LINES", PStr $"20")])].
Proof. split; [exact sample_wf|]. split; [discriminate|reflexivity]. Qed.

(** Every parameter whose name begins with END is taken for a closing bracket:
    the assignment is lost and the enclosing block is closed early. *)
Theorem C01_end_prefixed_parameter_refuted :
  exists ss : list (str * str),
    ss = [($"OBJECT", $"T"); ($"END_TIME", $"5"); ($"A", $"1"); ($"END_OBJECT", $"T")] /\
    parse_statements ss = Ok ([($"T", PMulti []); ($"A", PStr $"1")], [$"T"; $"A"], false).
Proof. eexists. split; [reflexivity|]. vm_compute. reflexivity. Qed.
Print Assumptions C01_end_prefixed_parameter_refuted.

(** * C02 *)
(** Whatever the statements, parsing the blocks does not raise, and every
    assignment seen is in the parameter list. *)
Theorem C02_never_raises : forall ss : list (str * str),
  exists m ps w, parse_statements ss = Ok (m, ps, w) /\
    (forall k v, In (k, v) ss -> plain_key k -> In k ps).
Proof. exact parse_total. Qed.
Print Assumptions C02_never_raises.

(** Surplus END statements at top level are ignored. *)
Theorem C02_surplus_ends_ignored : forall ts : list top,
  Forall wf_top ts ->
  parse_statements (flat_map top_statements ts) =
  Ok (denote (top_entries ts), flat_map completed_keys (top_entries ts), false).
Proof. exact parse_tops_total. Qed.
Print Assumptions C02_surplus_ends_ignored.

(** With an unclosed block, the result holds exactly the top-level entries
    completed before the first block that is never closed, and the user is
    warned. *)
Theorem C02_unclosed_block : forall ts k v ss,
  Forall wf_top ts -> opens_block k -> never_closes ss ->
  exists ps, parse_statements (flat_map top_statements ts ++ (k, v) :: ss) =
             Ok (denote (top_entries ts), ps, true).
Proof. exact parse_unclosed. Qed.
Print Assumptions C02_unclosed_block.

(** The two previous theorems between them cover every statement sequence. *)
Theorem C02_cases_exhaustive : forall ss : list (str * str),
  (exists ts, Forall wf_top ts /\ ss = flat_map top_statements ts) \/
  (exists ts k v rest, Forall wf_top ts /\ opens_block k /\ never_closes rest /\
     ss = flat_map top_statements ts ++ (k, v) :: rest).
Proof. exact every_sequence_has_a_shape. Qed.
Print Assumptions C02_cases_exhaustive.
Example C02_meets :
  let ts := [Ent (Assign $"A" $"1"); Stray $"END_GROUP" $"X"; Ent (Blk $"GROUP" $"G" [] $"END_GROUP" $"G")] in
  Forall wf_top ts /\ opens_block $"OBJECT" /\ never_closes [($"B", $"2"); ($"GROUP", $"H"); ($"C", $"3")].
Proof.
  cbn. split; [|split].
  - wf.
  - unfold opens_block; tauto.
  - apply NC_assign; [plain|]. apply NC_open; [unfold opens_block; tauto|].
    apply NC_assign; [plain|constructor].
Qed.
(** Everything inside the unclosed block, and after it, is dropped. *)
Theorem C02_unclosed_contents_lost_refuted :
  exists ss m ps, In ($"B", $"2") ss /\ parse_statements ss = Ok (m, ps, true) /\
    In $"B" ps /\ ~ In $"B" (keys_of (PMulti m)).
Proof.
  exists [($"A", $"1"); ($"OBJECT", $"T"); ($"B", $"2")], [($"A", PStr $"1")], [$"A"; $"B"].
  split; [right; right; left; reflexivity|]. split; [vm_compute; reflexivity|].
  split; [right; left; reflexivity|]. cbn. intros [E|[]]. discriminate.
Qed.
Print Assumptions C02_unclosed_contents_lost_refuted.

(** * C03 *)
(** Text written statement by statement as in [writes] is cut back into exactly
    those statements. *)
Theorem C03_text_to_statements : forall stmts lss,
  Forall2 writes stmts lss -> uncommented (text_of_lines (concat lss)) ->
  chunk_statements (trimmed_lines (text_of_lines (concat lss))) = stmts.
Proof. exact statements_of_text. Qed.
Print Assumptions C03_text_to_statements.

Ltac bl := unfold blank; repeat constructor.
Ltac notin := let H := fresh in intros H; vm_compute in H;
  repeat (destruct H as [H|H]; [discriminate|]); contradiction.
Ltac up8 := let i := fresh "i" in let c := fresh "c" in let Hi := fresh in let H := fresh in
  intros i c Hi H;
  do 8 (try destruct i as [|i]; [vm_compute in H; first [discriminate H|injection H as <-; reflexivity]|]);
  exfalso; lia.
Definition c03_lines : list (list str) :=
  [[$"  PDS_VERSION_ID   = PDS3"];
   [$"NOTE = ""two"; $"     lines"""];
   [$"OBJECT = IMAGE"];
   [$"END_OBJECT = IMAGE"]; [$"END"]].
Definition c03_stmts : list (str * str) :=
  [($"PDS_VERSION_ID", $"PDS3"); ($"NOTE", $"""twolines"""); ($"OBJECT", $"IMAGE");
   ($"END_OBJECT", []); ($"END", [])].
Lemma not_mentions sub s : contains sub s = false -> ~ (exists a b, s = a ++ sub ++ b).
Proof. intros H H'. apply contains_iff in H'. congruence. Qed.
Example C03_meets : Forall2 writes c03_stmts c03_lines /\
  uncommented (text_of_lines (concat c03_lines)).
Proof.
  split.
  - repeat constructor.
    + apply (W_assign $"  " $"PDS_VERSION_ID" $"   " $" " $"PDS3" [] []);
        first [bl; fail|reflexivity|discriminate|notin|up8|intros [t E]; discriminate|constructor].
    + apply (W_assign [] $"NOTE" $" " $" " $"""two" [] [$"     lines"""]);
        first [bl; fail|reflexivity|discriminate|notin|up8|intros [t E]; discriminate|idtac].
      constructor; [|constructor]. split; [left; notin|]. split; [intros [t E]; vm_compute in E; discriminate|].
      split; [vm_compute; discriminate|notin].
    + apply (W_assign [] $"OBJECT" $" " $" " $"IMAGE" [] []);
        first [bl; fail|reflexivity|discriminate|notin|up8|intros [t E]; discriminate|constructor].
    + apply (W_end_object [] $" = IMAGE" []); first [bl; fail|notin|constructor].
    + apply (W_end [] [] []); first [bl; fail|notin|constructor].
  - apply not_mentions. vm_compute. reflexivity.
Qed.

(** A statement with two '=' signs is silently dropped. *)
Theorem C03_second_equals_refuted : exists text,
  text = $"A = 1" ++ [NL] ++ $"NOTE = ""a=b""" ++ [NL] ++ $"B = 2" /\
  chunk_statements (trimmed_lines text) = [($"A", $"1"); ($"B", $"2")].
Proof. eexists. split; [reflexivity|]. vm_compute. reflexivity. Qed.
Print Assumptions C03_second_equals_refuted.
(** A continuation line is joined to the first line without a space. *)
Theorem C03_continuation_space_refuted : exists text,
  text = $"NOTE = ""two" ++ [NL] ++ $"  lines""" /\
  chunk_statements (trimmed_lines text) = [($"NOTE", $"""twolines""")].
Proof. eexists. split; [reflexivity|]. vm_compute. reflexivity. Qed.
Print Assumptions C03_continuation_space_refuted.
(** A short key with a lower-case value is merged into the previous statement. *)
Theorem C03_short_key_refuted : exists text,
  text = $"A = 1" ++ [NL] ++ $"AB = low" /\
  chunk_statements (trimmed_lines text) = [($"A", $"1AB = low")].
Proof. eexists. split; [reflexivity|]. vm_compute. reflexivity. Qed.
Print Assumptions C03_short_key_refuted.
(** A bare END_GROUP line is glued to the value before it, so the group stays
    open and its contents are lost. *)
Theorem C03_bare_end_group_refuted : exists text,
  text = $"GROUP = G" ++ [NL] ++ $"X = 1" ++ [NL] ++ $"END_GROUP" ++ [NL] ++ $"Y = 2" /\
  chunk_statements (trimmed_lines text) =
    [($"GROUP", $"G"); ($"X", $"1END_GROUP"); ($"Y", $"2")] /\
  parse_statements (chunk_statements (trimmed_lines text)) = Ok ([], [$"X"; $"Y"], true).
Proof. eexists. split; [reflexivity|]. split; vm_compute; reflexivity. Qed.
Print Assumptions C03_bare_end_group_refuted.

(** * C04 *)
Theorem C04_no_comment_untouched : forall s, uncommented s -> strip_comments s = s.
Proof. exact strip_comments_none. Qed.
Print Assumptions C04_no_comment_untouched.
(** A comment that runs to the end of its line is replaced by the line's end;
    what follows is treated the same way. *)
Theorem C04_comment_to_end_of_line : forall a c b,
  uncommented a -> uncommented c -> ~ In NL c -> ~ In CR c ->
  strip_comments (a ++ $"/*" ++ c ++ NL :: b) = a ++ NL :: strip_comments b.
Proof. exact strip_comments_eol. Qed.
Print Assumptions C04_comment_to_end_of_line.
(** So the lines that are parsed are those of the text without the comment. *)
Theorem C04_comment_invisible : forall a c b,
  uncommented a -> uncommented c -> ~ In NL c -> ~ In CR c ->
  trimmed_lines (a ++ $"/*" ++ c ++ NL :: b) = trimmed_lines (a ++ NL :: b).
Proof. exact comment_invisible. Qed.
Print Assumptions C04_comment_invisible.
Example C04_meets : uncommented $"A = 1 " /\ uncommented $" a note */" /\
  ~ In NL $" a note */" /\ ~ In CR $" a note */".
Proof.
  repeat split; try (apply not_mentions; vm_compute; reflexivity); notin.
Qed.
(** A comment on the last line (no line end) is not removed. *)
Theorem C04_last_line_refuted : exists text,
  text = $"A = 1 /* note */" /\ strip_comments text = text.
Proof. eexists. split; [reflexivity|]. vm_compute. reflexivity. Qed.
Print Assumptions C04_last_line_refuted.
(** Text after the end of a comment, on the same line, is removed with it. *)
Theorem C04_text_after_comment_refuted : exists text,
  text = $"/* note */ A = 1" ++ [NL] ++ $"B = 2" /\
  chunk_statements (trimmed_lines text) = [($"B", $"2")].
Proof. eexists. split; [reflexivity|]. vm_compute. reflexivity. Qed.
Print Assumptions C04_text_after_comment_refuted.
(** A second comment opening on the line lets the rest of the line leak out. *)
Theorem C04_double_opening_refuted : exists text,
  text = $"/* old: /* X = 1" ++ [NL] ++ $"B = 2" /\
  chunk_statements (trimmed_lines text) = [($"X", $"1"); ($"B", $"2")].
Proof. eexists. split; [reflexivity|]. vm_compute. reflexivity. Qed.
Print Assumptions C04_double_opening_refuted.

(** * C05 *)
(** base#digits# is that integer, for every base Python accepts. *)
Theorem C05_based_integer : forall lit b s n,
  (2 <= b <= 36)%N -> numeral_value b s = Some n ->
  literalize lit (based b s) = Ok (PInt (Z.of_N n)).
Proof. exact literalize_based. Qed.
Print Assumptions C05_based_integer.
(** Every natural number can be so written, and is read back. *)
Theorem C05_based_integer_round_trip : forall lit b n,
  (2 <= b <= 36)%N -> literalize lit (based b (to_base b n)) = Ok (PInt (Z.of_N n)).
Proof. intros lit b n H. exact (literalize_based lit b _ n H (numeral_to_base b n H)). Qed.
Print Assumptions C05_based_integer_round_trip.
(** The same inside a (..) or {..} list, with blanks around the items. *)
Theorem C05_based_integer_list : forall lit items ns o c,
  Forall2 item_value items ns -> items <> [] ->
  (o = "("%char /\ c = ")"%char \/ o = "{"%char /\ c = "}"%char) ->
  let text := o :: join $"," (map item_text items) ++ [c] in
  (lit text = Err SyntaxError \/ lit text = Err ValueError) ->
  literalize lit text =
  Ok (if Ascii.eqb o "{"%char then PSet (map (fun n => PInt (Z.of_N n)) ns)
      else PTuple (map (fun n => PInt (Z.of_N n)) ns)).
Proof. exact literalize_collection. Qed.
Print Assumptions C05_based_integer_list.
Example C05_meets : numeral_value 16 $"fF" = Some 255%N /\
  Forall2 item_value [(0%nat, 16%N, $"FF", 1%nat); (2%nat, 2%N, $"101", 0%nat)] [255%N; 5%N] /\
  based 16 $"FF" = $"16#FF#" /\
  "("%char :: join $"," (map item_text [(0%nat, 16%N, $"FF", 1%nat); (2%nat, 2%N, $"101", 0%nat)]) ++ [")"%char]
  = $"(16#FF# ,  2#101#)".
Proof.
  split; [reflexivity|]. split; [repeat constructor; cbn; lia|]. split; reflexivity.
Qed.
(** Text that is no such numeral can be read as a number: 16#FF, without its
    closing sharp, is read as 15. *)
(** In full: what stands between the #s is read as an integer exactly when it is an
    optionally signed numeral of that base, digits possibly separated by single
    underscores; anything else (without a #, <, or 0x-like prefix) stays text. *)
Theorem C05_reading : forall lit b s,
  (2 <= b <= 36)%N -> strip s = s -> ~ prefixed s -> ~ In "#"%char s -> ~ In "<"%char s ->
  (forall z, literalize lit (based b s) = Ok (PInt z) <-> signed_numeral b s z) /\
  ((~ exists z, signed_numeral b s z) -> literalize lit (based b s) = Ok (PStr (based b s))).
Proof. exact based_reading. Qed.
Print Assumptions C05_reading.
Example C05_reading_meets : signed_numeral 16 $"-F_F" (-255) /\ strip $"-F_F" = $"-F_F" /\ ~ prefixed $"-F_F" /\
  (forall lit, literalize lit $"16#-F_F#" = Ok (PInt (-255))) /\ (forall lit, literalize lit $"16#FF_#" = Ok (PStr $"16#FF_#")).
Proof.
  split; [|split; [vm_compute; reflexivity|split; [|split; intros; vm_compute; reflexivity]]].
  - change (-255)%Z with (- Z.of_N (16 * 15 + 15))%Z. apply (SN_minus 16 $"F_F"). apply (G_sep 16 $"F"); [|reflexivity|reflexivity]. now apply G_digit.
  - intros (c & t & H & [E|[E|E]]); discriminate E.
Qed.
Theorem C05_unclosed_numeral_refuted : exists text, text = $"16#FF" /\
  forall lit, literalize lit text = Ok (PInt 15).
Proof. eexists. split; [reflexivity|]. intros lit. vm_compute. reflexivity. Qed.
Print Assumptions C05_unclosed_numeral_refuted.

(** * C06 *)
(** Interpretation keeps keys, order and nesting, and replaces each string by
    its interpretation. *)
Theorem C06_values_only : forall lit m m',
  literalize_pvl_block lit m = Ok m' ->
  same_shape (fun v v' => exists s, v = PStr s /\ literalize lit s = Ok v')
             (PMulti m) (PMulti m').
Proof. exact literalize_block_shape. Qed.
Print Assumptions C06_values_only.
(** It cannot fail on a freshly parsed label. *)
Theorem C06_never_raises : forall lit m, tame lit -> string_leaves (PMulti m) ->
  exists m', literalize_pvl_block lit m = Ok m'.
Proof. exact literalize_block_total. Qed.
Print Assumptions C06_never_raises.
(** ... nor on any single value. *)
Theorem C06_value_never_raises : forall lit s, tame lit -> exists v, literalize lit s = Ok v.
Proof. exact literalize_ok. Qed.
Print Assumptions C06_value_never_raises.
Example C06_meets : tame (fun _ => Err ValueError) /\ string_leaves (PMulti (denote sample)) /\
  exists m', literalize_pvl_block (fun _ => Err ValueError) (denote sample) = Ok m'.
Proof.
  assert (Ht : tame (fun _ => Err ValueError)) by (intros s e E; right; congruence).
  split; [exact Ht|]. split; [apply string_leaves_denote|].
  apply literalize_block_total; [exact Ht|apply string_leaves_denote].
Qed.

(** * C07 *)
(** In document order of completion, every occurrence of a renamed key gets the
    number of its predecessors of that name; nothing else changes.  For every
    traversal order of the external key search. *)
Theorem C07_mapping_renamed : forall o m ps,
  no_clash (keys_post (PMulti m)) ->
  blocks_at_most (keys_post (PMulti m)) ->
  (forall p, is_pointer p -> (occurrences p (keys_post (PMulti m)) <= occurrences p ps)%nat) ->
  exists m' ps' T,
    index_duplicate_pointers (get_pds3_pointers o m) m ps = Ok (m', ps') /\
    (forall k, In k T <-> renamed_key (keys_post (PMulti m)) k) /\
    keys_post (PMulti m') = numbered T (keys_post (PMulti m)) /\
    skeleton (PMulti m') = skeleton (PMulti m).
Proof. intros o m ps H. exact (index_mapping o m H ps). Qed.
Print Assumptions C07_mapping_renamed.
(** With as many blocks as pointers the parameter list stays in step. *)
Theorem C07_params_in_step : forall o m ps,
  no_clash (keys_post (PMulti m)) ->
  blocks_match (keys_post (PMulti m)) ->
  Permutation ps (keys_post (PMulti m)) ->
  exists m' ps' T,
    index_duplicate_pointers (get_pds3_pointers o m) m ps = Ok (m', ps') /\
    (forall k, In k T <-> renamed_key (keys_post (PMulti m)) k) /\
    keys_post (PMulti m') = numbered T (keys_post (PMulti m)) /\
    skeleton (PMulti m') = skeleton (PMulti m) /\
    Permutation ps' (keys_post (PMulti m')).
Proof. intros o m ps H. exact (index_params o m H ps). Qed.
Print Assumptions C07_params_in_step.
Theorem C07_no_duplicates_unchanged : forall o m ps,
  (forall p, ~ renamed_pointer (keys_post (PMulti m)) p) ->
  index_duplicate_pointers (get_pds3_pointers o m) m ps = Ok (m, ps).
Proof. exact index_no_dups. Qed.
Print Assumptions C07_no_duplicates_unchanged.
(** Keys in this order and the skeleton determine the mapping. *)
Theorem C07_keys_and_skeleton_determine : forall v v',
  skeleton v = skeleton v' -> keys_post v = keys_post v' -> v = v'.
Proof. exact pv_ext. Qed.
Print Assumptions C07_keys_and_skeleton_determine.

Lemma sample_renamed p : renamed_pointer (keys_post (PMulti (denote sample))) p -> p = $"^IMAGE".
Proof.
  intros ([t Ht] & H & _).
  assert (Hin : In p (keys_post (PMulti (denote sample)))).
  { destruct (in_dec (list_eq_dec Ascii.ascii_dec) p (keys_post (PMulti (denote sample)))) as [Hi|Hi]; [exact Hi|].
    exfalso. unfold occurrences in H.
    assert (E : filter (str_eqb p) (keys_post (PMulti (denote sample))) = []).
    { destruct (filter _ _) as [|q l] eqn:E; [reflexivity|].
      assert (Hq : In q (q :: l)) by now left. rewrite <- E in Hq. apply filter_In in Hq as [Hq1 Hq2].
      apply str_eqb_eq in Hq2. subst. contradiction. }
    rewrite E in H. cbn in H. lia. }
  vm_compute in Hin.
  repeat (destruct Hin as [<-|Hin]; [first [reflexivity|discriminate Ht|exfalso; vm_compute in H; lia]|]).
  contradiction.
Qed.
Example C07_meets :
  let ks := keys_post (PMulti (denote sample)) in
  no_clash ks /\ blocks_match ks /\ renamed_pointer ks $"^IMAGE" /\
  numbered [$"^IMAGE"; $"IMAGE"] ks =
    [$"PDS_VERSION_ID"; $"^IMAGE_0"; $"^IMAGE_1"; $"LINES"; $"X"; $"G"; $"IMAGE_0"; $"LINES"; $"IMAGE_1"].
Proof.
  cbn zeta. split; [|split; [|split]].
  - split.
    + intros p q j Hp Hq E. apply sample_renamed in Hp, Hq. subst. unfold indexed in E.
      apply (f_equal (@length ascii)) in E. rewrite !app_length in E. vm_compute (length $"_") in E. lia.
    + intros p Hp. apply sample_renamed in Hp. subst. intros [t E]. discriminate.
  - intros p Hp _. apply sample_renamed in Hp. subst. reflexivity.
  - split; [exists $"IMAGE"; reflexivity|]. split; [vm_compute; lia|].
    split; apply not_mentions; reflexivity.
  - reflexivity.
Qed.

(** More object blocks than pointers: the whole parse raises IndexError. *)
Theorem C07_more_blocks_than_pointers_refuted : exists m ps, forall o,
  ps = keys_post (PMulti m) /\
  index_duplicate_pointers (get_pds3_pointers o m) m ps = Err IndexError.
Proof.
  exists [($"^T", PStr $"1"); ($"^T", PStr $"2"); ($"T", PMulti []); ($"T", PMulti []); ($"T", PMulti [])].
  eexists. intros o. split; [reflexivity|]. destruct o; vm_compute; reflexivity.
Qed.
Print Assumptions C07_more_blocks_than_pointers_refuted.
(** Duplicate pointers without object blocks: the parameter list gains names
    that are not in the mapping. *)
Theorem C07_params_out_of_step_refuted : exists m ps m' ps', forall o,
  ps = keys_post (PMulti m) /\
  index_duplicate_pointers (get_pds3_pointers o m) m ps = Ok (m', ps') /\
  In $"T_1" ps' /\ ~ In $"T_1" (keys_post (PMulti m')).
Proof.
  exists [($"^T", PStr $"1"); ($"^T", PStr $"2")].
  eexists; eexists; eexists. intros o. split; [reflexivity|].
  split; [destruct o; vm_compute; reflexivity|].
  split; [cbn; tauto|]. cbn. intros [E|[E|[]]]; discriminate.
Qed.
Print Assumptions C07_params_out_of_step_refuted.
(** A pointer that already carries the new name: two keys collide. *)
Theorem C07_name_clash_refuted : exists m m' ps', forall o,
  index_duplicate_pointers (get_pds3_pointers o m) m (keys_post (PMulti m)) = Ok (m', ps') /\
  occurrences $"^T_0" (keys_post (PMulti m')) = 2%nat.
Proof.
  exists [($"^T", PStr $"1"); ($"^T", PStr $"2"); ($"^T_0", PStr $"3")].
  eexists; eexists. intros o. split; [destruct o; vm_compute; reflexivity|reflexivity].
Qed.
Print Assumptions C07_name_clash_refuted.

(** * C08 *)
(** On object names (no caret) depointerize undoes pointerize, on pointer names
    pointerize undoes depointerize. *)
Theorem C08_inverse : forall t,
  (~ is_pointer t -> depointerize (pointerize t) = t /\ pointerize t = $"^" ++ t) /\
  (is_pointer t -> ~ is_pointer (object_name t) ->
     pointerize (depointerize t) = t /\ depointerize t = object_name t).
Proof.
  intros t. split.
  - intros H. apply not_pointer in H. unfold pointerize. rewrite H. split; reflexivity.
  - intros [u ->] H. change (object_name ($"^" ++ u)) with u in *. apply not_pointer in H.
    rewrite depointerize_pointer. unfold pointerize. rewrite H. split; reflexivity.
Qed.
Print Assumptions C08_inverse.
Theorem C08_idempotent : forall t,
  pointerize (pointerize t) = pointerize t /\
  (~ is_pointer (object_name t) -> depointerize (depointerize t) = depointerize t) /\
  is_pointer (pointerize t).
Proof.
  intros t. unfold pointerize, depointerize. destruct (startswith $"^" t) eqn:E.
  - rewrite E. split; [reflexivity|]. apply startswith_iff in E as [u ->]. split.
    + intros H. change (object_name ($"^" ++ u)) with u in *. apply not_pointer in H.
      change (skipn 1 ($"^" ++ u)) with u. now rewrite H.
    + now exists u.
  - split; [reflexivity|]. rewrite E. split; [reflexivity|]. now exists t.
Qed.
Print Assumptions C08_idempotent.
Example C08_meets : ~ is_pointer $"IMAGE" /\ is_pointer $"^IMAGE" /\ ~ is_pointer (object_name $"^IMAGE").
Proof. repeat split; try (intros [t E]; discriminate). now exists $"IMAGE". Qed.

(** * C56: the whole of PVL reading *)
(** A label text in the written form of C03, without comments, without duplicate
    pointers (or with de-duplication switched off) is read as the mapping it
    denotes, each value interpreted in place. *)
Theorem C56_label_read : forall lit o es lss dedup, tame lit ->
  wf_label es -> Forall2 writes (label_statements es) lss ->
  uncommented (text_of_lines (concat lss)) ->
  (dedup = true -> forall p, ~ renamed_pointer (flat_map completed_keys es) p) ->
  exists m,
    parse_pvl lit o (text_of_lines (concat lss)) dedup = Ok (m, flat_map completed_keys es) /\
    same_shape (fun v v' => exists s, v = PStr s /\ literalize lit s = Ok v')
               (PMulti (denote es)) (PMulti m).
Proof. exact parse_pvl_plain. Qed.
Print Assumptions C56_label_read.
(** ... and with duplicate pointers, the same up to the renaming of C07. *)
Theorem C56_label_read_deduplicated : forall lit o es lss, tame lit ->
  wf_label es -> Forall2 writes (label_statements es) lss ->
  uncommented (text_of_lines (concat lss)) ->
  no_clash (flat_map completed_keys es) -> blocks_match (flat_map completed_keys es) ->
  exists m mi ps T,
    parse_pvl lit o (text_of_lines (concat lss)) true = Ok (m, ps) /\
    (forall k, In k T <-> renamed_key (flat_map completed_keys es) k) /\
    keys_post (PMulti mi) = numbered T (flat_map completed_keys es) /\
    skeleton (PMulti mi) = skeleton (PMulti (denote es)) /\
    same_shape (fun v v' => exists s, v = PStr s /\ literalize lit s = Ok v')
               (PMulti mi) (PMulti m) /\
    Permutation ps (keys_post (PMulti mi)).
Proof. exact parse_pvl_whole. Qed.
Print Assumptions C56_label_read_deduplicated.

(** * C55: quantities *)
(** A value written  number <UNITS>,  alone or as an item of a (..) list beside
    other values, is read as {value: number, units: UNITS}; the other items keep
    their own meaning. *)
Theorem C55_quantities : forall lit items vs open close,
  Forall wf_qitem items -> Exists is_quantity items ->
  (open = [] /\ close = [] \/ open = $"(" /\ close = $")") ->
  let text := open ++ join $"," (map qtext items) ++ close in
  (lit text = Err SyntaxError \/ lit text = Err ValueError) ->
  Forall2 (qmeaning (fun s v => literalize lit s = Ok v)) items vs ->
  literalize lit text = Ok (match vs with [v] => v | _ => PTuple vs end).
Proof. exact quantity_statement. Qed.
Print Assumptions C55_quantities.
Definition c55_lit (s : str) : res pv :=
  if str_eqb s $"600" then Ok (PInt 600)
  else if str_eqb s $"""A.DAT""" then Ok (PStr $"A.DAT") else Err SyntaxError.
Example C55_meets :
  let items := [Plain $"""A.DAT"""; Quantity 1 $"600" 1 $"BYTES" 0] in
  let vs := [PStr $"A.DAT"; PDict [($"value", PInt 600); ($"units", PStr $"BYTES")]] in
  Forall wf_qitem items /\ Exists is_quantity items /\
  Forall2 (qmeaning (fun s v => literalize c55_lit s = Ok v)) items vs /\
  $"(" ++ join $"," (map qtext items) ++ $")" = $"(""A.DAT"", 600 <BYTES>)".
Proof.
  cbn zeta. split; [|split; [|split]].
  - constructor; [|constructor; [|constructor]].
    + split; [discriminate|]. intros c Hin. vm_compute in Hin.
      repeat (destruct Hin as [<-|Hin]; [repeat split; discriminate|]). contradiction.
    + split.
      * apply NT_plain; [discriminate|]. repeat constructor; reflexivity.
      * intros c Hin. vm_compute in Hin.
        repeat (destruct Hin as [<-|Hin]; [repeat split; discriminate|]). contradiction.
  - apply Exists_cons_tl. now apply Exists_cons_hd.
  - constructor; [|constructor; [|constructor]].
    + apply QM_plain. reflexivity.
    + apply QM_quantity; vm_compute; reflexivity.
  - reflexivity.
Qed.
(** A list of unquoted words is the words in order, without the blanks around them *)
Theorem C55_words : forall lit items o c, items <> [] -> Forall wf_word items ->
  (o = "("%char /\ c = ")"%char \/ o = "{"%char /\ c = "}"%char) ->
  let text := o :: join $"," (map word_text items) ++ [c] in
  (lit text = Err SyntaxError \/ lit text = Err ValueError) ->
  literalize lit text = Ok (if Ascii.eqb o "{"%char then PSet (map PStr (map word_of items)) else PTuple (map PStr (map word_of items))).
Proof. exact words_read. Qed.
Print Assumptions C55_words.
Example C55_words_meets :
  let items := [(0%nat, $"RED", 1%nat); (2%nat, $"NEAR IR", 0%nat)] in
  Forall wf_word items /\ "("%char :: join $"," (map word_text items) ++ $")" = $"(RED ,  NEAR IR)" /\ map word_of items = [$"RED"; $"NEAR IR"].
Proof.
  cbn zeta. split; [|split; reflexivity].
  repeat constructor; try (intros t E; destruct t as [|? [|? [|? [|? [|? [|? [|? [|? ?]]]]]]]]; discriminate E);
    (intros c I B; cbn in I, B; repeat (destruct I as [<-|I]; [repeat (destruct B as [B|B]; try discriminate B); exact B|]); exact I).
Qed.
Theorem C55_no_number : forall lit w u, In w [$"NULL"; $"UNK"; $"N/A"] -> number_text w /\
  (wf_qitem (Quantity 0 w 1 u 0) -> forall a b, literalize lit w = Ok a -> literalize lit u = Ok b ->
   (let text := w ++ $" <" ++ u ++ $">" in lit text = Err SyntaxError \/ lit text = Err ValueError) ->
   literalize lit (w ++ $" <" ++ u ++ $">") = Ok (PDict [($"value", a); ($"units", b)])).
Proof.
  intros lit w u Hw. split; [now apply NT_word|]. intros Wf a b Ha Hb Hl.
  assert (E : [] ++ join $"," (map qtext [Quantity 0 w 1 u 0]) ++ [] = w ++ $" <" ++ u ++ $">").
  { cbn [map join app qtext spaces repeat]. now rewrite !app_nil_r. }
  rewrite <- E. apply (quantity_statement lit [Quantity 0 w 1 u 0] [PDict [($"value", a); ($"units", b)]] [] []).
  - now constructor.
  - now constructor.
  - now left.
  - cbv zeta. rewrite E. exact Hl.
  - constructor; [|constructor]. now apply QM_quantity.
Qed.
Print Assumptions C55_no_number.
Example C55_exponent_meets : number_text $"-1.5E-3" /\ number_text $"UNK".
Proof.
  split; [|apply NT_word; cbn; auto].
  apply (NT_exponent $"-1.5" "E"%char $"-" $"3"); try discriminate; auto.
  all: repeat (constructor; [vm_compute; auto|]); constructor.
Qed.
