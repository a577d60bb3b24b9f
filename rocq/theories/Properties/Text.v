(** Property C70: headers, labels and text files. *)
From Verif.Base Require Import Py Val PyFacts.
From Verif.Model Require Import Pvl Files Position Trim Text.
From Verif.Spec Require Import Trim Dispatch Position Text.
From Verif.Properties Require Import Position Dispatch Trim.
Open Scope Z_scope.

Lemma dos_cle l (rest : str) : ~ In CR l -> cle (dos_line l ++ rest) = l ++ cle rest.
Proof.
  induction l as [|c l IH]; intros H; [reflexivity|]. unfold dos_line in *. cbn [flat_map].
  assert (Hl : ~ In CR l) by (intros ?; apply H; now right).
  assert (Hc : c <> CR) by (intros ->; apply H; now left).
  rewrite <- app_assoc. destruct (Ascii.eqb_spec c NL) as [->|Hn].
  - change ([CR; NL] ++ (flat_map (fun c : ascii => if Ascii.eqb c NL then [CR; NL] else [c]) l ++ rest))
      with (CR :: NL :: (flat_map (fun c : ascii => if Ascii.eqb c NL then [CR; NL] else [c]) l ++ rest)).
    cbn [cle app]. change (Ascii.eqb CR CR) with true. change (Ascii.eqb NL NL) with true. cbn match. now rewrite IH.
  - cbn [app cle]. destruct (Ascii.eqb_spec c CR); [contradiction|]. now rewrite IH.
Qed.
Lemma dos_lines_cle ls : Forall (fun l => ~ In CR l) ls -> cle (concat (map dos_line ls)) = concat ls.
Proof.
  induction ls as [|l ls IH]; intros H; [reflexivity|]. inversion H; subst. cbn [map concat].
  rewrite dos_cle by assumption. now rewrite IH.
Qed.
Lemma pick_eq : forall ls i s n, (0 <= i)%nat ->
  pick_lines (Z.of_nat i) (Z.of_nat s) (Z.of_nat s + Z.of_nat n) ls =
  map dos_line (firstn (s + n - Nat.max i s) (skipn (s - i) ls)).
Proof.
  induction ls as [|l ls IH]; intros i s n Hi; [cbn; now rewrite skipn_nil, firstn_nil|]. cbn [pick_lines].
  destruct (Z.leb_spec (Z.of_nat s + Z.of_nat n) (Z.of_nat i)) as [H|H].
  - replace (s + n - Nat.max i s)%nat with 0%nat by lia. now rewrite firstn_O.
  - replace (Z.of_nat i + 1) with (Z.of_nat (S i)) by lia. rewrite IH by lia.
    destruct (Z.leb_spec (Z.of_nat s) (Z.of_nat i)) as [H1|H1].
    + replace (s - i)%nat with 0%nat by lia. replace (s - S i)%nat with 0%nat by lia.
      replace (s + n - Nat.max i s)%nat with (S (s + n - Nat.max (S i) s)) by lia. reflexivity.
    + replace (s - i)%nat with (S (s - S i)) by lia. cbn [skipn app].
      replace (s + n - Nat.max i s)%nat with n by lia. replace (s + n - Nat.max (S i) s)%nat with n by lia. reflexivity.
Qed.
Lemma file_lines_line l s : ~ In NL l -> file_lines (l ++ NL :: s) = (l ++ [NL]) :: file_lines s.
Proof.
  induction l as [|c l IH]; intros H; [reflexivity|]. cbn [app file_lines].
  destruct (Ascii.eqb_spec c NL) as [->|_]; [destruct H; now left|].
  rewrite IH by (intros ?; apply H; now right). reflexivity.
Qed.
Lemma file_lines_last l : ~ In NL l -> file_lines l = match l with [] => [] | _ => [l] end.
Proof.
  induction l as [|c l IH]; intros H; [reflexivity|]. cbn [file_lines].
  destruct (Ascii.eqb_spec c NL) as [->|_]; [destruct H; now left|].
  rewrite IH by (intros ?; apply H; now right). now destruct l.
Qed.
Lemma concat_file_lines s : concat (file_lines s) = s.
Proof. apply (C16_lines s). Qed.
Lemma lt_lines (ls : list str) s n : (s + n < length ls)%nat -> lines_text ls s n = concat (map (fun l => l ++ [NL]) (firstn n (skipn s ls))).
Proof. intros H. unfold lines_text. now rewrite (proj2 (Nat.ltb_lt _ _) H). Qed.
Lemma ge_lines (ls : list str) s n : (length ls <= s + n)%nat -> lines_text ls s n = join [NL] (skipn s ls).
Proof. intros H. unfold lines_text. now rewrite (proj2 (Nat.ltb_ge _ _) H). Qed.
Lemma lines_text_eq : forall (ls : list str) s n, ls <> [] -> Forall (fun l : str => ~ In NL l) ls ->
  concat (firstn n (skipn s (file_lines (join [NL] ls)))) = lines_text ls s n.
Proof.
  induction ls as [|l ls IH]; intros s n Hne H; [congruence|]. inversion H as [|? ? H1 H2]; subst.
  destruct ls as [|l2 ls].
  - cbn [join]. rewrite file_lines_last by exact H1. unfold lines_text. cbn [length].
    destruct s as [|s].
    + cbn [skipn]. destruct (Nat.ltb_spec (0 + n) 1) as [Hn|Hn].
      * replace n with 0%nat by lia. reflexivity.
      * destruct n as [|n]; [lia|]. destruct l; cbn [firstn concat join]; rewrite ?firstn_nil; cbn [concat]; now rewrite ?app_nil_r.
    + destruct (Nat.ltb_spec (S s + n) 1) as [Hn|Hn]; [lia|].
      destruct l; cbn [skipn]; rewrite ?skipn_nil, ?firstn_nil; reflexivity.
  - assert (E : file_lines (join [NL] (l :: l2 :: ls)) = (l ++ [NL]) :: file_lines (join [NL] (l2 :: ls))).
    { change (join [NL] (l :: l2 :: ls)) with (l ++ NL :: join [NL] (l2 :: ls)). now apply file_lines_line. }
    rewrite E. destruct s as [|s].
    + cbn [skipn]. destruct n as [|n].
      * cbn [firstn concat]. unfold lines_text. cbn [skipn length]. now destruct (Nat.ltb_spec (0 + 0) (S (S (length ls)))); [|lia].
      * cbn [firstn concat]. change (firstn n (file_lines (join [NL] (l2 :: ls)))) with (firstn n (skipn 0 (file_lines (join [NL] (l2 :: ls))))).
        rewrite (IH 0%nat n ltac:(discriminate) H2).
        destruct (Nat.lt_ge_cases n (S (length ls))).
        -- rewrite !lt_lines by (cbn [length]; lia). reflexivity.
        -- rewrite !ge_lines by (cbn [length]; lia). cbn [skipn].
           change (join [NL] (l :: l2 :: ls)) with (l ++ NL :: join [NL] (l2 :: ls)). now rewrite <- app_assoc.
    + cbn [skipn]. rewrite (IH s n ltac:(discriminate) H2).
      destruct (Nat.lt_ge_cases (s + n) (S (length ls))).
      * rewrite !lt_lines by (cbn [length]; lia). reflexivity.
      * rewrite !ge_lines by (cbn [length]; lia). reflexivity.
Qed.
Lemma reads_lines s ls : reads_as s ls -> ls <> [] /\ Forall (fun l => ~ In NL l) ls.
Proof. intros H. split; [inversion H; discriminate|]. induction H; constructor; auto. Qed.
Lemma read_header_rows file ls start n : reads_as file ls ->
  read_header file (mkPos (Z.of_nat start) (PInt (Z.of_nat n)) true) = Ok (PStr (lines_text ls start n)).
Proof.
  intros H. destruct (reads_lines _ _ H) as [Hne Hnl].
  unfold read_header, load_header. cbn [p_length p_as_rows p_start rbind canonicalize_line_endings].
  pose proof (pick_eq (decoded_lines file) 0 start n (le_n _)) as P. cbn [Z.of_nat] in P. rewrite P.
  replace (start + n - Nat.max 0 start)%nat with n by lia. rewrite Nat.sub_0_r.
  rewrite dos_lines_cle.
  - unfold decoded_lines. rewrite (cle_reads _ _ H). now rewrite lines_text_eq.
  - unfold decoded_lines. apply Forall_forall. intros l Hl Hcr.
    apply (cle_no_cr _ file (le_n _)). rewrite <- (concat_file_lines (cle file)). apply in_concat. exists l. split; [|exact Hcr].
    rewrite <- (firstn_skipn start (file_lines (cle file))). apply in_or_app. right.
    rewrite <- (firstn_skipn n (skipn start (file_lines (cle file)))). apply in_or_app. now left.
Qed.

(** *** C70 A header placed by lines: the text of exactly the lines the label gives it (the
    pointer's line and as many as RECORDS or ROWS), whatever line endings the file uses, with
    line feeds between them. *)
Theorem C70_header_rows : forall product ptype m fn k name start_byte n file ls,
  stream_table product ptype name (PTuple [fn; PInt k]) m -> 0 <= start_byte -> 1 <= k -> says_records m (Some n) -> 0 <= n ->
  reads_as file ls ->
  load_header_object product ptype (Some m) (PTuple [fn; PInt k]) name start_byte file =
    Ok (PStr (lines_text ls (Z.to_nat (k - 1)) (Z.to_nat n))).
Proof.
  intros product ptype m fn k name start_byte n file ls Hst Hs Hk Hr Hn Hls. unfold load_header_object, table_position.
  destruct (Z.ltb_spec start_byte 0); [lia|].
  destruct (C50_stream_iff product ptype name (PTuple [fn; PInt k]) m ltac:(discriminate)) as (r & -> & H1).
  rewrite (proj2 H1 Hst). cbn [rbind]. unfold table_row_position. cbn [nth_error rbind].
  rewrite (records_iff _ _ Hr). cbn [as_value is_str andb rbind].
  rewrite <- (read_header_rows file ls _ _ Hls). now rewrite !Z2Nat.id by lia.
Qed.
Print Assumptions C70_header_rows.
Example C70_header_rows_meets :
  let m := [($"RECORDS", PInt 2)] in let file := $"one" ++ [CR; NL] ++ $"two" ++ [CR] ++ $"three" ++ [NL] ++ $"rest" in
  stream_table PNone (PStr $"STREAM") $"SPREADSHEET_HEADER" (PTuple [PStr $"a.tab"; PInt 2]) m /\ says_records m (Some 2) /\
  reads_as file [$"one"; $"two"; $"three"; $"rest"] /\
  load_header_object PNone (PStr $"STREAM") (Some m) (PTuple [PStr $"a.tab"; PInt 2]) $"SPREADSHEET_HEADER" 0 file = Ok (PStr ($"two" ++ [NL] ++ $"three" ++ [NL])).
Proof.
  cbv zeta. split; [|split; [apply by_records; reflexivity|split]].
  - destruct (C50_stream_iff PNone (PStr $"STREAM") $"SPREADSHEET_HEADER" (PTuple [PStr $"a.tab"; PInt 2]) [($"RECORDS", PInt 2)] ltac:(discriminate)) as (r & E & H).
    apply H. vm_compute in E. congruence.
  - assert (N : forall l : str, forallb (fun c => negb (Ascii.eqb c CR) && negb (Ascii.eqb c NL)) l = true -> ~ In CR l /\ ~ In NL l).
    { intros l Hl. rewrite forallb_forall in Hl. split; intros Hi; specialize (Hl _ Hi); discriminate. }
    assert (N1 := N $"one" eq_refl). assert (N2 := N $"two" eq_refl). assert (N3 := N $"three" eq_refl). assert (N4 := N $"rest" eq_refl).
    apply (reads_crlf $"one"); [apply N1..|]. apply (reads_cr $"two"); [apply N2..|discriminate|].
    apply (reads_lf $"three"); [apply N3..|]. apply reads_last; apply N4.
  - vm_compute. reflexivity.
Qed.
(** A header placed by bytes: exactly the bytes the label gives it, with line feeds for line
    endings, if they are no more than 80000. *)
Theorem C70_header_bytes : forall product ptype m target name start len file,
  0 <= start -> target <> PTuple [] -> ~ stream_table product ptype name target m -> says_length product m (Some len) ->
  0 <= len <= 80000 ->
  load_header_object product ptype (Some m) target name start file =
    Ok (canonicalize_line_endings (PStr (bytes_of file (Z.to_nat start) (Z.to_nat len)))).
Proof.
  intros product ptype m target name start len file Hs Ht Hn Hl Hlen. unfold load_header_object.
  destruct (C16_extent product ptype m target name start (Some len) Hs Ht Hn Hl ltac:(left; discriminate)) as (p & -> & H1 & H2 & H3).
  cbn [rbind]. unfold read_header, load_header. rewrite H2, H3, H1. cbn [as_value].
  destruct (Z.ltb_spec start 0); [lia|]. rewrite Z.min_l by lia. destruct (Z.ltb_spec len 0); [lia|]. reflexivity.
Qed.
Print Assumptions C70_header_bytes.
Example C70_header_bytes_meets :
  let m := [($"BYTES", PInt 8)] in let file := $"binary!!NAME,X" ++ [CR; NL] ++ $"1,2" in
  ~ stream_table (PInt 512) (PStr $"FIXED_LENGTH") $"HEADER" (PInt 1) m /\ says_length (PInt 512) m (Some 8) /\
  load_header_object (PInt 512) (PStr $"FIXED_LENGTH") (Some m) (PInt 1) $"HEADER" 8 file = Ok (PStr ($"NAME,X" ++ [NL])).
Proof.
  cbv zeta. split; [|split; [apply by_bytes; reflexivity|reflexivity]].
  intros (_ & _ & H & _). discriminate.
Qed.
(** Longer headers are cut at 80000 bytes, silently. *)
Theorem C70_long_header_refuted : forall product ptype m target name start len file,
  0 <= start -> target <> PTuple [] -> ~ stream_table product ptype name target m -> says_length product m (Some len) ->
  80000 < len ->
  load_header_object product ptype (Some m) target name start file =
    Ok (canonicalize_line_endings (PStr (bytes_of file (Z.to_nat start) (N.to_nat 80000)))).
Proof.
  intros product ptype m target name start len file Hs Ht Hn Hl Hlen. unfold load_header_object.
  destruct (C16_extent product ptype m target name start (Some len) Hs Ht Hn Hl ltac:(left; discriminate)) as (p & -> & H1 & H2 & H3).
  cbn [rbind]. unfold read_header, load_header. rewrite H2, H3, H1. cbn [as_value].
  destruct (Z.ltb_spec start 0); [lia|]. rewrite Z.min_r by lia. cbn [Z.ltb Z.compare]. unfold bytes_of.
  rewrite <- Z_N_nat. reflexivity.
Qed.
Print Assumptions C70_long_header_refuted.
(** A header whose length the label does not say is refused. *)
Theorem C70_no_length : forall product ptype m target name start,
  0 <= start -> target <> PTuple [] -> ~ stream_table product ptype name target m -> says_length product m None ->
  mentions name $"HEADER" -> forall file,
  load_header_object product ptype (Some m) target name start file = Err NotImplementedError_.
Proof.
  intros product ptype m target name start Hs Ht Hn Hl Hh file. unfold load_header_object, table_position.
  destruct (Z.ltb_spec start 0); [lia|].
  destruct (C50_stream_iff product ptype name target m Ht) as (r & -> & Hr). cbn [rbind].
  destruct r; [destruct Hn; now apply Hr|]. rewrite (length_of _ _ _ Hl). cbn [rbind as_value].
  unfold mentions in Hh. assert (C : contains $"HEADER" name = true) by now apply contains_iff. rewrite C. reflexivity.
Qed.
Print Assumptions C70_no_length.

(** *** Text files: the text of the file, or of each of them in order, lines ended by line
    feeds; PDF files give no text, a missing file FileNotFoundError. *)
Definition text_of (files : str -> option str) (fn : str) (r : res pv) : Prop :=
  (has_extension [$".pdf"] fn /\ r = Ok PNone) \/
  (~ has_extension [$".pdf"] fn /\ files fn = None /\ r = Err FileNotFoundError) \/
  (~ has_extension [$".pdf"] fn /\ exists content ls, files fn = Some content /\ reads_as content ls /\ r = Ok (PStr (join [NL] ls))).
Lemma ignore_spec files fn : text_of files fn (ignore_if_pdf files fn).
Proof.
  unfold text_of, ignore_if_pdf. destruct (looks_like_this_kind_of_file fn [$".pdf"]) eqn:E.
  - left. split; [now apply ext_iff|reflexivity].
  - assert (N : ~ has_extension [$".pdf"] fn) by (intros H; apply ext_iff in H; congruence).
    right. destruct (files fn) as [c|]; [right|left]; (split; [exact N|]); [|now split].
    destruct (reads_total _ c (le_n _)) as [ls H]. exists c, ls. split; [reflexivity|]. split; [exact H|].
    cbn [canonicalize_line_endings]. do 2 f_equal. rewrite (cle_reads _ _ H).
    rewrite <- (app_nil_r (join [NL] ls)) at 1. rewrite cle_no_cr_prefix; [apply app_nil_r|].
    rewrite <- (cle_reads _ _ H). apply (cle_no_cr _ c (le_n _)).
Qed.
Theorem C70_text : forall files fn, text_of files fn (read_text files (PStr fn)).
Proof. intros. apply ignore_spec. Qed.
Print Assumptions C70_text.
Theorem C70_texts : forall files fns,
  match read_text files (PTuple (map PStr fns)) with
  | Ok v => exists vs, v = PTuple vs /\ Forall2 (fun fn v => text_of files fn (Ok v)) fns vs
  | Err e => e = FileNotFoundError /\ exists fn, In fn fns /\ files fn = None
  end.
Proof.
  intros files fns. unfold read_text.
  assert (H : match rmap (fun v => match v with PStr s => ignore_if_pdf files s | _ => Err TypeError end) (map PStr fns) with
              | Ok vs => Forall2 (fun fn v => text_of files fn (Ok v)) fns vs
              | Err e => e = FileNotFoundError /\ exists fn, In fn fns /\ files fn = None
              end).
  { induction fns as [|fn fns IH]; [constructor|]. cbn [map rmap]. pose proof (ignore_spec files fn) as Hf.
    destruct (ignore_if_pdf files fn) as [v|e]; cbn [rbind].
    - destruct (rmap _ (map PStr fns)) as [vs|e]; cbn [rbind].
      + constructor; assumption.
      + destruct IH as [-> (f & Hi & Hn)]. split; [reflexivity|]. exists f. split; [now right|exact Hn].
    - destruct Hf as [[_ Hf]|[(_ & Hf & He)|(_ & c & ls & _ & _ & Hf)]]; try discriminate.
      injection He as ->. split; [reflexivity|]. exists fn. split; [now left|exact Hf]. }
  destruct (rmap _ (map PStr fns)) as [vs|e]; cbn [rbind]; [|exact H]. exists vs. now split.
Qed.
Print Assumptions C70_texts.
Example C70_texts_meets :
  let files := fun fn => if str_eqb fn $"a.txt" then Some ($"x" ++ [CR] ++ $"y") else None in
  read_text files (PTuple (map PStr [$"a.txt"; $"b.PDF"])) = Ok (PTuple [PStr ($"x" ++ [NL] ++ $"y"); PNone]) /\
  has_extension [$".pdf"] $"b.PDF" /\ read_text files (PStr $"c.txt") = Err FileNotFoundError.
Proof. cbv zeta. split; [reflexivity|]. split; [|reflexivity]. apply ext_iff. reflexivity. Qed.
(** The LABEL of a product is the text of its label, lines ended by line feeds. *)
Theorem C70_label : forall csize max strict raise_ file t ls,
  trim_bytes csize max strict raise_ file = Ok t -> reads_as t ls ->
  read_label Ok csize max strict raise_ file = Ok (PStr (join [NL] ls)).
Proof. intros csize max strict raise_ file t ls H Hr. unfold read_label, trim_label. rewrite H. cbn. now rewrite (cle_reads _ _ Hr). Qed.
Print Assumptions C70_label.
(** an attached label followed by data is cut at its END line *)
Theorem C70_attached_label : forall csize max strict raise_ head chunks a m b rest ls,
  (0 < csize)%nat -> length head = 20%nat ->
  (strict = true -> forallb is_ascii_byte head = true) ->
  Forall (fun c => length c = csize /\ no_ending c) chunks ->
  (csize * length chunks < max)%nat ->
  (length (a ++ m ++ b) = csize \/ (length (a ++ m ++ b) < csize)%nat /\ rest = []) ->
  first_marker a m b -> reads_as (head ++ concat chunks ++ a ++ m) ls ->
  read_label Ok csize max strict raise_ (head ++ concat chunks ++ a ++ m ++ b ++ rest) = Ok (PStr (join [NL] ls)).
Proof.
  intros csize max strict raise_ head chunks a m b rest ls H1 H2 H3 H4 H5 H6 H7 Hr.
  apply C70_label with (t := head ++ concat chunks ++ a ++ m); [|exact Hr]. now apply C09_ends_at_first_marker.
Qed.
Print Assumptions C70_attached_label.
Example C70_label_meets :
  read_label Ok 1000 1000 true false ($"PDS_VERSION_ID = PDS3" ++ [CR; NL] ++ $"A = 1" ++ [CR; NL] ++ $"END" ++ [CR; NL] ++ $"data") =
  Ok (PStr (join [NL] [$"PDS_VERSION_ID = PDS3"; $"A = 1"; $"END"; []])).
Proof. vm_compute. reflexivity. Qed.
