(** Proofs about text tables. *)
From Coq Require Import QArith.
From Verif.Base Require Import Py PyFacts Val Numpy Float.
From Verif.Model Require Import Types Scaling Pds4Types Pds4Values Table Position Array TableValues TextTable.
From Verif.Spec Require Import Types Pds4Values Table TableValues TextTable.
From Verif.Spec Require Pvl Scaling.
From Verif.Proofs Require Import Table Pds4Fields TableValues.
Open Scope Z_scope.

(** ** The tokenizer *)
Section Tokens.
Variable sep : ascii.
Hypothesis sep_nl : sep <> NL.
Hypothesis sep_cr : sep <> CR.
Hypothesis sep_quote : sep <> QUOTE.
Notation run := (fold_left (step sep)).
Lemma eqb_no (a b : ascii) : a <> b -> Ascii.eqb a b = false.
Proof. apply Ascii.eqb_neq. Qed.
(** a field has been read, but not its end *)
Definition holding (f : str) (row : list str) (rows : list (list str)) (k : tok) : Prop :=
  t_row k = row /\ t_rows k = rows /\ rev (t_cur k) = f /\ In (t_state k) [StartField; InField; QuoteInQuoted].
Lemma hold_sep f row rows k : holding f row rows k -> step sep k sep = mkTok StartField [] (f :: row) rows.
Proof.
  destruct k as [st cur r rs]. intros (H1 & H2 & H3 & H4). cbn [t_row t_rows t_cur t_state] in *. subst.
  cbn in H4. destruct H4 as [<-|[<-|[<-|[]]]]; unfold step, step_field, step_in_field, end_field; cbn [t_state t_row t_rows t_cur];
    rewrite !(eqb_no sep) by assumption; now rewrite Ascii.eqb_refl.
Qed.
Lemma hold_end f row rows k : holding f row rows k -> step sep k NL = mkTok StartRecord [] [] (rev (f :: row) :: rows).
Proof.
  destruct k as [st cur r rs]. intros (H1 & H2 & H3 & H4). cbn [t_row t_rows t_cur t_state] in *. subst.
  cbn in H4. destruct H4 as [<-|[<-|[<-|[]]]]; reflexivity.
Qed.
Lemma hold_cr f row rows k : holding f row rows k -> step sep k CR = mkTok EatCrnl [] (f :: row) rows.
Proof.
  destruct k as [st cur r rs]. intros (H1 & H2 & H3 & H4). cbn [t_row t_rows t_cur t_state] in *. subst.
  cbn in H4. destruct H4 as [<-|[<-|[<-|[]]]]; reflexivity.
Qed.
Lemma hold_eof f row rows k : holding f row rows k -> at_eof k = Some (rev (rev (f :: row) :: rows)).
Proof.
  destruct k as [st cur r rs]. intros (H1 & H2 & H3 & H4). cbn [t_row t_rows t_cur t_state] in *. subst.
  cbn in H4. destruct H4 as [<-|[<-|[<-|[]]]]; reflexivity.
Qed.
Lemma in_field_run f row rows : Forall (in_field sep) f -> forall cur, run f (mkTok InField cur row rows) = mkTok InField (rev f ++ cur) row rows.
Proof.
  induction 1 as [|c f (H1 & H2 & H3) Hf IH]; intros cur; [reflexivity|]. cbn [fold_left]. unfold step at 2. cbn [t_state]. unfold step_in_field, push.
  rewrite !eqb_no by assumption. cbn [t_cur t_row t_rows]. rewrite IH. cbn [rev]. now rewrite <- app_assoc.
Qed.
Lemma plain_run f row rows : Forall (in_field sep) f -> no_quote_first f -> holding f row rows (run f (mkTok StartField [] row rows)).
Proof.
  intros H Hq. destruct f as [|c f]; [repeat split; now left|]. cbn [fold_left]. inversion H as [|? ? (H1 & H2 & H3) Hf]; subst.
  unfold step at 2. cbn [t_state]. unfold step_field, push. assert (Hc : c <> QUOTE) by (intros ->; now apply (Hq f)). rewrite !eqb_no by assumption.
  cbn [t_cur t_row t_rows]. rewrite in_field_run by assumption. unfold holding. cbn [t_row t_rows t_cur t_state]. rewrite rev_app_distr, rev_involutive. cbn. repeat split; auto.
Qed.
Lemma quoted_run f row rows : forall cur, run (doubled f) (mkTok InQuoted cur row rows) = mkTok InQuoted (rev f ++ cur) row rows.
Proof.
  induction f as [|c f IH]; intros cur; [reflexivity|]. unfold doubled. cbn [flat_map]. rewrite fold_left_app.
  destruct (Ascii.eqb c quote) eqn:E.
  - apply Ascii.eqb_eq in E as ->. cbn [fold_left]. change (step sep (step sep (mkTok InQuoted cur row rows) quote) quote) with (mkTok InQuoted (quote :: cur) row rows).
    fold (doubled f). rewrite IH. cbn [rev]. now rewrite <- app_assoc.
  - cbn [fold_left]. unfold step at 2. cbn [t_state]. change QUOTE with quote. rewrite E. unfold push. cbn [t_cur t_row t_rows].
    fold (doubled f). rewrite IH. cbn [rev]. now rewrite <- app_assoc.
Qed.
Lemma field_run f w row rows : written_field sep f w -> holding f row rows (run w (mkTok StartField [] row rows)).
Proof.
  intros [f' H Hq|f' g Hf Hg Hq]; [now apply plain_run|]. cbn [app fold_left]. change (step sep (mkTok StartField [] row rows) quote) with (mkTok InQuoted [] row rows).
  rewrite fold_left_app, quoted_run, app_nil_r. cbn [fold_left]. change (step sep (mkTok InQuoted (rev f') row rows) quote) with (mkTok QuoteInQuoted (rev f') row rows).
  destruct g as [|c g]; [rewrite app_nil_r; cbn [fold_left]; repeat split; [cbn [t_cur]; apply rev_involutive|cbn; auto]|].
  inversion Hg as [|? ? (H1 & H2 & H3) Hg']; subst. cbn [fold_left]. unfold step at 2. cbn [t_state]. assert (Hc : c <> QUOTE) by (intros ->; now apply (Hq g)). rewrite !eqb_no by assumption.
  unfold push. cbn [t_cur t_row t_rows]. rewrite in_field_run by assumption. unfold holding. cbn [t_row t_rows t_cur t_state]. rewrite rev_app_distr. cbn [rev]. rewrite !rev_involutive, <- app_assoc. cbn. repeat split; auto.
Qed.
Lemma row_run fields ws : Forall2 (written_field sep) fields ws -> fields <> [] -> forall row rows,
  exists f row', rev row ++ fields = rev (f :: row') /\ holding f row' rows (run (join [sep] ws) (mkTok StartField [] row rows)).
Proof.
  induction 1 as [|f w fields ws Hf Hfs IH]; intros Hne row rows; [contradiction|]. destruct Hfs as [|f2 w2 fields ws H2 Hfs].
  - exists f, row. split; [reflexivity|]. now apply field_run.
  - destruct (IH ltac:(discriminate) (f :: row) rows) as (fl & row' & E & Hh). exists fl, row'. split; [rewrite <- E; cbn [rev]; now rewrite <- app_assoc|].
    change (join [sep] (w :: w2 :: ws)) with (w ++ [sep] ++ join [sep] (w2 :: ws)). rewrite fold_left_app. cbn [app fold_left].
    rewrite (hold_sep f row rows) by now apply field_run. exact Hh.
Qed.
(** ** Lines *)
Lemma blank_no c : blank_in sep c -> Ascii.eqb c NL = false /\ Ascii.eqb c CR = false /\ Ascii.eqb c QUOTE = false /\ Ascii.eqb c sep = false /\ blank_but sep c = true.
Proof. intros [[->| ->] H]; unfold blank_but; rewrite (eqb_no _ sep) by exact H; auto. Qed.
Lemma not_blank c : ~ blank_in sep c -> blank_but sep c = false.
Proof.
  intros H. unfold blank_but. apply andb_false_iff. destruct (Ascii.eqb c sep) eqn:E; [now right|left]. apply orb_false_iff.
  apply Ascii.eqb_neq in E. split; apply Ascii.eqb_neq; intros ->; apply H; split; auto.
Qed.
Lemma white_run w rows : Forall (blank_in sep) w -> forall cur, run w (mkTok WhitespaceLine cur [] rows) = mkTok WhitespaceLine (rev w ++ cur) [] rows.
Proof.
  induction 1 as [|c w H Hw IH]; intros cur; [reflexivity|]. destruct (blank_no c H) as (H1 & H2 & _ & _ & H5). cbn [fold_left]. unfold step at 2. cbn [t_state].
  rewrite H1, H2, H5. unfold push. cbn [t_cur t_row t_rows]. rewrite IH. cbn [rev]. now rewrite <- app_assoc.
Qed.
Lemma blank_run w rows : Forall (blank_in sep) w -> run w (mkTok StartRecord [] [] rows) = match w with [] => mkTok StartRecord [] [] rows | _ => mkTok WhitespaceLine (rev w) [] rows end.
Proof.
  intros H. destruct w as [|c w]; [reflexivity|]. inversion H as [|? ? Hc Hw]; subst. destruct (blank_no c Hc) as (H1 & H2 & _ & _ & H5).
  cbn [fold_left]. unfold step at 2. cbn [t_state]. unfold step_record. rewrite H1, H2, H5. unfold push. cbn [t_cur t_row t_rows]. now rewrite white_run.
Qed.
Lemma blank_line_run w e rows : Forall (blank_in sep) w -> line_end e -> run (w ++ e) (mkTok StartRecord [] [] rows) = mkTok StartRecord [] [] rows.
Proof. intros H He. rewrite fold_left_app, blank_run by exact H. destruct w; destruct He as [->| ->]; reflexivity. Qed.
Lemma first_nonblank w : ~ Forall (blank_in sep) w -> exists b c w', w = b ++ c :: w' /\ Forall (blank_in sep) b /\ ~ blank_in sep c.
Proof.
  induction w as [|c w IH]; intros H; [now destruct H|]. destruct (blank_but sep c) eqn:E.
  - assert (Hc : blank_in sep c).
    { unfold blank_but in E. apply andb_true_iff in E as [E1 E2]. apply orb_true_iff in E1. rewrite !Ascii.eqb_eq in E1. apply negb_true_iff, Ascii.eqb_neq in E2. split; auto. }
    destruct IH as (b & d & w' & -> & H1 & H2); [intros Hw; apply H; now constructor|]. exists (c :: b), d, w'. split; [reflexivity|]. split; [now constructor|exact H2].
  - exists [], c, w. split; [reflexivity|]. split; [constructor|]. intros Hc. now destruct (blank_no c Hc) as (_ & _ & _ & _ & ?); rewrite E in *.
Qed.
Lemma record_run w rows : ~ Forall (blank_in sep) w -> Forall in_line w -> run w (mkTok StartRecord [] [] rows) = run w (mkTok StartField [] [] rows).
Proof.
  intros H Hl. destruct (first_nonblank w H) as (b & c & w' & -> & Hb & Hc). apply Forall_app in Hl as [_ Hl]. inversion Hl as [|? ? [L1 L2] _]; subst.
  rewrite !fold_left_app, blank_run by exact Hb. cbn [fold_left]. f_equal.
  destruct b as [|d b].
  - cbn [fold_left]. unfold step. cbn [t_state]. unfold step_record. rewrite !eqb_no by assumption. rewrite not_blank by exact Hc. reflexivity.
  - inversion Hb as [|? ? Hd Hb']; subst. destruct (blank_no d Hd) as (D1 & D2 & D3 & D4 & _).
    cbn [fold_left]. replace (step sep (mkTok StartField [] [] rows) d) with (mkTok InField [d] [] rows) by (unfold step; cbn [t_state]; unfold step_field; now rewrite D1, D2, D3, D4).
    rewrite in_field_run.
    + cbn [rev]. unfold step. cbn [t_state]. rewrite !eqb_no by assumption. rewrite not_blank by exact Hc. unfold step_in_field. rewrite !eqb_no by assumption. reflexivity.
    + eapply Forall_impl; [|exact Hb']. intros x Hx. destruct (blank_no x Hx) as (X1 & X2 & _ & X4 & _). repeat split; now apply Ascii.eqb_neq.
Qed.
Lemma doubled_in_line f : Forall in_line f -> Forall in_line (doubled f).
Proof. induction 1 as [|c f H Hf IH]; [constructor|]. unfold doubled. cbn [flat_map]. apply Forall_app. split; [|exact IH]. destruct (Ascii.eqb c quote); [apply Forall_cons; [|apply Forall_cons; [|apply Forall_nil]]; split; discriminate|apply Forall_cons; [exact H|apply Forall_nil]]. Qed.
Lemma field_in_line f w : written_field sep f w -> Forall in_line w.
Proof.
  assert (F : forall g, Forall (in_field sep) g -> Forall in_line g) by (intros g; apply Forall_impl; now intros c [_ H]).
  intros [f' H _|f' g Hf Hg _]; [now apply F|]. cbn [app]. constructor; [split; discriminate|]. apply Forall_app. split; [now apply doubled_in_line|]. constructor; [split; discriminate|now apply F].
Qed.
Lemma join_in_line ws : Forall (Forall in_line) ws -> Forall in_line (join [sep] ws).
Proof.
  induction 1 as [|w ws H Hs IH]; [constructor|]. destruct ws as [|w2 ws]; [exact H|]. change (join [sep] (w :: w2 :: ws)) with (w ++ [sep] ++ join [sep] (w2 :: ws)).
  apply Forall_app. split; [exact H|]. constructor; [split; assumption|exact IH].
Qed.
Lemma row_in_line row w : written_row sep row w -> Forall in_line w.
Proof. intros [fields ws _ H _]. apply join_in_line. induction H; constructor; [eapply field_in_line; eassumption|assumption]. Qed.
Lemma row_holds row w rows : written_row sep row w -> exists f row', row = rev (f :: row') /\ holding f row' rows (run w (mkTok StartRecord [] [] rows)).
Proof.
  intros H. pose proof (row_in_line _ _ H) as Hl. destruct H as [fields ws Hne Hws Hb]. rewrite record_run by assumption.
  destruct (row_run fields ws Hws Hne [] rows) as (f & row' & E & Hh). exists f, row'. split; [exact E|exact Hh].
Qed.
Lemma row_line_run row w e rows : written_row sep row w -> line_end e -> run (w ++ e) (mkTok StartRecord [] [] rows) = mkTok StartRecord [] [] (row :: rows).
Proof.
  intros H He. destruct (row_holds row w rows H) as (f & row' & -> & Hh). rewrite fold_left_app. destruct He as [->| ->]; cbn [fold_left].
  - now rewrite (hold_end f row' rows).
  - now rewrite (hold_cr f row' rows).
Qed.
Lemma crnl_run rows : run [CR; NL] (mkTok StartRecord [] [] rows) = mkTok StartRecord [] [] rows.
Proof. reflexivity. Qed.
Lemma lines_run lines rows : lines_hold sep lines rows -> forall rows0,
  at_eof (run (concat lines) (mkTok StartRecord [] [] rows0)) = Some (rev rows0 ++ rows) /\
  at_eof (run (join [CR; NL] lines) (mkTok StartRecord [] [] rows0)) = Some (rev rows0 ++ rows).
Proof.
  assert (J : forall l lines, join [CR; NL] (l :: lines) = l ++ match lines with [] => [] | _ => [CR; NL] ++ join [CR; NL] lines end).
  { intros l [|l' ls]; [now rewrite app_nil_r|reflexivity]. }
  induction 1 as [|w e lines rows Hw He Hl IH|w e row lines rows Hw He Hl IH|w Hw|w row Hw]; intros rows0.
  - rewrite app_nil_r. split; reflexivity.
  - destruct (IH rows0) as [I1 I2]. rewrite J. cbn [concat]. rewrite !fold_left_app, <- !fold_left_app, !fold_left_app.
    rewrite <- (fold_left_app (step sep) w e). rewrite blank_line_run by assumption. split; [exact I1|].
    destruct lines as [|l ls]; [cbn in I1 |- *; exact I1|]. rewrite fold_left_app, crnl_run. exact I2.
  - destruct (IH (row :: rows0)) as [I1 I2]. rewrite J. cbn [concat]. rewrite !fold_left_app.
    rewrite <- (fold_left_app (step sep) w e). rewrite (row_line_run row) by assumption. cbn [rev] in I1, I2. rewrite <- app_assoc in I1, I2. split; [exact I1|].
    destruct lines as [|l ls]; [exact I1|]. rewrite fold_left_app, crnl_run. exact I2.
  - cbn [concat join]. rewrite app_nil_r. rewrite blank_run by exact Hw. rewrite app_nil_r. destruct w; split; reflexivity.
  - cbn [concat join]. rewrite app_nil_r. destruct (row_holds row w rows0 Hw) as (f & row' & -> & Hh). rewrite (hold_eof f row' rows0) by exact Hh. cbn [rev]. split; reflexivity.
Qed.
Lemma lines_tokens lines rows : lines_hold sep lines rows -> tokens sep (concat lines) = Some rows /\ tokens sep (join [CR; NL] lines) = Some rows.
Proof. intros H. exact (lines_run lines rows H []). Qed.
End Tokens.

(** ** Trimming *)
Lemma strip_parts f s : exists a b, s = a ++ strip_by f s ++ b /\ Forall (fun c => f c = true) a /\ Forall (fun c => f c = true) b.
Proof.
  destruct (lstrip_by_spec f s) as (a & E & Ha & _). exists a. unfold strip_by, rstrip_by. destruct (lstrip_by_spec f (rev (lstrip_by f s))) as (b & Eb & Hb & _).
  exists (rev b). split; [|split; [exact Ha|now apply Forall_rev]]. rewrite E at 1. f_equal. rewrite <- (rev_involutive (lstrip_by f s)) at 1. rewrite Eb at 1. now rewrite rev_app_distr.
Qed.
Lemma strip_ok f (pad : ascii -> Prop) s : (forall c, f c = true <-> pad c) -> trimmed pad s (strip_by f s).
Proof.
  intros H. destruct (strip_parts f s) as (a & b & E & Ha & Hb). exists a, b. split; [exact E|].
  split; [eapply Forall_impl; [|exact Ha]; intros c; apply H|]. split; [eapply Forall_impl; [|exact Hb]; intros c; apply H|].
  destruct (strip_by_ends f s) as [->|(c & t & u & d & E1 & E2 & F1 & F2)]; [now left|right]. exists c, t, d, u. repeat split; auto; rewrite <- H; congruence.
Qed.
Lemma strip_core f a core b : Forall (fun c => f c = true) a -> Forall (fun c => f c = true) b ->
  core = [] \/ (exists c u d v, core = c :: u /\ core = v ++ [d] /\ f c = false /\ f d = false) -> strip_by f (a ++ core ++ b) = core.
Proof.
  intros Ha Hb H. unfold strip_by. rewrite lstrip_by_app_blank by exact Ha. destruct H as [->|(c & u & d & v & E1 & E2 & F1 & F2)].
  - cbn [app]. rewrite lstrip_by_all by exact Hb. reflexivity.
  - rewrite E1. cbn [app]. rewrite lstrip_by_head by exact F1. change (c :: u ++ b) with ((c :: u) ++ b). rewrite <- E1, rstrip_by_app_blank by exact Hb. rewrite E2. now apply rstrip_by_last.
Qed.
Lemma trimmed_strip f (pad : ascii -> Prop) s t : (forall c, f c = true <-> pad c) -> trimmed pad s t -> t = strip_by f s.
Proof.
  intros H (a & b & -> & Ha & Hb & Ht). symmetry. apply strip_core; [eapply Forall_impl; [|exact Ha]; intros c; apply H|eapply Forall_impl; [|exact Hb]; intros c; apply H|].
  destruct Ht as [->|(c & u & d & v & E1 & E2 & F1 & F2)]; [now left|right]. exists c, u, d, v. rewrite <- H in F1, F2. repeat split; auto; now apply not_true_is_false.
Qed.
Lemma has_char_in c s : has_char c s = true <-> In c s.
Proof. unfold has_char. rewrite existsb_exists. split; [intros (x & Hx & E); apply Ascii.eqb_eq in E; now subst|intros H; exists c; split; [exact H|apply Ascii.eqb_refl]]. Qed.
Lemma pad_is c : has_char c PAD_CHARACTERS = true <-> padding c.
Proof. rewrite has_char_in. reflexivity. Qed.

(** ** Integers *)
Lemma c_space_is c : c_space c = true <-> blank_char c.
Proof.
  unfold c_space, blank_char. split.
  - intros H. apply orb_true_iff in H. rewrite andb_true_iff, !N.leb_le, N.eqb_eq in H.
    rewrite <- (ascii_N_embedding c). destruct H as [[H1 H2]|H]; [|rewrite H; now left].
    assert (C : (N_of_ascii c = 9 \/ N_of_ascii c = 10 \/ N_of_ascii c = 11 \/ N_of_ascii c = 12 \/ N_of_ascii c = 13)%N) by lia.
    destruct C as [->|[->|[->|[->| ->]]]]; vm_compute; auto 10.
  - intros H. repeat (destruct H as [<-|H]; [reflexivity|]). destruct H.
Qed.
Lemma parse_numeral_from acc s : parse_digits 10 acc s = Pvl.numeral_value_from 10 acc s.
Proof. revert acc. induction s as [|c s IH]; intros acc; [reflexivity|]. cbn [parse_digits Pvl.numeral_value_from]. destruct (digit_val c) as [d|]; [|reflexivity]. destruct (d <? 10)%N; [|reflexivity]. rewrite IH. f_equal. lia. Qed.
Lemma digit_not_space c : is_digit c = true -> c_space c = false /\ c <> "-"%char /\ c <> "+"%char.
Proof.
  unfold is_digit, c_space. rewrite andb_true_iff, !N.leb_le. intros H. split; [|split; intros ->; destruct H as [H1 H2]; now apply H1].
  apply orb_false_iff. rewrite andb_false_iff, !N.leb_gt, N.eqb_neq. lia.
Qed.
Lemma int_value_is s z : int_value s = Some z <-> says_int s z.
Proof.
  unfold int_value. split.
  - destruct (take_sign (strip_by c_space s)) as [neg d] eqn:E. destruct d as [|c d]; [discriminate|]. intros H.
    destruct (parse_digits 10 0 (c :: d)) as [n|] eqn:En; [|discriminate]. cbn [option_map] in H. injection H as <-.
    destruct (take_sign_inv _ _ _ E) as (sg & Hs & Es). destruct (strip_parts c_space s) as (a & b & E' & Ha & Hb).
    exists (strip_by c_space s), neg, sg, (c :: d), n. split; [|split; [exact Es|split; [exact Hs|split; [|reflexivity]]]].
    + exists a, b. split; [exact E'|]. split; (eapply Forall_impl; [|eassumption]); intros x; apply c_space_is.
    + rewrite parse_numeral_from in En. exact En.
  - intros (core & neg & sg & d & n & (a & b & -> & Ha & Hb) & -> & Hs & Hn & ->).
    destruct (digits_numeral d n Hn) as (Hd & Hne & _).
    assert (Hd' : Forall (fun c => is_digit c = true) d) by exact Hd.
    assert (Ec : strip_by c_space (a ++ (sg ++ d) ++ b) = sg ++ d).
    { apply strip_core; [eapply Forall_impl; [|exact Ha]; intros x; apply c_space_is|eapply Forall_impl; [|exact Hb]; intros x; apply c_space_is|right].
      destruct d as [|dl d' _] using rev_ind; [contradiction|]. apply Forall_app in Hd' as [H1 H2]. inversion H2 as [|? ? Hl _]; subst.
      assert (Hx : exists c u, sg ++ d' ++ [dl] = c :: u /\ c_space c = false).
      { destruct (sign_cases _ _ Hs) as [[_ ->]|[_ [->| ->]]]; cbn [app].
        - eexists _, _. split; [reflexivity|reflexivity].
        - destruct d' as [|x d']; cbn [app]; eexists _, _; (split; [reflexivity|]); [now apply digit_not_space|inversion H1; now apply digit_not_space].
        - eexists _, _. split; [reflexivity|reflexivity]. }
      destruct Hx as (c & u & Ex & Cx). exists c, u, dl, (sg ++ d'). rewrite <- app_assoc. repeat split; auto. now apply digit_not_space. }
    rewrite Ec, (take_sign_ok neg sg d Hs).
    + destruct d as [|c d]; [contradiction|]. rewrite parse_numeral_from. cbn [Pvl.numeral_value] in Hn. rewrite Hn. reflexivity.
    + destruct d as [|c d]; [exact I|]. inversion Hd'; subst. now apply digit_not_space.
Qed.
Lemma is_na_is s : is_na s = true <-> says_missing s.
Proof.
  unfold is_na, says_missing. rewrite str_in_iff. unfold na_values, missing_words. cbn [In]. split; intros H;
    repeat (destruct H as [<-|H]; [auto 30|]); destruct H.
Qed.
Lemma na_not_int s : is_na s = true -> int_value s = None.
Proof. unfold is_na. rewrite str_in_iff. unfold na_values. cbn [In]. intros H. repeat (destruct H as [<-|H]; [vm_compute; reflexivity|]). destruct H. Qed.
Lemma int_not_na s z : says_int s z -> is_na s = false.
Proof. rewrite <- int_value_is. intros H. destruct (is_na s) eqn:E; [|reflexivity]. rewrite na_not_int in H by exact E. discriminate. Qed.
Lemma no_int s : (~ exists z, says_int s z) -> int_value s = None.
Proof. intros H. destruct (int_value s) as [z|] eqn:E; [|reflexivity]. destruct H. exists z. now apply int_value_is. Qed.

(** ** Types of columns *)
Lemma int64_is z : int64 z = true <-> Scaling.int_holds true 8 z.
Proof. apply Scaling.in_range_holds. unfold Scaling.numpy_int. auto. Qed.
Lemma uint64_is z : uint64 z = true <-> Scaling.int_holds false 8 z.
Proof. apply Scaling.in_range_holds. unfold Scaling.numpy_int. auto. Qed.
Lemma says_int_fun s z z' : says_int s z -> says_int s z' -> z = z'.
Proof. rewrite <- !int_value_is. congruence. Qed.
Lemma int64_value s : says_int64 s -> exists z, int_value s = Some z /\ int64 z = true /\ says_int s z.
Proof. intros (z & H1 & H2). exists z. now rewrite int_value_is, int64_is. Qed.
Lemma scan_all l : Forall (fun s => says_missing s \/ says_int64 s) l -> scan_int64 l = AllInts.
Proof.
  induction 1 as [|s l H Hl IH]; [reflexivity|]. cbn [scan_int64]. destruct (is_na s) eqn:E; [exact IH|].
  destruct H as [H|H]; [apply is_na_is in H; congruence|]. destruct (int64_value s H) as (z & -> & -> & _). exact IH.
Qed.
Lemma scan_not l : Exists (fun s => ~ says_missing s /\ ~ exists z, says_int s z) l -> Forall (fun s => forall z, says_int s z -> Scaling.int_holds true 8 z) l ->
  scan_int64 l = NotInt.
Proof.
  induction l as [|s l IH]; intros H Hl; [inversion H|]. inversion Hl as [|? ? Hs Hl']; subst. cbn [scan_int64]. destruct (is_na s) eqn:E.
  - apply IH; [|exact Hl']. inversion H as [? ? [Hn _]|]; subst; [|assumption]. destruct Hn. now apply is_na_is.
  - destruct (int_value s) as [z|] eqn:Ez; [|reflexivity]. apply int_value_is in Ez. rewrite (proj2 (int64_is z)) by auto.
    apply IH; [|exact Hl']. inversion H as [? ? [_ Hn]|]; subst; [|assumption]. destruct Hn. now exists z.
Qed.
Lemma scan_large l : Forall (fun s => exists z, says_int s z) l -> ~ Forall says_int64 l -> scan_int64 l = TooLarge.
Proof.
  induction 1 as [|s l (z & Hz) Hl IH]; intros H; [now destruct H|]. cbn [scan_int64]. rewrite (int_not_na s z Hz). rewrite (proj2 (int_value_is s z) Hz).
  destruct (int64 z) eqn:E; [|reflexivity]. apply IH. intros F. apply H. constructor; [|exact F]. exists z. split; [exact Hz|now apply int64_is].
Qed.
Lemma scan_uint l : Forall (fun s => exists z, says_int s z /\ Scaling.int_holds false 8 z /\ ~ In "-"%char s) l -> scan_uint64 l = AllInts /\ existsb (fun s => is_na s || minus s) l = false.
Proof.
  induction 1 as [|s l (z & Hz & Hr & Hm) Hl IH]; [split; reflexivity|]. destruct IH as [I1 I2]. cbn [scan_uint64 existsb]. rewrite (int_not_na s z Hz).
  assert (M : minus s = false).
  { unfold minus. destruct (strip_parts c_space s) as (a & b & E & _). destruct (strip_by c_space s) as [|c t]; [reflexivity|]. apply Ascii.eqb_neq. intros ->. apply Hm. rewrite E. apply in_app_iff. right. now left. }
  rewrite M. cbn [orb]. rewrite (proj2 (int_value_is s z) Hz), (proj2 (uint64_is z) Hr). auto.
Qed.
Lemma no_na l : Forall (fun s => exists z, says_int s z) l -> existsb is_na l = false.
Proof. induction 1 as [|s l (z & H) _ IH]; [reflexivity|]. cbn [existsb]. now rewrite (int_not_na s z H). Qed.
Lemma some_na l : Exists says_missing l -> existsb is_na l = true.
Proof. intros H. apply existsb_exists. apply Exists_exists in H as (s & Hi & H). exists s. now rewrite is_na_is. Qed.
Lemma ints_ok signed l : Forall (fun s => exists z, says_int s z) l -> Forall2 (fun s v => exists z, says_int s z /\ v = VNum (EI z)) l (snd (ints signed l)).
Proof. induction 1 as [|s l (z & H) _ IH]; cbn [ints snd map]; constructor; [|exact IH]. exists z. now rewrite (proj2 (int_value_is s z) H). Qed.
Lemma missing_or s : says_missing s \/ ~ says_missing s.
Proof. rewrite <- is_na_is. destruct (is_na s); [now left|right; discriminate]. Qed.
Lemma na_false s : ~ says_missing s -> is_na s = false.
Proof. rewrite <- is_na_is. destruct (is_na s); congruence. Qed.
Lemma ints_reals_ok l : Forall (fun s => says_missing s \/ says_int64 s) l ->
  Forall2 (fun s v => (says_missing s /\ v = cell_missing) \/ (~ says_missing s /\ exists z r, says_int s z /\ double_for (inject_Z z) r /\ v = VNum (EF r))) l (snd (ints_as_reals l)).
Proof.
  induction 1 as [|s l H _ IH]; cbn [ints_as_reals snd map]; constructor; [|exact IH]. destruct (missing_or s) as [M|M].
  - left. split; [exact M|]. now rewrite (proj2 (is_na_is s) M).
  - right. split; [exact M|]. rewrite (na_false s M). destruct H as [H|H]; [contradiction|]. destruct (int64_value s H) as (z & -> & _ & Hz). exists z. eexists. split; [exact Hz|]. split; [apply fconv_double|reflexivity].
Qed.
Lemma reals_vals real (real' : str -> option num) l : (forall s r, real s = Some r -> real' s = Some r) -> Forall (fun s => says_missing s \/ exists v, real s = Some v) l ->
  Forall2 (fun s v => (says_missing s /\ v = cell_missing) \/ (~ says_missing s /\ exists r, real s = Some r /\ v = VNum (EF r))) l (snd (reals real' l)).
Proof.
  intros R. induction 1 as [|s l H _ IH]; cbn [reals snd map]; constructor; [|exact IH]. destruct (missing_or s) as [M|M].
  - left. split; [exact M|]. now rewrite (proj2 (is_na_is s) M).
  - right. split; [exact M|]. rewrite (na_false s M). destruct H as [H|(r & H)]; [contradiction|]. exists r. split; [exact H|]. now rewrite (R s r H).
Qed.
Lemma truth_word s : (str_in s trues = true <-> says_truth s true) /\ (str_in s falses = true <-> says_truth s false).
Proof. rewrite !str_in_iff. split; reflexivity. Qed.
Lemma truth_not_na s b : says_truth s b -> is_na s = false /\ str_in s trues = b /\ str_in s falses = negb b /\ int_value s = None.
Proof. destruct b; cbn; intros H; repeat (destruct H as [<-|H]; [vm_compute; auto|]); destruct H. Qed.
Lemma truths_ok l : l <> [] -> Forall (fun s => exists b, says_truth s b) l ->
  not_numbers l = (CBool, map (fun s => VBool (str_in s trues)) l) /\ Forall2 (fun s v => exists b, says_truth s b /\ v = VBool b) l (map (fun s => VBool (str_in s trues)) l).
Proof.
  intros _ H. unfold not_numbers. split.
  - replace (forallb _ l) with true.
    + replace (existsb is_na l) with false; [reflexivity|]. induction H as [|s l (b & Hb) _ IH]; [reflexivity|]. cbn [existsb]. destruct (truth_not_na s b Hb) as (-> & _). exact IH.
    + symmetry. apply forallb_forall. rewrite Forall_forall in H. intros s Hs. destruct (H s Hs) as (b & Hb). destruct (truth_not_na s b Hb) as (-> & -> & -> & _). now destruct b.
  - induction H as [|s l (b & Hb) _ IH]; constructor; [|exact IH]. exists b. split; [exact Hb|]. now destruct (truth_not_na s b Hb) as (_ & -> & _).
Qed.
Lemma texts_case l : Exists (fun s => ~ says_missing s /\ forall b, ~ says_truth s b) l -> not_numbers l = texts l.
Proof.
  intros H. unfold not_numbers. replace (forallb _ l) with false; [reflexivity|]. symmetry. apply not_true_is_false. intros F. rewrite forallb_forall in F.
  apply Exists_exists in H as (s & Hs & H1 & H2). specialize (F s Hs). rewrite (na_false s H1) in F. cbn [orb] in F. apply orb_true_iff in F as [F|F].
  - apply (H2 true). now apply truth_word.
  - apply (H2 false). now apply truth_word.
Qed.
Lemma not_all_real real l : Exists (fun s => ~ says_missing s /\ real s = None) l -> reals_or_not real l = not_numbers l.
Proof.
  intros H. unfold reals_or_not. replace (forallb _ l) with false; [reflexivity|]. symmetry. apply not_true_is_false. intros F. rewrite forallb_forall in F.
  apply Exists_exists in H as (s & Hs & H1 & H2). specialize (F s Hs). rewrite (na_false s H1), H2 in F. discriminate.
Qed.
Lemma all_real real l : Forall (fun s => says_missing s \/ exists v, real s = Some v) l -> reals_or_not real l = reals real l.
Proof.
  intros H. unfold reals_or_not. replace (forallb _ l) with true; [reflexivity|]. symmetry. apply forallb_forall. rewrite Forall_forall in H. intros s Hs.
  destruct (H s Hs) as [M|(v & ->)]; [now rewrite (proj2 (is_na_is s) M)|apply orb_true_r].
Qed.
Lemma Exists_imp {A} (P Q : A -> Prop) l : (forall x, P x -> Q x) -> Exists P l -> Exists Q l.
Proof. intros H E. induction E; [now apply Exists_cons_hd, H|now apply Exists_cons_tl]. Qed.
Lemma texts_vals (trim : str -> str) (kept : str -> str -> Prop) l : (forall s, kept s (trim s)) ->
  Forall2 (fun s v => (says_missing s /\ v = cell_missing) \/ (~ says_missing s /\ exists t, kept s t /\ v = VText t)) l
    (map (fun v => match v with VText s => VText (trim s) | _ => missing end) (snd (texts l))).
Proof.
  intros K. cbn [texts snd]. rewrite map_map. induction l as [|s l IH]; cbn [map]; constructor; [|exact IH]. destruct (missing_or s) as [M|M].
  - left. split; [exact M|]. now rewrite (proj2 (is_na_is s) M).
  - right. split; [exact M|]. rewrite (na_false s M). exists (trim s). auto.
Qed.
Lemma truth_missing_no_int l : Forall (fun s => exists b, says_truth s b) l -> l <> [] -> Exists (fun s => ~ says_missing s /\ ~ exists z, says_int s z) l.
Proof.
  intros H Hne. destruct l as [|s l]; [contradiction|]. inversion H as [|? ? (b & Hb) _]; subst. apply Exists_cons_hd. destruct (truth_not_na s b Hb) as (N & _ & _ & I).
  split; [rewrite <- is_na_is; congruence|]. intros (z & Hz). apply int_value_is in Hz. congruence.
Qed.
Lemma csv_shows real cells c : strip_column (infer_csv real cells) = Some c -> shows_fields real cells (fst c) (snd c).
Proof.
  intros Hc.
  assert (Plain : forall t v, infer_csv real cells = (t, v) -> t <> CObject -> c = (t, v)).
  { intros t v E Ht. rewrite E in Hc. unfold strip_column in Hc. cbn [fst snd] in Hc. destruct t; try contradiction; now injection Hc as <-. }
  assert (I : forall l, Forall says_int64 l -> Forall (fun s => exists z, says_int s z) l) by (intros l; apply Forall_impl; intros s (z & H & _); eauto).
  split.
  - intros H. assert (E : infer_csv real cells = ints true cells).
    { unfold infer_csv. rewrite scan_all, no_na; auto. eapply Forall_impl; [|exact H]; auto. }
    rewrite (Plain _ _ E) by discriminate. split; [reflexivity|]. cbn [snd]. apply (ints_ok true); auto.
  - intros H1 H2. destruct (scan_uint cells H1) as [U1 U2].
    assert (H1' : Forall (fun s => exists z, says_int s z) cells) by (eapply Forall_impl; [|exact H1]; intros s (z & Hz & _); eauto).
    assert (E : infer_csv real cells = ints false cells) by (unfold infer_csv; now rewrite scan_large, U1, U2).
    rewrite (Plain _ _ E) by discriminate. split; [reflexivity|]. cbn [snd]. now apply (ints_ok false).
  - intros H1 H2. assert (E : infer_csv real cells = ints_as_reals cells) by (unfold infer_csv; now rewrite scan_all, some_na).
    rewrite (Plain _ _ E) by discriminate. split; [reflexivity|]. now apply ints_reals_ok.
  - intros H1 H2.
    assert (H1' : Forall (fun s => says_missing s \/ exists v, real s = Some v) cells) by (eapply Forall_impl; [|exact H1]; intros s [M|[_ R]]; auto).
    assert (E : infer_csv real cells = reals real cells).
    { unfold infer_csv. rewrite scan_not; [now rewrite all_real|exact H2|]. eapply Forall_impl; [|exact H1]. intros s [M|[[(z & Hz & Hr)|N] _]] z' Hz'.
      - apply is_na_is in M. rewrite (int_not_na s z' Hz') in M. discriminate.
      - now rewrite (says_int_fun s z' z).
      - destruct N. now exists z'. }
    rewrite (Plain _ _ E) by discriminate. split; [reflexivity|]. apply (reals_vals real real); auto.
  - intros Hne H. assert (Ht : Forall (fun s => exists b, says_truth s b) cells) by (eapply Forall_impl; [|exact H]; intros s (b & Hb & _); eauto).
    destruct (truths_ok cells Hne Ht) as [T1 T2].
    assert (E : infer_csv real cells = (CBool, map (fun s => VBool (str_in s trues)) cells)).
    { unfold infer_csv. rewrite scan_not; [|now apply truth_missing_no_int|].
      - rewrite not_all_real; [exact T1|]. destruct cells as [|s l]; [contradiction|]. inversion H as [|? ? (b & Hb & Hr) _]; subst. apply Exists_cons_hd.
        split; [rewrite <- is_na_is; destruct (truth_not_na s b Hb) as (N & _); congruence|exact Hr].
      - eapply Forall_impl; [|exact Ht]. intros s (b & Hb) z Hz. apply int_value_is in Hz. destruct (truth_not_na s b Hb) as (_ & _ & _ & N). congruence. }
    rewrite (Plain _ _ E) by discriminate. split; [reflexivity|exact T2].
  - intros H1 H2. assert (E : infer_csv real cells = texts cells).
    { unfold infer_csv. rewrite scan_not; [|revert H1; apply Exists_imp; intros s (A & B & _); auto|exact H2].
      rewrite not_all_real; [|revert H1; apply Exists_imp; intros s (A & _ & B & _); auto]. apply texts_case. revert H1. apply Exists_imp. intros s (A & _ & _ & B). auto. }
    rewrite E in Hc. unfold strip_column in Hc. cbn [texts fst] in Hc. destruct (existsb _ _) in Hc; [|discriminate]. injection Hc as <-. split; [reflexivity|].
    cbn [snd]. apply (texts_vals (strip_chars PAD_CHARACTERS)). intros s. apply strip_ok. exact pad_is.
Qed.
Lemma texts_strip l : Exists (fun s => ~ says_missing s) l -> exists c, strip_column (texts l) = Some c.
Proof.
  intros H. unfold strip_column. cbn [texts fst snd]. replace (existsb _ _) with true; [now eexists|]. symmetry. apply existsb_exists.
  apply Exists_exists in H as (s & Hs & M). exists (VText s). split; [|reflexivity]. apply in_map_iff. exists s. now rewrite (na_false s M).
Qed.
Lemma strip_other t v : t <> CObject -> exists c, strip_column (t, v) = Some c.
Proof. intros H. unfold strip_column. cbn [fst]. destruct t; [now eexists|now eexists|contradiction]. Qed.
Lemma scan_large_some l : scan_int64 l = TooLarge -> Exists (fun s => ~ says_missing s) l.
Proof.
  induction l as [|s l IH]; [discriminate|]. cbn [scan_int64]. destruct (is_na s) eqn:E; [intros H; apply Exists_cons_tl, IH, H|].
  intros _. apply Exists_cons_hd. rewrite <- is_na_is. congruence.
Qed.
Lemma scan_not_some l : scan_int64 l = NotInt -> Exists (fun s => ~ says_missing s) l.
Proof.
  induction l as [|s l IH]; [discriminate|]. cbn [scan_int64]. destruct (is_na s) eqn:E; [intros H; apply Exists_cons_tl, IH, H|].
  intros _. apply Exists_cons_hd. rewrite <- is_na_is. congruence.
Qed.
Lemma strip_total real cells : ~ truths_missing cells -> exists c, strip_column (infer_csv real cells) = Some c.
Proof.
  intros Hn.
  assert (N : Exists (fun s => ~ says_missing s) cells -> exists c, strip_column (not_numbers cells) = Some c).
  { intros He. unfold not_numbers. destruct (forallb _ cells) eqn:F; [|now apply texts_strip]. destruct (existsb is_na cells) eqn:Ex; [|now apply strip_other].
    destruct Hn. split; [|split].
    - apply Forall_forall. rewrite forallb_forall in F. intros s Hs. specialize (F s Hs). rewrite !orb_true_iff in F. rewrite is_na_is in F. destruct F as [[F|F]|F]; [now left|right; exists true; now apply truth_word|right; exists false; now apply truth_word].
    - apply existsb_exists in Ex as (s & Hs & M). apply Exists_exists. exists s. split; [exact Hs|now apply is_na_is].
    - intros Fa. apply Exists_exists in He as (s & Hs & M). rewrite Forall_forall in Fa. auto. }
  assert (R : Exists (fun s => ~ says_missing s) cells -> exists c, strip_column (reals_or_not real cells) = Some c).
  { intros He. unfold reals_or_not. destruct (forallb _ cells); [now apply strip_other|now apply N]. }
  unfold infer_csv. destruct (scan_int64 cells) eqn:S1.
  - destruct (existsb is_na cells); now apply strip_other.
  - apply R. now apply scan_not_some.
  - pose proof (scan_large_some _ S1) as He. destruct (scan_uint64 cells); [destruct (existsb _ cells); [now apply texts_strip|now apply strip_other]|now apply R|now apply texts_strip].
Qed.

Lemma ints_of_in l z : In z (ints_of l) -> exists s, In s l /\ says_int s z.
Proof.
  unfold ints_of. rewrite in_flat_map. intros (s & Hs & Hz). exists s. split; [exact Hs|]. destruct (is_na s); [contradiction|].
  destruct (int_value s) as [y|] eqn:E; [|contradiction]. destruct Hz as [->|[]]. now apply int_value_is.
Qed.
Lemma in_ints_of l s z : In s l -> says_int s z -> In z (ints_of l).
Proof. intros Hs Hz. unfold ints_of. apply in_flat_map. exists s. split; [exact Hs|]. rewrite (int_not_na s z Hz), (proj2 (int_value_is s z) Hz). now left. Qed.
Lemma existsb_none {A} (f : A -> bool) l : (forall x, In x l -> f x = false) -> existsb f l = false.
Proof. intros H. apply not_true_is_false. intros E. apply existsb_exists in E as (x & Hx & F). rewrite H in F by exact Hx. discriminate. Qed.
Lemma numeric_int real s z : says_int s z -> numeric real s = true.
Proof. intros H. unfold numeric. now rewrite (proj2 (int_value_is s z) H). Qed.
Lemma numeric_real real s v : real s = Some v -> numeric real s = true.
Proof. intros H. unfold numeric. rewrite H. now destruct (int_value s). Qed.
Definition real' (real : str -> option num) (s : str) : option num :=
  match real s with Some v => Some v | None => option_map (fun z => fconv DF64 (inject_Z z)) (int_value s) end.
Lemma fwf_numbers real cells : Forall (fun s => says_missing s \/ numeric real s = true) cells -> Forall (fun s => forall z, says_int s z -> Scaling.int_holds true 8 z) cells ->
  infer_fwf real cells = if existsb is_na cells || existsb (fun s => match int_value s with None => true | Some _ => false end) cells then reals (real' real) cells else ints true cells.
Proof.
  intros H1 H2. unfold infer_fwf. replace (forallb _ cells) with true; cbn [negb].
  - rewrite Forall_forall in H2.
    assert (L : forall z, In z (ints_of cells) -> int64 z = true) by (intros z Hz; apply ints_of_in in Hz as (s & Hs & Hz); apply int64_is; eauto).
    rewrite (existsb_none (fun z => negb (int64 z || uint64 z))) by (intros z Hz; now rewrite (L z Hz)).
    rewrite (existsb_none (fun z => negb (int64 z))) by (intros z Hz; now rewrite (L z Hz)). reflexivity.
  - symmetry. apply forallb_forall. rewrite Forall_forall in H1. intros s Hs. destruct (H1 s Hs) as [M|M]; [now rewrite (proj2 (is_na_is s) M)|rewrite M; apply orb_true_r].
Qed.
Lemma fwf_not_numbers real cells : Exists (fun s => ~ says_missing s /\ (~ exists z, says_int s z) /\ real s = None) cells -> infer_fwf real cells = not_numbers cells.
Proof.
  intros H. unfold infer_fwf. replace (forallb _ cells) with false; [reflexivity|]. symmetry. apply not_true_is_false. intros F. rewrite forallb_forall in F.
  apply Exists_exists in H as (s & Hs & M & I & R). specialize (F s Hs). unfold numeric in F. rewrite (na_false s M), (no_int s I), R in F. discriminate.
Qed.
Lemma fwf_shows real cells : shows_cells real cells (fst (infer_fwf real cells)) (snd (infer_fwf real cells)).
Proof.
  assert (I : forall l, Forall says_int64 l -> Forall (fun s => exists z, says_int s z) l) by (intros l; apply Forall_impl; intros s (z & H & _); eauto).
  assert (R64 : forall s, says_missing s \/ says_int64 s -> forall z, says_int s z -> Scaling.int_holds true 8 z).
  { intros s [M|(z & Hz & Hr)] z' Hz'; [apply is_na_is in M; rewrite (int_not_na s z' Hz') in M; discriminate|now rewrite (says_int_fun s z' z)]. }
  split.
  - intros H. rewrite fwf_numbers.
    + rewrite no_na by auto. rewrite existsb_none.
      * cbn [orb]. split; [reflexivity|]. apply (ints_ok true). auto.
      * intros s Hs. rewrite Forall_forall in H. destruct (H s Hs) as (z & Hz & _). now rewrite (proj2 (int_value_is s z) Hz).
    + eapply Forall_impl; [|exact H]. intros s (z & Hz & _). right. eapply numeric_int, Hz.
    + eapply Forall_impl; [|exact H]. intros s Hs. apply R64. now right.
  - intros H1 H2. assert (H1' : Forall (fun s => exists z, says_int s z) cells) by (eapply Forall_impl; [|exact H1]; intros s (z & Hz & _); eauto).
    unfold infer_fwf. replace (forallb _ cells) with true; cbn [negb].
    + rewrite Forall_forall in H1. rewrite (existsb_none (fun z => negb (int64 z || uint64 z))).
      2:{ intros z Hz. apply ints_of_in in Hz as (s & Hs & Hz). destruct (H1 s Hs) as (z' & Hz' & Hu & _). rewrite (says_int_fun s z z' Hz Hz'), (proj2 (uint64_is z') Hu). now rewrite orb_true_r. }
      rewrite no_na by exact H1'. rewrite (existsb_none (fun z => z <? 0)).
      2:{ intros z Hz. apply ints_of_in in Hz as (s & Hs & Hz). destruct (H1 s Hs) as (z' & Hz' & Hu & _). rewrite (says_int_fun s z z' Hz Hz'). unfold Scaling.int_holds in Hu. apply Z.ltb_ge. lia. }
      cbn [orb]. rewrite andb_false_r. rewrite existsb_none.
      2:{ intros s Hs. destruct (H1 s Hs) as (z & Hz & _). now rewrite (proj2 (int_value_is s z) Hz). }
      replace (existsb (fun z => negb (int64 z)) (ints_of cells)) with true; [split; [reflexivity|now apply (ints_ok false)]|].
      symmetry. apply not_false_is_true. intros F. apply H2. apply Forall_forall. intros s Hs. destruct (H1 s Hs) as (z & Hz & _). exists z. split; [exact Hz|]. apply int64_is.
      apply not_false_is_true. intros F'. assert (X : existsb (fun z => negb (int64 z)) (ints_of cells) = true) by (apply existsb_exists; exists z; split; [eapply in_ints_of; eassumption|now rewrite F']). congruence.
    + symmetry. apply forallb_forall. rewrite Forall_forall in H1. intros s Hs. destruct (H1 s Hs) as (z & Hz & _). rewrite (numeric_int real s z Hz). apply orb_true_r.
  - intros H1 H2. rewrite fwf_numbers.
    + rewrite some_na by exact H2. cbn [orb fst]. split; [reflexivity|]. cbn [reals snd]. clear H2. induction H1 as [|s l H _ IH]; cbn [map]; constructor; [|exact IH]. destruct (missing_or s) as [M|M].
      * left. split; [exact M|]. now rewrite (proj2 (is_na_is s) M).
      * right. split; [exact M|]. rewrite (na_false s M). destruct H as [H|H]; [contradiction|]. destruct (int64_value s H) as (z & Ez & _ & Hz). unfold real'.
        destruct (real s) as [r|] eqn:Er; [exists z, r; auto|]. rewrite Ez. cbn [option_map]. exists z. eexists. split; [exact Hz|]. split; [|reflexivity]. right. split; [reflexivity|apply fconv_double].
    + eapply Forall_impl; [|exact H1]. intros s [M|(z & Hz & _)]; [now left|right; eapply numeric_int, Hz].
    + eapply Forall_impl; [|exact H1]. intros s Hs. now apply R64.
  - intros H1 H2. rewrite fwf_numbers.
    + replace (existsb is_na cells || _) with true.
      * split; [reflexivity|]. apply (reals_vals real (real' real)); [unfold real'; intros s r ->; reflexivity|]. eapply Forall_impl; [|exact H1]. intros s [M|[_ R]]; auto.
      * symmetry. apply orb_true_iff. right. apply existsb_exists. apply Exists_exists in H2 as (s & Hs & _ & N). exists s. split; [exact Hs|]. now rewrite (no_int s N).
    + eapply Forall_impl; [|exact H1]. intros s [M|[_ (v & R)]]; [now left|right; eapply numeric_real, R].
    + eapply Forall_impl; [|exact H1]. intros s [M|[[H|N] _]]; [apply R64; now left|apply R64; now right|]. intros z Hz. destruct N. now exists z.
  - intros Hne H. assert (Ht : Forall (fun s => exists b, says_truth s b) cells) by (eapply Forall_impl; [|exact H]; intros s (b & Hb & _); eauto).
    destruct (truths_ok cells Hne Ht) as [T1 T2]. rewrite fwf_not_numbers; [rewrite T1; split; [reflexivity|exact T2]|].
    pose proof (truth_missing_no_int cells Ht Hne) as X. apply Exists_exists in X as (s & Hs & A & B). apply Exists_exists. exists s. split; [exact Hs|]. rewrite Forall_forall in H. destruct (H s Hs) as (b & _ & Hr). auto.
  - intros H1 H2. rewrite fwf_not_numbers; [|revert H1; apply Exists_imp; intros s (A & B & C & _); auto].
    rewrite texts_case; [|revert H1; apply Exists_imp; intros s (A & _ & _ & B); auto]. split; [reflexivity|]. clear. induction cells as [|s l IH]; cbn [texts snd map]; constructor; [|exact IH].
    destruct (missing_or s) as [M|M]; [left|right]; (split; [exact M|]).
    + now rewrite (proj2 (is_na_is s) M).
    + rewrite (na_false s M). now exists s.
Qed.

(** ** Reading by separators *)
Lemma pad_at n row i : field_at i (pad_to n row) = field_at i row.
Proof.
  unfold field_at, pad_to. destruct (Nat.lt_ge_cases i (length row)) as [L|L]; [now apply app_nth1|].
  rewrite app_nth2 by exact L. rewrite (nth_overflow row) by exact L. generalize (i - length row)%nat (n - length row)%nat. induction n0 as [|j IH]; intros [|k]; cbn; auto.
Qed.
Lemma csv_parsed sep text rows r rs n : tokens sep text = Some rows -> rows = r :: rs -> length r = n -> Forall (fun x => (length x <= n)%nat) rs ->
  exists rows', csv_rows sep text = Parsed (n, rows') /\ forall i, map (field_at i) rows' = map (field_at i) rows.
Proof.
  intros E -> Hn Hl. unfold csv_rows. rewrite E, Hn. rewrite existsb_none.
  - eexists. split; [reflexivity|]. intros i. cbn [map]. f_equal. rewrite map_map. apply map_ext. intros x. apply pad_at.
  - rewrite Forall_forall in Hl. intros x Hx. apply Nat.ltb_ge. auto.
Qed.
Lemma columns_are n rows rows' : (forall i, map (field_at i) rows' = map (field_at i) rows) -> column_texts n rows' = map (fun i => map (field_at i) rows) (seq 0 n).
Proof. intros H. unfold column_texts. apply map_ext. intros i. exact (H i). Qed.
Lemma strip_columns_ok real ls : Forall (fun l => ~ truths_missing l) ls ->
  exists t, strip_columns (map (infer_csv real) ls) = Some t /\ Forall2 (fun l c => shows_fields real l (fst c) (snd c)) ls t.
Proof.
  induction 1 as [|l ls H _ (t & E & F)]; [exists []; split; [reflexivity|constructor]|]. destruct (strip_total real l H) as (c & Ec).
  exists (c :: t). cbn [map strip_columns]. rewrite Ec, E. split; [reflexivity|]. constructor; [|exact F]. now apply csv_shows.
Qed.
Lemma delimited_table real sep text rows names n : tokens sep text = Some rows -> delimited n rows ->
  (n + length (filter is_placeholder names))%nat = length names ->
  exists t, read_as_delimited real sep text names = Table t /\ Forall2 (fun i c => shows_fields real (map (field_at i) rows) (fst c) (snd c)) (seq 0 n) t.
Proof.
  intros E ((r & rs & Er & Hn & Hl) & Ht) En. destruct (csv_parsed sep text rows r rs n E Er Hn Hl) as (rows' & Ec & Hf).
  unfold read_as_delimited. rewrite Ec, En, Nat.eqb_refl. cbn [negb]. rewrite (columns_are n rows rows' Hf).
  destruct (strip_columns_ok real (map (fun i => map (field_at i) rows) (seq 0 n))) as (t & Es & Fs).
  { apply Forall_map. apply Forall_forall. intros i Hi. apply in_seq in Hi. apply Ht. lia. }
  rewrite Es. exists t. split; [reflexivity|]. clear - Fs. revert t Fs. induction (seq 0 n) as [|i l IH]; cbn [map]; intros t Fs; inversion Fs; subst; constructor; auto.
Qed.
Lemma truths_missing_none real cells : (forall s b, says_truth s b -> real s = None) -> truths_missing cells -> strip_column (infer_csv real cells) = None.
Proof.
  intros R (H1 & H2 & H3).
  assert (X : Exists (fun s => ~ says_missing s /\ (exists b, says_truth s b)) cells).
  { clear H2. induction H1 as [|s l H _ IH]; [now destruct H3|]. destruct (missing_or s) as [M|M]; [|destruct H as [H|H]; [contradiction|now apply Exists_cons_hd]].
    apply Exists_cons_tl, IH. intros F. apply H3. now constructor. }
  assert (E : infer_csv real cells = not_numbers cells).
  { unfold infer_csv. rewrite scan_not.
    - apply not_all_real. revert X. apply Exists_imp. intros s (M & b & Hb). split; [exact M|eapply R, Hb].
    - revert X. apply Exists_imp. intros s (M & b & Hb). split; [exact M|]. intros (z & Hz). apply int_value_is in Hz. destruct (truth_not_na s b Hb) as (_ & _ & _ & I). congruence.
    - eapply Forall_impl; [|exact H1]. intros s [M|(b & Hb)] z Hz.
      + apply is_na_is in M. rewrite (int_not_na s z Hz) in M. discriminate.
      + apply int_value_is in Hz. destruct (truth_not_na s b Hb) as (_ & _ & _ & I). congruence. }
  rewrite E. unfold not_numbers. replace (forallb _ cells) with true.
  - rewrite some_na by exact H2. unfold strip_column. cbn [fst snd]. rewrite existsb_none; [reflexivity|]. intros v Hv. apply in_map_iff in Hv as (s & <- & _). now destruct (is_na s).
  - symmetry. apply forallb_forall. rewrite Forall_forall in H1. intros s Hs. destruct (H1 s Hs) as [M|(b & Hb)]; [now rewrite (proj2 (is_na_is s) M)|].
    destruct (truth_not_na s b Hb) as (-> & -> & -> & _). now destruct b.
Qed.
Lemma strip_columns_none real ls l : In l ls -> strip_column (infer_csv real l) = None -> strip_columns (map (infer_csv real) ls) = None.
Proof.
  induction ls as [|x ls IH]; [contradiction|]. intros [->|H] E; cbn [map strip_columns]; [now rewrite E|]. rewrite (IH H E). destruct (strip_column (infer_csv real x)); reflexivity.
Qed.
Lemma not_delimited_table real sep text rows names n : (forall s b, says_truth s b -> real s = None) -> tokens sep text = Some rows -> not_delimited n rows ->
  (n + length (filter is_placeholder names))%nat = length names -> read_as_delimited real sep text names = Fallback.
Proof.
  intros R E (r & rs & -> & H) En. unfold read_as_delimited, csv_rows. rewrite E.
  destruct (existsb _ rs) eqn:Ex; [reflexivity|]. destruct (_ =? _)%nat eqn:El; cbn [negb]; [|reflexivity]. apply Nat.eqb_eq in El. assert (Hn : length r = n) by lia.
  destruct H as [H|[H|(i & Hi & Ht)]]; [contradiction| |].
  - apply Exists_exists in H as (x & Hx & L). assert (X : existsb (fun x => (length r <? length x)%nat) rs = true) by (apply existsb_exists; exists x; split; [exact Hx|now apply Nat.ltb_lt]). congruence.
  - rewrite (columns_are (length r) (r :: rs)).
    + rewrite (strip_columns_none real _ (map (field_at i) (r :: rs))); [reflexivity| |now apply truths_missing_none]. apply in_map_iff. exists i. split; [reflexivity|]. apply in_seq. lia.
    + intros j. cbn [map]. f_equal. rewrite map_map. apply map_ext. intros x. apply pad_at.
Qed.

(** ** Lines of a text *)
Lemma file_lines_app w s : ~ In NL w -> file_lines (w ++ NL :: s) = (w ++ [NL]) :: file_lines s.
Proof.
  induction w as [|c w IH]; intros H; [reflexivity|]. cbn [app file_lines]. rewrite eqb_no by (intros ->; apply H; now left). rewrite IH by (intros X; apply H; now right). reflexivity.
Qed.
Lemma file_lines_one w : w <> [] -> ~ In NL w -> file_lines w = [w].
Proof.
  induction w as [|c w IH]; intros Hne H; [contradiction|]. cbn [file_lines]. rewrite eqb_no by (intros ->; apply H; now left).
  destruct w as [|d w]; [reflexivity|]. rewrite IH; [reflexivity|discriminate|intros X; apply H; now right].
Qed.
Lemma in_line_nl w : Forall in_line w -> ~ In NL w.
Proof. intros H X. rewrite Forall_forall in H. now destruct (H _ X) as [N _]. Qed.
Lemma blank_in_line sep w : Forall (blank_in sep) w -> Forall in_line w.
Proof. apply Forall_impl. intros c [[->| ->] _]; split; discriminate. Qed.
Lemma line_complete w e : Forall in_line w -> line_end e -> complete_line (w ++ e).
Proof.
  intros H [->| ->]; [exists w|exists (w ++ [CR])]; (split; [rewrite <- ?app_assoc; reflexivity|]); [now apply in_line_nl|].
  intros X. apply in_app_iff in X as [X|[X|[]]]; [exact (in_line_nl w H X)|discriminate].
Qed.
Lemma lines_has ls : (forall a l b, ls = a ++ l :: b -> complete_line l \/ (b = [] /\ l <> [] /\ ~ In NL l)) -> file_lines (concat ls) = ls.
Proof.
  induction ls as [|l ls IH]; intros H; [reflexivity|]. cbn [concat]. destruct (H [] l ls eq_refl) as [(w & -> & Hw)|(-> & Hne & Hw)].
  - rewrite <- app_assoc. cbn [app]. rewrite file_lines_app by exact Hw. rewrite IH; [reflexivity|]. intros a x b E. apply (H ((w ++ [NL]) :: a) x b). now rewrite E.
  - cbn [concat]. rewrite app_nil_r. now apply file_lines_one.
Qed.
Lemma text_of file p lines : lines_at file p lines -> ascii_text file p = Ok (concat lines) \/ ascii_text file p = Ok (join [CR; NL] lines).
Proof.
  intros [pre post R -> S L|pre post R [F HF] S L]; unfold ascii_text; rewrite R.
  - left. unfold head_file. rewrite S. assert (X : (Z.of_nat (length pre) <? 0) = false) by (apply Z.ltb_ge; lia). rewrite X, Nat2Z.id, skipn_app, skipn_all, Nat.sub_diag. cbn [skipn app].
    destruct L as [-> |[-> ->]]; [|now rewrite app_nil_r]. assert (Y : (Z.of_nat (length (concat lines)) <? 0) = false) by (apply Z.ltb_ge; lia). rewrite Y, Nat2Z.id, firstn_app, firstn_all, Nat.sub_diag. cbn [firstn]. now rewrite app_nil_r.
  - right. assert (E : file_lines file = pre ++ lines ++ post) by (subst file; now apply lines_has). rewrite E, S, Nat2Z.id.
    replace ((0 <? Z.of_nat (length pre)) && _) with false by (symmetry; apply andb_false_intro2; apply Nat.ltb_ge; rewrite app_length; lia).
    rewrite skipn_app, skipn_all, Nat.sub_diag. cbn [skipn app]. destruct L as [->|(-> & L)].
    + rewrite Nat2Z.id, firstn_app, firstn_all, Nat.sub_diag. cbn [firstn]. rewrite app_nil_r.
      match goal with |- (if ?b then _ else _) = _ => assert (X : b = false) by (apply Nat.ltb_ge; rewrite app_length; apply Nat.le_add_r); now rewrite X end.
    + rewrite app_nil_r. now destruct L as [-> | ->].
Qed.

(** ** Reading by positions *)
Definition fwf_pad : str := [CR; NL] ++ PAD_CHARACTERS.
Definition spec_of (c : Z * Z) : Z * Z := (fst c, fst c + snd c).
Definition trim_cell (s : str) : str := strip_chars fwf_pad s.
Definition nonblank (row : list str) : bool := existsb (fun e => match strip e with [] => false | _ => true end) row.
Lemma fwf_pad_is c : has_char c fwf_pad = true <-> cell_padding c.
Proof.
  rewrite has_char_in. unfold fwf_pad. rewrite in_app_iff. unfold cell_padding, padding. change (In c PAD_CHARACTERS) with (In c [" "%char; tab; quote; ","%char]). cbn [In].
  intuition congruence.
Qed.
Lemma trim_ok s : trimmed cell_padding s (trim_cell s).
Proof. apply strip_ok. exact fwf_pad_is. Qed.
Lemma space_is c : is_space c = true <-> space_char c.
Proof.
  unfold is_space, space_char. rewrite orb_true_iff, !andb_true_iff, !N.leb_le. unfold nat_of_ascii. lia.
Qed.
Lemma strip_blank s : strip s = [] <-> Forall space_char s.
Proof.
  split.
  - intros H. destruct (strip_parts is_space s) as (a & b & E & Ha & Hb). fold (strip s) in E. rewrite H in E. cbn [app] in E. subst s. apply Forall_app. split; (eapply Forall_impl; [|eassumption]); intros c; apply space_is.
  - intros H. unfold strip, strip_by. rewrite lstrip_by_all; [reflexivity|]. eapply Forall_impl; [|exact H]. intros c. apply space_is.
Qed.
Lemma blank_trim s : blank_cell s <-> strip (trim_cell s) = [].
Proof.
  split.
  - intros (t & T & H). rewrite (trimmed_strip (fun c => has_char c fwf_pad) cell_padding s t fwf_pad_is T) in H. now apply strip_blank.
  - intros H. exists (trim_cell s). split; [apply trim_ok|now apply strip_blank].
Qed.
Lemma slice_cell l c : 0 <= fst c -> 0 <= snd c -> zslice (fst c) (fst c + snd c) l = cell_in l c.
Proof.
  intros H1 H2. rewrite <- (Z2Nat.id (fst c) H1) at 1 2. rewrite <- (Z2Nat.id (snd c) H2) at 1. rewrite <- Nat2Z.inj_add, zslice_nat. unfold cell_in. f_equal. lia.
Qed.
Lemma fwf_row_is spans l : Forall (fun c => 0 <= fst c /\ 0 <= snd c) spans -> fwf_row (map spec_of spans) l = map (fun c => trim_cell (cell_in l c)) spans.
Proof.
  intros H. unfold fwf_row. rewrite map_map. apply map_ext_in. intros c Hc. rewrite Forall_forall in H. destruct (H c Hc). unfold spec_of. cbn [fst snd].
  rewrite slice_cell by assumption. reflexivity.
Qed.
Lemma nonblank_false spans l : Forall (fun c => blank_cell (cell_in l c)) spans -> nonblank (map (fun c => trim_cell (cell_in l c)) spans) = false.
Proof.
  intros H. apply existsb_none. intros e He. apply in_map_iff in He as (c & <- & Hc). rewrite Forall_forall in H. now rewrite (proj1 (blank_trim _) (H c Hc)).
Qed.
Lemma nonblank_true spans l : Exists (fun c => ~ blank_cell (cell_in l c)) spans -> nonblank (map (fun c => trim_cell (cell_in l c)) spans) = true.
Proof.
  intros H. apply existsb_exists. apply Exists_exists in H as (c & Hc & N). exists (trim_cell (cell_in l c)). split; [exact (in_map (fun c => trim_cell (cell_in l c)) spans c Hc)|].
  destruct (strip (trim_cell (cell_in l c))) eqn:E; [|reflexivity]. destruct N. now apply blank_trim.
Qed.
Lemma kept_rows spans lines kept : Forall (fun c => 0 <= fst c /\ 0 <= snd c) spans -> kept_lines spans lines kept ->
  filter nonblank (map (fwf_row (map spec_of spans)) lines) = map (fun l => map (fun c => trim_cell (cell_in l c)) spans) kept.
Proof.
  intros Hs. induction 1 as [|l ls ks H _ IH|l ls ks H _ IH]; [reflexivity| |]; cbn [map filter]; rewrite fwf_row_is by exact Hs.
  - now rewrite nonblank_false.
  - rewrite nonblank_true by exact H. now rewrite IH.
Qed.
Lemma blank_text_row specs l : Forall (fun c => c = CR \/ c = NL) l -> nonblank (fwf_row specs l) = false.
Proof.
  intros H. apply existsb_none. intros e He. apply in_map_iff in He as ((a, b) & <- & _). cbn [fst snd].
  assert (F : Forall (fun c => has_char c fwf_pad = true) (zslice a b l)).
  { unfold zslice. assert (X : forall n k (l : str), Forall (fun c => c = CR \/ c = NL) l -> Forall (fun c => has_char c fwf_pad = true) (firstn n (skipn k l))).
    { intros n k l' Hl. apply Forall_forall. intros c Hc. assert (In c l') by (rewrite <- (firstn_skipn k l'); apply in_app_iff; right; rewrite <- (firstn_skipn n (skipn k l')); apply in_app_iff; now left).
      rewrite Forall_forall in Hl. destruct (Hl c) as [->| ->]; auto. }
    now apply X. }
  fold fwf_pad. replace (strip_chars fwf_pad (zslice a b l)) with (@nil ascii); [reflexivity|]. unfold strip_chars, strip_by. now rewrite lstrip_by_all.
Qed.
Lemma complete_first l s : complete_line l -> file_lines (l ++ s) = l :: file_lines s.
Proof. intros (w & -> & H). rewrite <- app_assoc. cbn [app]. now apply file_lines_app. Qed.
Lemma text_lines sep specs lines rows : sep <> NL -> sep <> CR -> lines_hold sep lines rows -> forall text, text = concat lines \/ text = join [CR; NL] lines ->
  filter nonblank (map (fwf_row specs) (file_lines text)) = filter nonblank (map (fwf_row specs) lines).
Proof.
  intros S1 S2 H.
  assert (B : forall l, Forall in_line l -> filter nonblank (map (fwf_row specs) (file_lines l)) = filter nonblank (map (fwf_row specs) [l])).
  { intros l Hl. destruct l as [|c l]; [cbn [file_lines map filter]; rewrite blank_text_row by constructor; reflexivity|]. rewrite file_lines_one; [reflexivity|discriminate|now apply in_line_nl]. }
  assert (J : forall l lines, join [CR; NL] (l :: lines) = l ++ match lines with [] => [] | _ => [CR; NL] ++ join [CR; NL] lines end).
  { intros l [|l' ls]; [now rewrite app_nil_r|reflexivity]. }
  assert (C : forall l ls, complete_line l -> (forall text, text = concat ls \/ text = join [CR; NL] ls -> filter nonblank (map (fwf_row specs) (file_lines text)) = filter nonblank (map (fwf_row specs) ls)) ->
    forall text, text = concat (l :: ls) \/ text = join [CR; NL] (l :: ls) -> filter nonblank (map (fwf_row specs) (file_lines text)) = filter nonblank (map (fwf_row specs) (l :: ls))).
  { intros l ls Hl IH text [->| ->].
    - cbn [concat]. rewrite complete_first by exact Hl. cbn [map filter]. rewrite (IH (concat ls)) by auto. reflexivity.
    - rewrite J. rewrite complete_first by exact Hl. cbn [map filter].
      assert (X : filter nonblank (map (fwf_row specs) (file_lines match ls with [] => [] | _ => [CR; NL] ++ join [CR; NL] ls end)) = filter nonblank (map (fwf_row specs) ls)).
      { destruct ls as [|l' ls']; [reflexivity|]. rewrite complete_first by (exists [CR]; split; [reflexivity|intros [X|[]]; discriminate]). cbn [map filter].
        rewrite blank_text_row by (repeat constructor; auto). apply IH. now right. }
      destruct (nonblank (fwf_row specs l)); [f_equal|]; exact X. }
  induction H as [|w e lines rows Hw He Hl IH|w e row lines rows Hw He Hl IH|w Hw|w row Hw].
  - intros text [->| ->]; reflexivity.
  - apply C; [|exact IH]. apply line_complete; [eapply blank_in_line, Hw|exact He].
  - apply C; [|exact IH]. apply line_complete; [eapply row_in_line; eauto|exact He].
  - assert (Hl : Forall in_line w) by (eapply blank_in_line, Hw). intros text [->| ->]; cbn [concat join]; rewrite ?app_nil_r; exact (B w Hl).
  - assert (Hl : Forall in_line w) by (eapply row_in_line; eauto). intros text [->| ->]; cbn [concat join]; rewrite ?app_nil_r; exact (B w Hl).
Qed.
Lemma fwf_parsed sep spans lines rows kept text : sep <> NL -> sep <> CR -> lines_hold sep lines rows -> text = concat lines \/ text = join [CR; NL] lines ->
  Forall (fun c => 0 <= fst c /\ 0 <= snd c) spans -> kept_lines spans lines kept -> kept <> [] ->
  fwf_rows (map spec_of spans) text = Parsed (length spans, map (fun l => map (fun c => trim_cell (cell_in l c)) spans) kept).
Proof.
  intros S1 S2 Hl Ht Hs Hk Hne. unfold fwf_rows. fold nonblank. change (existsb (fun e => match strip e with [] => false | _ => true end)) with nonblank.
  rewrite (text_lines sep (map spec_of spans) lines rows S1 S2 Hl text Ht), (kept_rows spans lines kept Hs Hk). rewrite map_length. destruct kept; [contradiction|reflexivity].
Qed.
Lemma map_seq_at {A B} (l : list A) (g : nat -> B) (f : A -> B) : (forall k x, nth_error l k = Some x -> g k = f x) -> map g (seq 0 (length l)) = map f l.
Proof.
  revert g. induction l as [|a l IH]; intros g H; [reflexivity|]. cbn [length seq map]. f_equal; [exact (H 0%nat a eq_refl)|].
  rewrite <- seq_shift, map_map. apply IH. intros k x E. exact (H (S k) x E).
Qed.
Lemma fwf_columns spans kept : column_texts (length spans) (map (fun l => map (fun c => trim_cell (cell_in l c)) spans) kept) = map (fun c => map (fun l => trim_cell (cell_in l c)) kept) spans.
Proof.
  unfold column_texts. apply map_seq_at. intros i c E. rewrite map_map. apply map_ext. intros l.
  apply nth_error_nth. exact (map_nth_error (fun c => trim_cell (cell_in l c)) i spans E).
Qed.
