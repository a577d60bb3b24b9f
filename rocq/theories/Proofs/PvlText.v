(** Proofs about cutting label text into statements, and about comments. *)
From Verif.Base Require Import Py Val PyFacts.
From Verif.Model Require Import Pvl.
From Verif.Spec Require Import Pvl.
From Verif.Proofs Require Import PvlBlocks.

(** ** characters *)
Lemma to_upper_fixed c : to_upper c = c <-> is_lower c = false.
Proof.
  destruct c as [b0 b1 b2 b3 b4 b5 b6 b7].
  destruct b0, b1, b2, b3, b4, b5, b6, b7; vm_compute; split; congruence.
Qed.
Lemma upper_fixed s : upper s = s <-> Forall (fun c => is_lower c = false) s.
Proof.
  unfold upper. induction s as [|c s IH]; cbn; [split; auto|]. split.
  - intros H. injection H as H1 H2. constructor; [now apply to_upper_fixed|now apply IH].
  - intros H. inversion H as [|? ? H1 H2]; subst. apply to_upper_fixed in H1.
    apply IH in H2. now rewrite H1, H2.
Qed.
Lemma upper8_iff s : upper8 s <-> Forall (fun c => is_lower c = false) (firstn 8 s).
Proof.
  unfold upper8. rewrite Forall_forall. split.
  - intros H c Hin. apply In_nth_error in Hin as [i Hi].
    assert (Hi' : (i < 8)%nat).
    { apply Nat.nle_gt. intros Hle. assert (nth_error (firstn 8 s) i = None) as Hn.
      { apply nth_error_None. pose proof (firstn_le_length 8 s). lia. }
      congruence. }
    apply (H i c Hi'). rewrite <- Hi. symmetry.
    clear - Hi'. revert i Hi'. generalize 8%nat. intros n. revert s.
    induction n as [|n IH]; intros s i Hi'; [lia|].
    destruct s as [|x s]; [now destruct i|]. destruct i as [|i]; cbn; [reflexivity|].
    apply IH; lia.
  - intros H i c Hi Hn. apply H. clear H.
    revert s i Hi Hn. generalize 8%nat. intros n.
    induction n as [|n IH]; intros s i Hi Hn; [lia|].
    destruct s as [|x s]; [now destruct i|]. destruct i as [|i]; cbn in *.
    + left. congruence.
    + right. apply IH with i; [lia|exact Hn].
Qed.
Lemma upper8_eqb s : str_eqb (firstn 8 s) (upper (firstn 8 s)) = true <-> upper8 s.
Proof.
  rewrite str_eqb_eq, upper8_iff, <- upper_fixed. split; intros H; now symmetry.
Qed.
Lemma upper8_prefix a b : upper8 (a ++ b) -> upper8 a.
Proof.
  intros H i c Hi Hn. apply (H i c Hi). rewrite nth_error_app1; [exact Hn|].
  apply nth_error_Some. congruence.
Qed.

(** ** strip and membership *)
Lemma strip_decompose s : exists w1 w2,
  blank w1 /\ blank w2 /\ s = w1 ++ strip s ++ w2.
Proof.
  unfold strip, strip_by, blank.
  destruct (lstrip_by_spec is_space s) as (w & E & Hw & _).
  destruct (lstrip_by_spec is_space (rev (lstrip_by is_space s))) as (w' & E' & Hw' & _).
  exists w, (rev w'). split; [exact Hw|]. split; [now apply Forall_rev|].
  rewrite E at 1. f_equal. unfold rstrip_by.
  rewrite <- (rev_involutive (lstrip_by is_space s)) at 1. rewrite E' at 1.
  now rewrite rev_app_distr.
Qed.
Lemma strip_in c s : In c (strip s) -> In c s.
Proof.
  destruct (strip_decompose s) as (w1 & w2 & _ & _ & E). intros H.
  rewrite E. apply in_or_app; right. apply in_or_app; now left.
Qed.
Lemma in_strip c s : is_space c = false -> In c s -> In c (strip s).
Proof.
  destruct (strip_decompose s) as (w1 & w2 & H1 & H2 & E). intros Hc H.
  rewrite E in H. apply in_app_or in H as [H|H]; [|apply in_app_or in H as [H|H]]; auto.
  - unfold blank in H1. rewrite Forall_forall in H1. apply H1 in H. congruence.
  - unfold blank in H2. rewrite Forall_forall in H2. apply H2 in H. congruence.
Qed.

(** ** lines *)
Definition nonempty (l : str) : bool := match l with [] => false | _ => true end.
Definition clean (ls : list str) : list str := filter nonempty (map strip ls).

Lemma clean_app a b : clean (a ++ b) = clean a ++ clean b.
Proof. unfold clean. now rewrite map_app, filter_app. Qed.
Lemma clean_concat lss : clean (concat lss) = concat (map clean lss).
Proof.
  induction lss as [|ls lss IH]; [reflexivity|]. cbn [concat map]. now rewrite clean_app, IH.
Qed.
Lemma clean_in l ls : In l (clean ls) -> exists l0, In l0 ls /\ l = strip l0 /\ l <> [].
Proof.
  unfold clean. rewrite filter_In, in_map_iff. intros [(l0 & E & Hin) Hne].
  exists l0. repeat split; auto. intros ->. discriminate.
Qed.

Lemma continues_not_assignment l : continues l -> is_an_assignment_line (strip l) = false.
Proof.
  intros (H1 & H2 & H3 & H4). unfold is_an_assignment_line.
  destruct (has_char "="%char (strip l)) eqn:Eh; cbn [negb].
  - destruct H1 as [H1|H1].
    + exfalso. apply has_char_iff, strip_in in Eh. contradiction.
    + destruct (str_eqb _ _) eqn:E; [|reflexivity].
      apply upper8_eqb in E. contradiction.
  - unfold extract_pvl_block_terminal.
    destruct (startswith $"END_OBJECT" (strip l)) eqn:E1.
    + exfalso. apply H2. now apply startswith_iff.
    + destruct (str_eqb_spec (strip l) $"END") as [E2|E2]; [contradiction|].
      destruct (str_eqb_spec (strip l) ($"END" ++ [NL])) as [E3|E3]; [|reflexivity].
      exfalso. apply H4. apply strip_in. rewrite E3. apply in_or_app; right; now left.
Qed.

Lemma clean_continues conts : Forall continues conts ->
  Forall (fun l => is_an_assignment_line l = false) (clean conts).
Proof.
  intros H. rewrite Forall_forall in *. intros l Hl.
  apply clean_in in Hl as (l0 & Hin & -> & _). apply continues_not_assignment; auto.
Qed.

Lemma clean_idem conts : map strip (clean conts) = clean conts.
Proof.
  rewrite <- (map_id (clean conts)) at 2. apply map_ext_in. intros l Hl.
  apply clean_in in Hl as (l0 & _ & -> & _). apply strip_by_idem.
Qed.

Lemma clean_filter conts :
  clean conts = filter (fun l => negb (str_eqb l [])) (map strip conts).
Proof.
  unfold clean. apply filter_ext. intros [|c l]; reflexivity.
Qed.

(** [split_before] on groups with a leading assignment line *)
Lemma split_before_aux_group {A} (pred : A -> bool) buf t rest :
  buf <> [] -> Forall (fun x => pred x = false) t ->
  split_before_aux pred buf (t ++ rest) = split_before_aux pred (buf ++ t) rest.
Proof.
  revert buf; induction t as [|x t IH]; intros buf Hb Ht.
  - cbn. now rewrite app_nil_r.
  - inversion Ht as [|? ? Hx Ht']; subst. cbn.
    destruct buf as [|b buf]; [contradiction|]. rewrite Hx.
    rewrite IH; [|destruct buf; discriminate|exact Ht']. now rewrite <- app_assoc.
Qed.
Lemma split_before_groups {A} (pred : A -> bool) gs :
  Forall (fun g => exists h t, g = h :: t /\ pred h = true /\
                               Forall (fun x => pred x = false) t) gs ->
  forall buf, buf <> [] ->
  split_before_aux pred buf (concat gs) = buf :: gs.
Proof.
  induction 1 as [|g gs (h & t & -> & Hh & Ht) _ IH]; intros buf Hb.
  - cbn. destruct buf; [contradiction|reflexivity].
  - cbn [concat app split_before_aux]. destruct buf as [|b buf]; [contradiction|].
    rewrite Hh. rewrite split_before_aux_group; [|discriminate|exact Ht].
    cbn [app]. f_equal. apply IH. discriminate.
Qed.
Lemma split_before_concat {A} (pred : A -> bool) gs :
  Forall (fun g => exists h t, g = h :: t /\ pred h = true /\
                               Forall (fun x => pred x = false) t) gs ->
  split_before pred (concat gs) = gs.
Proof.
  intros H. destruct gs as [|g gs]; [reflexivity|].
  inversion H as [|? ? (h & t & -> & Hh & Ht) Hgs]; subst.
  unfold split_before. cbn [concat app split_before_aux].
  rewrite split_before_aux_group; [|discriminate|exact Ht].
  cbn [app]. apply split_before_groups; [exact Hgs|discriminate].
Qed.

(** ** one written statement *)
Definition eqc : ascii := "="%char.

Lemma strip_assign w1 k w2 w3 h w4 :
  blank w1 -> blank w3 -> blank w4 -> trimmed k -> k <> [] -> trimmed h ->
  exists w3', blank w3' /\
    strip (w1 ++ k ++ w2 ++ $"=" ++ w3 ++ h ++ w4) = k ++ w2 ++ $"=" ++ w3' ++ h /\
    (exists b, w3 ++ h = (w3' ++ h) ++ b).
Proof.
  intros H1 H3 H4 Hk Hkne Hh.
  destruct (trimmed_ends is_space k Hk) as [E|(c & t & u & d & E1 & E2 & Hc & Hd)]; [contradiction|].
  destruct (trimmed_ends is_space h Hh) as [->|(c' & t' & u' & d' & E1' & E2' & Hc' & Hd')].
  - exists []. split; [constructor|]. split; [|exists w3; now rewrite app_nil_r].
    replace (w1 ++ k ++ w2 ++ $"=" ++ w3 ++ [] ++ w4)
      with (w1 ++ (k ++ w2 ++ $"=") ++ (w3 ++ w4)).
    2:{ cbn. now rewrite <- !app_assoc. }
    unfold strip. rewrite strip_by_blank_around by (auto; apply Forall_app; auto).
    cbn [app]. eapply strip_by_fixed with (c := c) (d := "="%char) (u := k ++ w2).
    + rewrite E1. reflexivity.
    + now rewrite <- app_assoc.
    + exact Hc.
    + reflexivity.
  - exists w3. split; [exact H3|]. split; [|exists []; now rewrite app_nil_r].
    replace (w1 ++ k ++ w2 ++ $"=" ++ w3 ++ h ++ w4)
      with (w1 ++ (k ++ w2 ++ $"=" ++ w3 ++ h) ++ w4).
    2:{ now rewrite <- !app_assoc. }
    unfold strip. rewrite strip_by_blank_around by auto.
    eapply strip_by_fixed with (c := c) (d := d') (u := k ++ w2 ++ $"=" ++ w3 ++ u').
    + rewrite E1. reflexivity.
    + rewrite E2'. now rewrite <- !app_assoc.
    + exact Hc.
    + exact Hd'.
Qed.

Lemma blank_no c w : is_space c = false -> blank w -> ~ In c w.
Proof.
  intros Hc Hw Hin. unfold blank in Hw. rewrite Forall_forall in Hw.
  apply Hw in Hin. congruence.
Qed.

Lemma writes_clean s ls : writes s ls ->
  exists h t, clean ls = h :: t /\ is_an_assignment_line h = true /\
    Forall (fun x => is_an_assignment_line x = false) t /\
    chunk_one (h :: t) = Some s.
Proof.
  intros H. destruct H as
    [w1 k w2 w3 h w4 conts H1 H2 H3 H4 Hk Hkne Hh Hke Hhe Hup Hend Hc Hone
    |w1 t conts H1 Hone Hc
    |w1 w2 conts H1 H2 Hone Hc].
  - destruct (strip_assign w1 k w2 w3 h w4) as (w3' & H3' & Es & b & Eb); auto.
    set (L := k ++ w2 ++ $"=" ++ w3' ++ h) in *.
    assert (HLne : nonempty L = true).
    { unfold L. destruct k; [contradiction|reflexivity]. }
    exists L, (clean conts). split.
    { unfold clean. cbn [map filter]. rewrite Es, HLne. reflexivity. }
    assert (Heq : has_char "="%char L = true).
    { apply has_char_iff. unfold L. apply in_or_app; right. apply in_or_app; right. now left. }
    assert (HupL : upper8 L).
    { apply upper8_prefix with b. unfold L. rewrite <- !app_assoc.
      rewrite <- app_assoc in Eb. rewrite <- Eb. exact Hup. }
    assert (Hterm : extract_pvl_block_terminal L = None).
    { unfold extract_pvl_block_terminal.
      destruct (startswith $"END_OBJECT" L) eqn:E1.
      - exfalso. apply startswith_iff in E1 as [u Eu].
        (* the first ten characters of L contain no '=', so they lie in k, or in
           k followed by blanks, which is impossible *)
        assert (Hsplit : exists u', k = $"END_OBJECT" ++ u' \/
                          exists x y z, $"END_OBJECT" = x ++ y :: z /\
                             k = x /\ (is_space y = true \/ y = "="%char)).
        { clear - Eu H2. unfold L in Eu.
          revert Eu. generalize ($"END_OBJECT"). intros p. revert p.
          induction k as [|c k IH]; intros p Eu.
          - destruct p as [|y p]; [exists []; left; reflexivity|].
            exists []. right. exists [], y, p. split; [reflexivity|]. split; [reflexivity|].
            destruct w2 as [|b w2]; cbn in Eu; injection Eu as Ey _.
            + right. congruence.
            + left. inversion H2; subst. assumption.
          - destruct p as [|y p]; [exists (c :: k); left; reflexivity|].
            cbn in Eu. injection Eu as <- Eu. apply IH in Eu as (u' & [->|(x & y & z & -> & -> & Hy)]).
            + exists u'. now left.
            + exists []. right. exists (c :: x), y, z. auto. }
        destruct Hsplit as (u' & [Ek|(x & y & z & Ep & _ & Hy)]).
        + apply Hend. now exists u'.
        + assert (Hin : In y $"END_OBJECT") by (rewrite Ep; apply in_or_app; right; now left).
          cbn in Hin. destruct Hy as [Hy|Hy];
            repeat (destruct Hin as [<-|Hin]; [vm_compute in Hy; discriminate|]); contradiction.
      - destruct (str_eqb_spec L $"END") as [E2|E2].
        { exfalso. rewrite E2 in Heq. vm_compute in Heq. discriminate. }
        destruct (str_eqb_spec L ($"END" ++ [NL])) as [E3|E3]; [|reflexivity].
        exfalso. rewrite E3 in Heq. vm_compute in Heq. discriminate. }
    split; [|split].
    + unfold is_an_assignment_line. rewrite Heq. cbn [negb]. now apply upper8_eqb.
    + now apply clean_continues.
    + unfold chunk_one. rewrite Hterm. unfold L.
      replace (k ++ w2 ++ $"=" ++ w3' ++ h) with ((k ++ w2) ++ "="%char :: (w3' ++ h))
        by (rewrite <- app_assoc; reflexivity).
      rewrite split_on_app.
      2:{ intros Hin. apply in_app_or in Hin as [Hin|Hin]; [contradiction|].
          revert Hin. now apply blank_no. }
      rewrite split_on_no.
      2:{ intros Hin. apply in_app_or in Hin as [Hin|Hin]; [|contradiction].
          revert Hin. now apply blank_no. }
      cbn [map]. f_equal. f_equal.
      * unfold strip. rewrite <- (app_nil_l (k ++ w2)).
        rewrite strip_by_blank_around; [exact Hk|constructor|exact H2].
      * rewrite clean_idem, clean_filter. f_equal.
        unfold strip. rewrite <- (app_nil_r h) at 1.
        rewrite strip_by_blank_around; [exact Hh|exact H3'|constructor].
  - destruct (strip_decompose t) as (a & b & Ha & Hb & Et).
    assert (Es : exists u, strip (w1 ++ $"END_OBJECT" ++ t) = $"END_OBJECT" ++ u).
    { destruct (strip t) as [|c st] eqn:Est.
      - exists []. rewrite Et, app_nil_l. unfold strip.
        rewrite strip_by_blank_around by (auto; apply Forall_app; auto). reflexivity.
      - exists (a ++ (c :: st)). rewrite Et.
        replace (w1 ++ $"END_OBJECT" ++ a ++ (c :: st) ++ b)
          with (w1 ++ ($"END_OBJECT" ++ a ++ (c :: st)) ++ b) by (now rewrite <- !app_assoc).
        unfold strip in *. rewrite strip_by_blank_around by auto.
        destruct (strip_by_ends is_space t) as [E|(c' & t' & u & d & E1 & E2 & Hc' & Hd)];
          [congruence|].
        rewrite Est in E2.
        eapply strip_by_fixed with (c := "E"%char) (d := d) (u := $"END_OBJECT" ++ a ++ u);
          [reflexivity| |reflexivity|exact Hd].
        rewrite E2 at 1. now rewrite <- !app_assoc. }
    destruct Es as [u Es]. exists ($"END_OBJECT" ++ u), (clean conts).
    split; [unfold clean; cbn [map filter]; rewrite Es; reflexivity|].
    assert (Hterm : extract_pvl_block_terminal ($"END_OBJECT" ++ u) = Some $"END_OBJECT").
    { unfold extract_pvl_block_terminal.
      assert (Hs : startswith $"END_OBJECT" ($"END_OBJECT" ++ u) = true)
        by (apply startswith_iff; now exists u).
      now rewrite Hs. }
    split; [|split].
    + unfold is_an_assignment_line. rewrite Hterm.
      destruct (has_char _ _); cbn [negb]; [|reflexivity].
      replace (firstn 8 ($"END_OBJECT" ++ u)) with $"END_OBJE" by reflexivity. reflexivity.
    + now apply clean_continues.
    + unfold chunk_one. now rewrite Hterm.
  - assert (Es : strip (w1 ++ $"END" ++ w2) = $"END").
    { unfold strip. rewrite strip_by_blank_around by auto. reflexivity. }
    exists $"END", (clean conts). split.
    { unfold clean. cbn [map filter]. rewrite Es. reflexivity. }
    repeat split; try reflexivity. now apply clean_continues.
Qed.

Lemma filter_map_all {A B} (f : A -> option B) l l' :
  Forall2 (fun a b => f a = Some b) l l' -> filter_map f l = l'.
Proof. induction 1 as [|a b l l' E _ IH]; cbn; [reflexivity|]. now rewrite E, IH. Qed.

Lemma chunk_written stmts lss : Forall2 writes stmts lss ->
  chunk_statements (clean (concat lss)) = stmts.
Proof.
  intros H. unfold chunk_statements. rewrite clean_concat.
  rewrite split_before_concat.
  - apply filter_map_all. induction H as [|s ls stmts lss Hs _ IH]; cbn; constructor; [|exact IH].
    apply writes_clean in Hs as (h & t & E & _ & _ & Hc). now rewrite E.
  - induction H as [|s ls stmts lss Hs _ IH]; cbn; constructor; [|exact IH].
    apply writes_clean in Hs as (h & t & E & Ha & Hf & _). exists h, t. auto.
Qed.

(** ** comments *)
Lemma contains_cons_false p c s : contains p (c :: s) = false ->
  startswith p (c :: s) = false /\ contains p s = false.
Proof. cbn [contains]. apply orb_false_iff. Qed.

Lemma strip_comments_step f c s :
  strip_comments_fuel (S f) (c :: s) =
  if startswith $"/*" (c :: s) then
    match comment_end (skipn 2 (c :: s)) with
    | Some rest => NL :: strip_comments_fuel f rest
    | None => c :: strip_comments_fuel f s
    end
  else c :: strip_comments_fuel f s.
Proof. reflexivity. Qed.

Lemma strip_comments_fuel_none f s : contains $"/*" s = false ->
  strip_comments_fuel f s = s.
Proof.
  revert s; induction f as [|f IH]; intros s H; [reflexivity|].
  destruct s as [|c s]; [reflexivity|].
  apply contains_cons_false in H as [H1 H2].
  rewrite strip_comments_step, H1. now rewrite IH.
Qed.

Lemma uncommented_iff s : uncommented s <-> contains $"/*" s = false.
Proof.
  unfold uncommented. rewrite <- contains_iff. destruct (contains _ s); intuition congruence.
Qed.

Lemma strip_comments_none s : uncommented s -> strip_comments s = s.
Proof. intros H. apply strip_comments_fuel_none. now apply uncommented_iff. Qed.

Lemma comment_end_le s r : comment_end s = Some r -> (length r < length s)%nat.
Proof.
  induction s as [|c s IH]; [discriminate|]. cbn [comment_end].
  destruct (_ || _).
  - intros H; injection H as <-. cbn. lia.
  - destruct (startswith _ _).
    + intros H. assert (Hr : r = skipn 1 s)
        by (change (Some (skipn 1 s) = Some r) in H; congruence).
      rewrite Hr, skipn_length. cbn [length]. lia.
    + intros H. apply IH in H. cbn. lia.
Qed.

Lemma strip_comments_fuel_enough f1 f2 s :
  (length s <= f1)%nat -> (length s <= f2)%nat ->
  strip_comments_fuel f1 s = strip_comments_fuel f2 s.
Proof.
  revert f2 s; induction f1 as [|f1 IH]; intros f2 s H1 H2.
  - destruct s; [|cbn in H1; lia]. now destruct f2.
  - destruct s as [|c s]; [now destruct f2|].
    destruct f2 as [|f2]; [cbn in H2; lia|]. cbn [length] in *.
    rewrite !strip_comments_step.
    destruct (startswith _ _).
    + destruct (comment_end _) as [r|] eqn:E.
      * f_equal. apply comment_end_le in E.
        change (skipn 2 (c :: s)) with (skipn 1 s) in E.
        rewrite skipn_length in E. apply IH; lia.
      * f_equal. apply IH; lia.
    + f_equal. apply IH; lia.
Qed.

(** unfolding equation without fuel *)
Lemma strip_comments_cons c s :
  strip_comments (c :: s) =
  if startswith $"/*" (c :: s) then
    match comment_end (skipn 2 (c :: s)) with
    | Some rest => NL :: strip_comments rest
    | None => c :: strip_comments s
    end
  else c :: strip_comments s.
Proof.
  unfold strip_comments at 1. cbn [length]. rewrite strip_comments_step.
  destruct (startswith _ _); [|reflexivity].
  destruct (comment_end _) as [r|] eqn:E; [|reflexivity].
  f_equal. apply strip_comments_fuel_enough; [|lia].
  apply comment_end_le in E.
  change (skipn 2 (c :: s)) with (skipn 1 s) in E. rewrite skipn_length in E. lia.
Qed.

Lemma startswith_comment_app a b : contains $"/*" a = false -> a <> [] ->
  (forall x, a <> x ++ ["/"%char] \/ exists y, b = "/"%char :: y \/ b = NL :: y) ->
  startswith $"/*" (a ++ b) = false.
Proof.
  intros Hc Hne Hb. destruct a as [|c a]; [contradiction|].
  destruct (startswith $"/*" ((c :: a) ++ b)) eqn:E; [|reflexivity].
  exfalso. apply startswith_iff in E as [t Et]. cbn in Et.
  destruct a as [|d a].
  - cbn in Et. injection Et as -> Et.
    destruct (Hb []) as [Hb'|(y & [Hb'|Hb'])]; [now apply Hb'| |]; rewrite Hb' in Et; discriminate.
  - cbn in Et. injection Et as -> -> _. discriminate.
Qed.

(** text before a comment (or before a line end) is kept *)
Lemma strip_comments_prefix a b : contains $"/*" a = false ->
  ((exists y, b = "/"%char :: y) \/ (exists y, b = NL :: y)) ->
  strip_comments (a ++ b) = a ++ strip_comments b.
Proof.
  intros Hc Hb. induction a as [|c a IH]; [reflexivity|].
  cbn [app]. rewrite strip_comments_cons.
  change (c :: a ++ b) with ((c :: a) ++ b).
  rewrite startswith_comment_app; [|exact Hc|discriminate|].
  - apply contains_cons_false in Hc as [_ Hc]. now rewrite IH.
  - intros x. right. destruct Hb as [[y ->]|[y ->]]; exists y; auto.
Qed.

Lemma comment_end_eol c b : ~ In NL c -> ~ In CR c -> contains $"/*" c = false ->
  comment_end (c ++ NL :: b) = Some b.
Proof.
  induction c as [|x c IH]; intros Hn Hr Hc; [reflexivity|].
  cbn [app]. cbn [comment_end].
  destruct (Ascii.eqb_spec x CR) as [->|Hx1]; [exfalso; apply Hr; now left|].
  destruct (Ascii.eqb_spec x NL) as [->|Hx2]; [exfalso; apply Hn; now left|].
  cbn [orb].
  change (x :: c ++ NL :: b) with ((x :: c) ++ NL :: b).
  rewrite startswith_comment_app; [|exact Hc|discriminate|].
  - apply contains_cons_false in Hc as [_ Hc].
    apply IH; [intros H; apply Hn; now right|intros H; apply Hr; now right|exact Hc].
  - intros y. right. exists b. now right.
Qed.

Lemma strip_comments_eol a c b :
  uncommented a -> uncommented c -> ~ In NL c -> ~ In CR c ->
  strip_comments (a ++ $"/*" ++ c ++ NL :: b) = a ++ NL :: strip_comments b.
Proof.
  intros Ha Hc Hn Hr. apply uncommented_iff in Ha, Hc.
  rewrite strip_comments_prefix; [|exact Ha|left; eexists; reflexivity].
  f_equal. change ($"/*" ++ c ++ NL :: b) with ("/"%char :: "*"%char :: c ++ NL :: b).
  rewrite strip_comments_cons.
  change (startswith $"/*" ("/"%char :: "*"%char :: c ++ NL :: b)) with true. cbn iota.
  change (skipn 2 ("/"%char :: "*"%char :: c ++ NL :: b)) with (c ++ NL :: b).
  now rewrite comment_end_eol.
Qed.

Lemma strip_comments_nl a b : uncommented a ->
  strip_comments (a ++ NL :: b) = a ++ NL :: strip_comments b.
Proof.
  intros Ha. apply uncommented_iff in Ha.
  rewrite strip_comments_prefix; [|exact Ha|right; eexists; reflexivity].
  f_equal.
Qed.

Lemma trimmed_lines_clean s : trimmed_lines s = clean (split_on NL (strip_comments s)).
Proof. reflexivity. Qed.

Lemma comment_invisible a c b :
  uncommented a -> uncommented c -> ~ In NL c -> ~ In CR c ->
  trimmed_lines (a ++ $"/*" ++ c ++ NL :: b) = trimmed_lines (a ++ NL :: b).
Proof.
  intros Ha Hc Hn Hr. rewrite !trimmed_lines_clean.
  rewrite strip_comments_eol by assumption. now rewrite strip_comments_nl.
Qed.

(** ** whole texts *)
Lemma text_lines ls : Forall one_line ls -> uncommented (text_of_lines ls) ->
  trimmed_lines (text_of_lines ls) = clean ls.
Proof.
  intros Hl Hc. rewrite trimmed_lines_clean, strip_comments_none by exact Hc.
  destruct ls as [|l ls]; [reflexivity|].
  unfold text_of_lines. rewrite split_on_join; [reflexivity|discriminate|exact Hl].
Qed.

Lemma writes_one_line s ls : writes s ls -> Forall one_line ls.
Proof.
  intros H. destruct H; constructor; auto;
    match goal with H : Forall continues _ |- _ =>
      eapply Forall_impl; [|exact H]; intros l (_ & _ & _ & Hl); exact Hl end.
Qed.

Lemma writes_all_one_line stmts lss : Forall2 writes stmts lss ->
  Forall one_line (concat lss).
Proof.
  induction 1 as [|s ls stmts lss Hs _ IH]; cbn; [constructor|].
  apply Forall_app; split; [eapply writes_one_line; eauto|exact IH].
Qed.

Lemma statements_of_text stmts lss : Forall2 writes stmts lss ->
  uncommented (text_of_lines (concat lss)) ->
  chunk_statements (trimmed_lines (text_of_lines (concat lss))) = stmts.
Proof.
  intros H Hc. rewrite text_lines; [|eapply writes_all_one_line; eauto|exact Hc].
  now apply chunk_written.
Qed.

Lemma label_of_text es lss : wf_label es ->
  Forall2 writes (label_statements es) lss ->
  uncommented (text_of_lines (concat lss)) ->
  parse_statements (chunk_statements (trimmed_lines (text_of_lines (concat lss)))) =
  Ok (denote es, flat_map completed_keys es, false).
Proof.
  intros Hw H Hc. rewrite (statements_of_text _ _ H Hc). now apply parse_balanced.
Qed.
