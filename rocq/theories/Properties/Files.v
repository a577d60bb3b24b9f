(** Properties C13, C14, C52, C57, C58: finding and opening files. *)
From Verif.Base Require Import Py PyFacts.
From Verif.Model Require Import Files.
From Verif.Spec Require Import Files.
From Verif.Proofs Require Import Files.

(** ** C13: looking for a file under one of several names *)
(** What is found exists, belongs to the first name for which anything can be
    found, and is that very file whenever it exists. *)
Theorem C13_found : forall fs cands p, ordinary_dirs fs -> check_cases fs cands false = Ok p ->
  exists before cand after l, cands = before ++ cand :: after /\ Forall (no_candidate fs) before /\
    fs (pdir cand) = Some l /\ In (pname p) l /\ pdir p = pdir cand /\
    (p = cand \/ ~ In (pname cand) l /\ stands_for (pname p) (pname cand)).
Proof. exact check_found. Qed.
Print Assumptions C13_found.
(** FileNotFoundError exactly when no name has any stand-in; no other error. *)
Theorem C13_missing : forall fs cands, ordinary_dirs fs ->
  (check_cases fs cands false = Err FileNotFoundError <-> Forall (no_candidate fs) cands).
Proof. exact check_missing. Qed.
Print Assumptions C13_missing.
Theorem C13_only_error : forall fs cands x, check_cases fs cands false = Err x -> x = FileNotFoundError.
Proof.
  intros fs cands x H. destruct (check_total fs cands) as (r & E & [Hr|[p Hr]]); congruence.
Qed.
Print Assumptions C13_only_error.
(** An existing file is found under its own name, in any other letter case, and
    under its name without a compression suffix. *)
Theorem C13_exact : forall fs d l name, fs d = Some l -> In name l ->
  check_cases fs [mkPath d name] false = Ok (mkPath d name).
Proof.
  intros fs d l name Hl Hin. cbn [check_cases]. unfold path_exists. cbn [pdir pname]. rewrite Hl.
  apply str_in_iff in Hin. now rewrite Hin.
Qed.
Print Assumptions C13_exact.
Theorem C13_other_case : forall fs d l entry request, ordinary_dirs fs -> fs d = Some l -> In entry l ->
  lower entry = lower request -> (forall plain, ~ compressed_form entry plain) ->
  exists p, check_cases fs [mkPath d request] false = Ok p /\ pdir p = d /\ In (pname p) l.
Proof.
  intros fs d l entry request Ho Hl Hin Hlow Hnc.
  destruct (check_step fs (mkPath d request) [] Ho) as
    [[Hn _]|[(l' & El & Hin' & E)|(l1 & e & l2 & El & Hni & H1 & H2 & E)]]; cbn [pdir pname] in *.
  - unfold no_candidate in Hn. cbn [pdir pname] in Hn. rewrite Hl in Hn. destruct Hn as [_ Hn].
    exfalso. apply (Hn entry Hin). right. auto.
  - exists (mkPath d request). rewrite E. cbn. rewrite Hl in El. injection El as <-. auto.
  - exists (mkPath d e). rewrite E. cbn. rewrite Hl in El. injection El as ->. split; [reflexivity|].
    split; [reflexivity|]. apply in_or_app. right. now left.
Qed.
Print Assumptions C13_other_case.
Theorem C13_compressed : forall fs d l entry request, ordinary_dirs fs -> fs d = Some l -> In entry l ->
  compressed_form entry request ->
  exists p, check_cases fs [mkPath d request] false = Ok p /\ pdir p = d /\ In (pname p) l.
Proof.
  intros fs d l entry request Ho Hl Hin Hc.
  destruct (check_step fs (mkPath d request) [] Ho) as
    [[Hn _]|[(l' & El & Hin' & E)|(l1 & e & l2 & El & Hni & H1 & H2 & E)]]; cbn [pdir pname] in *.
  - unfold no_candidate in Hn. cbn [pdir pname] in Hn. rewrite Hl in Hn. destruct Hn as [_ Hn].
    exfalso. apply (Hn entry Hin). left. auto.
  - exists (mkPath d request). rewrite E. cbn. rewrite Hl in El. injection El as <-. auto.
  - exists (mkPath d e). rewrite E. cbn. rewrite Hl in El. injection El as ->. split; [reflexivity|].
    split; [reflexivity|]. apply in_or_app. right. now left.
Qed.
Print Assumptions C13_compressed.
(** With [skip] the first name is returned unseen. *)
Theorem C13_skip : forall fs cand cands, check_cases fs (cand :: cands) true = Ok cand.
Proof. exact check_skip. Qed.
Print Assumptions C13_skip.

Definition ex_fs : fsys := fun d => if str_eqb d $"/data" then
  Some [$"readme"; $"A0001.IMG.GZ"; $"b0002.Lbl"; $"B0002.dat"] else None.
Lemma ordinary_bool name : (match name with [] => false | c :: _ =>
   negb (Ascii.eqb c ".") && negb (Ascii.eqb (last name ".") ".") end)%char = true -> ordinary name.
Proof.
  destruct name as [|c s]; [discriminate|]. intros H. apply andb_true_iff in H as [H1 H2].
  apply negb_true_iff in H1, H2. apply Ascii.eqb_neq in H1, H2. repeat split; auto. discriminate.
Qed.
Lemma ex_ordinary : ordinary_dirs ex_fs.
Proof.
  intros d l e H Hin. unfold ex_fs in H. destruct (str_eqb d _); [|discriminate]. injection H as <-.
  cbn [In] in Hin. decompose [or] Hin; subst; try contradiction; apply ordinary_bool; reflexivity.
Qed.
Example C13_meets : ordinary_dirs ex_fs /\
  compressed_form $"A0001.IMG.GZ" $"a0001.img" /\
  check_cases ex_fs [mkPath $"/x" $"q"; mkPath $"/data" $"a0001.img"] false =
    Ok (mkPath $"/data" $"A0001.IMG.GZ") /\
  check_cases ex_fs [mkPath $"/data" $"none.img"] false = Err FileNotFoundError.
Proof.
  split; [exact ex_ordinary|]. split; [|split; reflexivity].
  exists $".gz". repeat split; cbn; auto 10.
Qed.
(** Findings: asking for a compressed file in the wrong letter case fails, and
    names ending in a dot stand in for unrelated ones. *)
Theorem C13_compressed_case_refuted : exists fs d l entry request,
  ordinary_dirs fs /\ fs d = Some l /\ In entry l /\ lower entry = lower request /\
  check_cases fs [mkPath d request] false = Err FileNotFoundError.
Proof.
  exists ex_fs, $"/data", [$"readme"; $"A0001.IMG.GZ"; $"b0002.Lbl"; $"B0002.dat"],
    $"A0001.IMG.GZ", $"a0001.img.gz".
  split; [exact ex_ordinary|]. repeat split; cbn; auto 10.
Qed.
Print Assumptions C13_compressed_case_refuted.
Theorem C13_trailing_dot_refuted : exists fs d request p,
  check_cases fs [mkPath d request] false = Ok p /\
  lower (pname p) <> lower request /\ ~ compressed_form (pname p) request.
Proof.
  exists (fun _ => Some [$"a.b."]), $"/", $"a", (mkPath $"/" $"a.b."). split; [reflexivity|].
  split; [discriminate|]. intros (s & _ & _ & H). cbn in H. intuition discriminate.
Qed.
Print Assumptions C13_trailing_dot_refuted.

(** ** C14: the label that goes with a data file *)
Definition label_like (p : path) : Prop :=
  exists e, In e [$".xml"; $".lbl"; $".lblx"] /\ exists s, lower (pname p) = s ++ e.
(** Chang'e products: ceN in the path and one of their label suffixes *)
Definition change_label (p : path) : Prop :=
  (exists m a b, In m $"123456" /\ lower (pstr p) = a ++ ($"ce" ++ [m]) ++ b) /\
  exists e s, In e [$".2bl"; $".2al"; $".2cl"; $".01l"; $".3bl"; $".3al"; $".3cl"] /\
              lower (pstr p) = s ++ e.

Lemma endswith_any_iff exts s : endswith_any exts s = true <-> exists e t, In e exts /\ s = t ++ e.
Proof.
  unfold endswith_any. rewrite existsb_exists. split.
  - intros (e & He & H). apply endswith_iff in H as [t ->]. exists e, t. auto.
  - intros (e & t & He & ->). exists e. split; [exact He|]. apply endswith_iff. now exists t.
Qed.
Lemma suffix_of_name d n s e : ~ In "/"%char e -> d ++ $"/" ++ n = s ++ e -> exists t, n = t ++ e.
Proof.
  change ($"/" ++ n) with ("/"%char :: n). intros He. revert s. induction d as [|c d IH]; intros s E.
  - destruct s as [|x s]; cbn in E.
    + exfalso. apply He. rewrite <- E. now left.
    + injection E as _ E. now exists s.
  - destruct s as [|x s]; cbn in E.
    + exfalso. apply He. rewrite <- E. right. apply in_or_app. right. now left.
    + injection E as _ E. now apply IH in E.
Qed.
Lemma label_like_iff p : endswith_any LABEL_EXTENSIONS (lower (pstr p)) = true <-> label_like p.
Proof.
  rewrite endswith_any_iff. unfold label_like, pstr. rewrite !lower_app. split.
  - intros (e & t & He & E). exists e. split; [exact He|]. eapply suffix_of_name; [|exact E].
    cbn in He. decompose [or] He; try contradiction; subst e; cbn; intuition discriminate.
  - intros (e & He & s & E). exists e, (lower (pdir p) ++ lower $"/" ++ s). split; [exact He|].
    rewrite E, <- !app_assoc. reflexivity.
Qed.
Lemma change_iff p : existsb (fun m => contains ($"ce" ++ [m]) (lower (pstr p))) $"123456"
              && endswith_any CHANG_LBL_EXTENSIONS (lower (pstr p)) = true <-> change_label p.
Proof.
  unfold change_label. rewrite andb_true_iff, endswith_any_iff, existsb_exists. split.
  - intros [(m & Hm & Hc) (e & t & He & E)]. apply contains_iff in Hc as (a & b & Hc).
    split; [exists m, a, b; auto|]. exists e, t. auto.
  - intros [(m & a & b & Hm & Hc) (e & s & He & E)]. split; [|exists e, s; auto].
    exists m. split; [exact Hm|]. apply contains_iff. exists a, b. exact Hc.
Qed.

(** A label given by name is looked up like any file; a data file that is itself
    a label is its own label. *)
Theorem C14_given : forall fs data label,
  associate_label_file fs data (Some label) false =
  match check_cases fs [label] false with Ok p => Ok (Some p) | Err x => Err x end.
Proof. intros. cbn [associate_label_file]. destruct (check_cases _ _ _); reflexivity. Qed.
Print Assumptions C14_given.
Theorem C14_itself : forall fs data skip, label_like data \/ change_label data ->
  associate_label_file fs data None skip =
  match check_cases fs [data] false with Ok p => Ok (Some p) | Err x => Err x end.
Proof.
  intros fs data skip H. cbn [associate_label_file].
  destruct (endswith_any LABEL_EXTENSIONS (lower (pstr data))) eqn:E1.
  { destruct (check_cases _ _ _); reflexivity. }
  destruct H as [H|H]; [apply label_like_iff in H; congruence|]. apply change_iff in H. rewrite H.
  destruct (check_cases _ _ _); reflexivity.
Qed.
Print Assumptions C14_itself.

Lemma check_app fs a b : check_cases fs (a ++ b) false =
  match check_cases fs a false with Ok p => Ok p | Err _ => check_cases fs b false end.
Proof.
  induction a as [|c a IH]; [reflexivity|]. cbn [app check_cases].
  destruct (path_exists fs c); [reflexivity|]. destruct (fs (pdir c)); [|exact IH].
  destruct (filter _ _); [exact IH|reflexivity].
Qed.
Lemma associate_search fs data skip : ~ label_like data -> ~ change_label data ->
  associate_label_file fs data None skip =
  match check_cases fs (map (with_extension data) [$".xml"; $".lbl"; $".lblx"]) false with
  | Ok p => Ok (Some p) | Err _ => Ok None end.
Proof.
  intros H1 H2. cbn [associate_label_file].
  destruct (endswith_any LABEL_EXTENSIONS (lower (pstr data))) eqn:E1; [now apply label_like_iff in E1|].
  destruct (existsb _ _ && _) eqn:E2; [now apply change_iff in E2|].
  cbn [LABEL_EXTENSIONS map].
  assert (H3 : forall a b c, check_cases fs [a; b; c] false =
    match check_cases fs [a] false with Ok p => Ok p | Err _ =>
    match check_cases fs [b] false with Ok p => Ok p | Err _ => check_cases fs [c] false end end).
  { intros a b c. pose proof (check_app fs [a] [b; c]) as E3. pose proof (check_app fs [b] [c]) as E4.
    cbn [app] in E3, E4. now rewrite E3, E4. }
  rewrite H3.
  repeat match goal with |- context [check_cases fs [?p] false] =>
    let r := fresh "r" in let E := fresh "E" in let Hr := fresh "Hr" in
    destruct (check_total fs [p]) as (r & E & Hr); rewrite !E; destruct Hr as [->|[? ->]] end; reflexivity.
Qed.

(** Otherwise the label is the first of x.xml, x.lbl, x.lblx that exists (in any
    letter case, or compressed), where x is the data file's name up to its last
    dot; None exactly when none does. *)
Theorem C14_search : forall fs data stem ext skip, ordinary_dirs fs ->
  ~ label_like data -> ~ change_label data -> splits_at_last_dot (pname data) stem ext ->
  let cands := map (fun e => mkPath (pdir data) (stem ++ e)) [$".xml"; $".lbl"; $".lblx"] in
  (associate_label_file fs data None skip = Ok None /\ Forall (no_candidate fs) cands) \/
  (exists before cand after p, cands = before ++ cand :: after /\ Forall (no_candidate fs) before /\
     associate_label_file fs data None skip = Ok (Some p) /\ pdir p = pdir data /\
     (p = cand \/ stands_for (pname p) (pname cand)) /\
     exists l, fs (pdir data) = Some l /\ In (pname p) l).
Proof.
  intros fs data stem ext skip Ho H1 H2 Hs cands. rewrite (associate_search fs data skip H1 H2).
  assert (E : map (with_extension data) [$".xml"; $".lbl"; $".lblx"] = cands).
  { unfold cands. apply map_ext. intros e. unfold with_extension. f_equal. now apply last_dot_split with (ext := ext). }
  rewrite E. destruct (check_total fs cands) as (r & Er & [Hr|[p Hr]]); rewrite Er, Hr.
  - left. split; [reflexivity|]. apply (check_missing fs cands Ho). congruence.
  - right. rewrite Hr in Er. destruct (check_found fs cands p Ho Er) as (b & c & a & l & Ec & Hb & Hl & Hin & Hd & Hp).
    exists b, c, a, p. split; [exact Ec|]. split; [exact Hb|]. split; [reflexivity|].
    assert (Hcd : pdir c = pdir data).
    { assert (Hin2 : In c cands) by (rewrite Ec; apply in_or_app; right; now left).
      unfold cands in Hin2. apply in_map_iff in Hin2 as (e & <- & _). reflexivity. }
    split; [congruence|]. split; [tauto|]. exists l. rewrite <- Hcd. auto.
Qed.
Print Assumptions C14_search.
Example C14_meets : let data := mkPath $"/data" $"B0002.dat" in
  splits_at_last_dot (pname data) $"B0002" $"dat" /\ ~ label_like data /\ ~ change_label data /\
  associate_label_file ex_fs data None false = Ok (Some (mkPath $"/data" $"b0002.Lbl")).
Proof.
  cbn. repeat split; try discriminate; try (cbn; intuition discriminate); try reflexivity.
  - intros H. apply label_like_iff in H. discriminate.
  - intros H. apply change_iff in H. discriminate.
Qed.
(** Finding: the label of a compressed data file is not found. *)
Theorem C14_compressed_refuted : exists fs d,
  ordinary_dirs fs /\ fs d = Some [$"x.img.gz"; $"x.lbl"] /\
  associate_label_file fs (mkPath d $"x.img.gz") None false = Ok None.
Proof.
  exists (fun _ => Some [$"x.img.gz"; $"x.lbl"]), $"/". split; [|split; reflexivity].
  intros d l e H Hin. injection H as <-. cbn [In] in Hin.
  decompose [or] Hin; subst; try contradiction; apply ordinary_bool; reflexivity.
Qed.
Print Assumptions C14_compressed_refuted.

(** ** C52: repeated definitions *)
Theorem C52_repeat : forall (A : Type) (obj : repeatable A) (fields : list A) (count : Z),
  append_repeated_object obj fields count =
  fields ++ concat (repeat (match obj with RSeq l => l | RObj a => [a] end) (Nat.max 1 (Z.to_nat count))).
Proof. intros. apply repeat_spec. Qed.
Print Assumptions C52_repeat.
Theorem C52_length : forall (A : Type) (l fields : list A) (count : Z),
  List.length (append_repeated_object (RSeq l) fields count) =
  (List.length fields + Nat.max 1 (Z.to_nat count) * List.length l)%nat.
Proof.
  intros. rewrite repeat_spec, app_length. f_equal. induction (Nat.max 1 (Z.to_nat count)); [reflexivity|].
  cbn [repeat concat]. rewrite app_length, IHn. reflexivity.
Qed.
Print Assumptions C52_length.
Example C52_meets : append_repeated_object (RSeq [1; 2]) [4] 3 = [4; 1; 2; 1; 2; 1; 2] /\
  append_repeated_object (RObj 7) [4] (-2) = [4; 7].
Proof. split; reflexivity. Qed.

(** ** C57: compressed files are opened with the right decompressor *)
Definition kind_of_suffix (s : str) : stream_kind :=
  if str_eqb s $"gz" then SGzip else if str_eqb s $"bz2" then SBz2
  else if str_eqb s $"zip" then SZip else SPlain.
Theorem C57_by_suffix : forall name stem ext, splits_at_last_dot name stem ext ->
  decompress_kind name = kind_of_suffix (lower ext).
Proof.
  intros name stem ext H. unfold decompress_kind. destruct (last_dot_split name stem ext H) as [-> _].
  change (lower (DOT :: ext)) with (DOT :: lower ext). unfold kind_of_suffix. reflexivity.
Qed.
Print Assumptions C57_by_suffix.
(** A file found in place of the plain one named in a label is opened with the
    decompressor its suffix calls for. *)
Theorem C57_stand_in : forall entry request, ordinary entry -> compressed_form entry request ->
  exists s, In s [$"gz"; $"bz2"; $"zip"] /\ lower entry = lower request ++ $"." ++ s /\
    decompress_kind entry = kind_of_suffix s /\ decompress_kind entry <> SPlain.
Proof.
  intros entry request Ho (s & Hs & E & Hd).
  assert (Hx : exists x, In x [$"gz"; $"bz2"; $"zip"] /\ s = DOT :: x /\ ~ In DOT x /\ x <> []).
  { cbn in Hs. decompose [or] Hs; try contradiction; subst s; eexists; (split; [|split; [reflexivity|]]);
      cbn; auto; (split; [intuition discriminate|discriminate]). }
  destruct Hx as (x & Hx & -> & Hnd & Hne).
  (* split the entry like its lower-case form *)
  assert (Hsp : exists a b, entry = a ++ b /\ lower a = lower request /\ lower b = DOT :: x).
  { exists (firstn (List.length request) entry), (skipn (List.length request) entry).
    split; [now rewrite firstn_skipn|]. unfold lower in *. rewrite <- firstn_map, <- skipn_map, E.
    assert (El : List.length (map to_lower request) = List.length request) by apply map_length.
    rewrite <- El. split.
    - now rewrite firstn_app, Nat.sub_diag, firstn_all, app_nil_r.
    - now rewrite skipn_app, Nat.sub_diag, skipn_all. }
  destruct Hsp as (a & b & Eab & Ha & Hb). destruct b as [|c b]; [discriminate|].
  cbn [lower map] in Hb. injection Hb as Hc Hb. assert (c = DOT) by (now apply to_lower_dot). subst c.
  exists x. split; [exact Hx|]. split; [exact E|].
  assert (Hsl : splits_at_last_dot entry a b).
  { subst entry. split; [reflexivity|]. split.
    - intros H. apply in_dot_lower in H. change (map to_lower b) with (lower b) in Hb. now rewrite Hb in H.
    - split.
      + intros ->. symmetry in Ha. apply map_eq_nil in Ha. subst request. contradiction.
      + intros ->. cbn in Hb. congruence. }
  rewrite (C57_by_suffix entry a b Hsl). change (map to_lower b) with (lower b) in Hb. rewrite Hb.
  split; [reflexivity|]. clear - Hx. cbn [In] in Hx. decompose [or] Hx; try contradiction; subst x; intros Hk; vm_compute in Hk; discriminate Hk.
Qed.
Print Assumptions C57_stand_in.
Theorem C57_fits : forall fmt p, 
  (exists e s, In e [$".fits"; $".fit"; $".fits.gz"; $".fit.gz"; $".fz"] /\ lower (pname p) = s ++ e) ->
  check_primary_fmt fmt p = Some $"FITS".
Proof.
  intros fmt p (e & s & He & E). unfold check_primary_fmt.
  assert (H : endswith_any FITS_EXTENSIONS (lower (pstr p)) = true).
  { apply endswith_any_iff. exists e, (lower (pdir p) ++ lower $"/" ++ s). split; [exact He|].
    unfold pstr. now rewrite !lower_app, E, <- !app_assoc. }
  now rewrite H.
Qed.
Print Assumptions C57_fits.
Example C57_meets : ordinary $"A.IMG.BZ2" /\ compressed_form $"A.IMG.BZ2" $"a.img" /\
  decompress_kind $"A.IMG.BZ2" = SBz2 /\ decompress_kind $"A.IMG" = SPlain.
Proof.
  split; [apply ordinary_bool; reflexivity|]. split; [|split; reflexivity].
  exists $".bz2". repeat split; cbn; auto 10.
Qed.

(** ** C58: the root of a data set *)
Theorem C58_root : forall before d after, lower d = $"data" ->
  Forall (fun p => lower p <> $"data") after ->
  find_repository_root (before ++ d :: after) = Ok before.
Proof. exact root_spec. Qed.
Print Assumptions C58_root.
Theorem C58_none : forall parts, Forall (fun p => lower p <> $"data") parts ->
  find_repository_root parts = Err IndexError.
Proof. exact root_none. Qed.
Print Assumptions C58_none.
Example C58_meets :
  find_repository_root [$"/"; $"mnt"; $"data"; $"go0001"; $"DATA"; $"x"; $"y.img"] =
  Ok [$"/"; $"mnt"; $"data"; $"go0001"].
Proof. reflexivity. Qed.
