(** C76: the files objects are read from. *)
From Coq Require Import Lia Permutation.
From Verif.Base Require Import Py PyFacts Val.
From Verif.Model Require Import Pvl Files Dispatch.
From Verif.Model Require Import Table Objects.
From Verif.Spec Require Import Pvl Objects.
From Verif.Spec Require Import Files.
From Verif.Proofs Require Import Pds4Tables Objects.
From Verif.Properties Require Files.
From Verif.Properties Require Import Objects.

Lemma split_last d name : ~ In "/"%char name -> split_on "/"%char (d ++ $"/" ++ name) = split_on "/"%char d ++ [name].
Proof. intros H. change ($"/" ++ name) with ("/"%char :: name). now rewrite split_app_sep, (split_on_no _ name H). Qed.
Lemma path_of_bare d name : bare_name name -> path_of d name = mkPath d name.
Proof.
  intros H. unfold path_of.
  assert (E : startswith $"/" name = false).
  { destruct (startswith $"/" name) eqn:E; [|reflexivity]. apply startswith_iff in E as [t ->]. exfalso. apply H. now left. }
  rewrite E, (split_last d name H), rev_app_distr. cbn [rev app]. rewrite rev_involutive. f_equal. exact (join_split_on _ d).
Qed.
Lemma absolute_bare dirs name : bare_name name -> get_absolute_paths dirs name = in_directories dirs name.
Proof. intros H. unfold get_absolute_paths, in_directories. apply map_ext. intros d. now apply path_of_bare. Qed.

(** a label that does not describe a compressed file and its contents *)
Definition one_file (m : multidict) : Prop := md_get m $"COMPRESSED_FILE" = None \/ md_get m $"UNCOMPRESSED_FILE" = None.
Lemma not_pair o m params dirs keys n : one_file m -> check_compressed_file_pointer o m params dirs keys n = Ok None.
Proof.
  intros H. unfold check_compressed_file_pointer. rewrite !md_has_get.
  destruct H as [-> | ->]; [reflexivity|]. destruct (md_get m $"COMPRESSED_FILE"); reflexivity.
Qed.
Definition found_in (fs : fsys) (dirs : list str) (name : str) (p : path) : Prop :=
  exists before d after l, dirs = before ++ d :: after /\ Forall (fun d => no_candidate fs (mkPath d name)) before /\
    fs d = Some l /\ pdir p = d /\ In (pname p) l /\ (pname p = name \/ ~ In name l /\ stands_for (pname p) name).
Lemma found_dirs fs dirs name p : ordinary_dirs fs -> check_cases fs (in_directories dirs name) false = Ok p -> found_in fs dirs name p.
Proof.
  intros Ho H. destruct (Files.C13_found fs _ p Ho H) as (before & cand & after & l & E & Hb & Hl & Hin & Hd & Hc).
  unfold in_directories in E. 
  assert (Hs : exists b d a, dirs = b ++ d :: a /\ before = in_directories b name /\ cand = mkPath d name).
  { clear -E. revert before E. induction dirs as [|d dirs IH]; intros before E; [destruct before; discriminate|].
    destruct before as [|x before]; cbn in E.
    - injection E as <- _. exists [], d, dirs. auto.
    - injection E as <- E. destruct (IH _ E) as (b & d' & a & -> & -> & ->). exists (d :: b), d', a. auto. }
  destruct Hs as (b & d & a & -> & -> & ->). exists b, d, a, l. split; [reflexivity|]. unfold in_directories in Hb. rewrite Forall_map in Hb.
  cbn [pdir pname] in *. repeat (split; [assumption|]). destruct Hc as [->|Hc]; [now left|now right].
Qed.
(** An object whose pointer names a file is read from the file of that name, or standing in for
    it (C13), in the first of the search directories that has one. *)
Theorem C76_named_file : forall o m params filename dirs fs keys files raise n v f files' p,
  ordinary_dirs fs -> one_file m -> mapped files n = None -> mget o m params (pointerize n) = v -> names_file v f -> bare_name f ->
  target_path o m params filename dirs fs None keys files true raise n = (files', Ok (Some p)) ->
  found_in fs dirs f p /\ mapped files' n = Some p.
Proof.
  intros o m params filename dirs fs keys files raise n v f files' p Ho H1 Hm Hv Hf Hb E.
  unfold target_path in E. rewrite Hm in E. unfold object_to_filename in E. rewrite (not_pair _ _ _ _ _ _ H1) in E. cbn [rbind] in E.
  assert (Hc : match mget o m params (pointerize n) with PTuple [] => Err IndexError
    | PTuple (PStr s :: _) | PStr s => Ok (get_absolute_paths dirs s) | _ => Ok [filename] end = Ok (in_directories dirs f)).
  { rewrite Hv. destruct Hf as [-> |[l ->]]; now rewrite absolute_bare. }
  rewrite Hc in E. cbn [rbind] in E. destruct (check_cases fs (in_directories dirs f) false) as [q|e] eqn:Ec.
  - injection E as <- <-. split; [now apply found_dirs|]. now rewrite mapped_cons, str_eqb_refl.
  - apply cases_error in Ec as ->. destruct raise; discriminate.
Qed.
(** A product with a special file name for the object (check_special_fn) has it read from the
    file of that name, whatever the label's pointers and compressed files say. *)
Theorem C76_special_name : forall o m params filename dirs fs keys files raise n f files' p,
  ordinary_dirs fs -> mapped files n = None -> bare_name f ->
  target_path o m params filename dirs fs (Some f) keys files true raise n = (files', Ok (Some p)) ->
  found_in fs dirs f p /\ mapped files' n = Some p.
Proof.
  intros o m params filename dirs fs keys files raise n f files' p Ho Hm Hb E.
  unfold target_path in E. rewrite Hm in E. cbn [object_to_filename rbind] in E. rewrite (absolute_bare _ _ Hb) in E.
  destruct (check_cases fs (in_directories dirs f) false) as [q|e] eqn:Ec.
  - injection E as <- <-. split; [now apply found_dirs|]. now rewrite mapped_cons, str_eqb_refl.
  - apply cases_error in Ec as ->. destruct raise; discriminate.
Qed.
Print Assumptions C76_special_name.
(** If no directory has one, there is no file: an error if asked for, and nothing is recorded. *)
Theorem C76_missing_file : forall o m params filename dirs fs keys files cached raise n v f,
  ordinary_dirs fs -> one_file m -> mapped files n = None -> mget o m params (pointerize n) = v -> names_file v f -> bare_name f ->
  Forall (fun d => no_candidate fs (mkPath d f)) dirs ->
  target_path o m params filename dirs fs None keys files cached raise n = (files, if raise : bool then Err FileNotFoundError else Ok None).
Proof.
  intros o m params filename dirs fs keys files cached raise n v f Ho H1 Hm Hv Hf Hb Hn.
  unfold target_path. replace (if cached then mapped files n else None) with (@None path) by (destruct cached; auto).
  unfold object_to_filename. rewrite (not_pair _ _ _ _ _ _ H1). cbn [rbind].
  assert (Hc : match mget o m params (pointerize n) with PTuple [] => Err IndexError
    | PTuple (PStr s :: _) | PStr s => Ok (get_absolute_paths dirs s) | _ => Ok [filename] end = Ok (in_directories dirs f)).
  { rewrite Hv. destruct Hf as [-> |[l ->]]; now rewrite absolute_bare. }
  rewrite Hc. cbn [rbind].
  assert (Hmiss : check_cases fs (in_directories dirs f) false = Err FileNotFoundError).
  { apply Files.C13_missing; [exact Ho|]. unfold in_directories. now rewrite Forall_map. }
  now rewrite Hmiss.
Qed.
(** An object whose pointer names no file, or that has no pointer, is read from the file opened. *)
Theorem C76_opened_file : forall o m params dirs fs keys files cached raise n d name l,
  one_file m -> mapped files n = None -> names_no_file (mget o m params (pointerize n)) -> fs d = Some l -> In name l ->
  target_path o m params (mkPath d name) dirs fs None keys files cached raise n = ((n, mkPath d name) :: files, Ok (Some (mkPath d name))).
Proof.
  intros o m params dirs fs keys files cached raise n d name l H1 Hm [Hv1 Hv2] Hl Hin.
  unfold target_path. replace (if cached then mapped files n else None) with (@None path) by (destruct cached; auto).
  unfold object_to_filename. rewrite (not_pair _ _ _ _ _ _ H1). cbn [rbind].
  assert (Hc : match mget o m params (pointerize n) with PTuple [] => Err IndexError
    | PTuple (PStr s :: _) | PStr s => Ok (get_absolute_paths dirs s) | _ => Ok [mkPath d name] end = Ok [mkPath d name]).
  { destruct (mget o m params (pointerize n)) as [| | | |s|[|[| | | |s| | | |] t]| | |]; try reflexivity; try contradiction.
    - exfalso. apply (Hv1 s). now left.
    - exfalso. apply (Hv1 s). right. now exists t. }
  rewrite Hc. cbn [rbind]. rewrite (Files.C13_exact fs d l name Hl Hin). reflexivity.
Qed.
(** What was found is remembered: later lookups give the same file, whatever has happened to the
    file system and whatever other objects were looked for in between ... *)
Definition lookups o m params filename dirs (l : list (fsys * option str * list str * bool * str)) (files : list (str * path)) : list (str * path) :=
  fold_left (fun files x => let '(fs, special, keys, raise, n) := x in fst (target_path o m params filename dirs fs special keys files true raise n)) l files.
Lemma lookup_keeps o m params filename dirs fs special keys files raise n k p : mapped files k = Some p ->
  mapped (fst (target_path o m params filename dirs fs special keys files true raise n)) k = Some p.
Proof.
  intros H. unfold target_path. destruct (mapped files n) as [q|] eqn:E; [exact H|].
  destruct (rbind _ _) as [q|e]; cbn [fst].
  - rewrite mapped_cons. destruct (str_eqb n k) eqn:Ek; [apply str_eqb_eq in Ek; congruence|exact H].
  - destruct e; exact H.
Qed.
Theorem C76_remembered : forall o m params filename dirs fs special keys files cached raise n files' p history fs' special' keys' raise',
  target_path o m params filename dirs fs special keys files cached raise n = (files', Ok (Some p)) ->
  snd (target_path o m params filename dirs fs' special' keys' (lookups o m params filename dirs history files') true raise' n) = Ok (Some p).
Proof.
  intros o m params filename dirs fs special keys files cached raise n files' p history fs' special' keys' raise' E.
  assert (H : mapped files' n = Some p).
  { unfold target_path in E. destruct (if cached then mapped files n else None) as [q|] eqn:Eq.
    - injection E as <- <-. destruct cached; [exact Eq|discriminate].
    - destruct (rbind _ _) as [q|e].
      + injection E as <- <-. now rewrite mapped_cons, str_eqb_refl.
      + destruct e; try discriminate; destruct raise; discriminate. }
  assert (H2 : mapped (lookups o m params filename dirs history files') n = Some p).
  { clear E. revert files' H. induction history as [|[[[[f s] ks] r] x] history IH]; intros files' H; [exact H|]. cbn [lookups fold_left].
    apply IH. now apply lookup_keeps. }
  unfold target_path. now rewrite H2.
Qed.
(** ... unless they are asked to look again *)
Theorem C76_looked_for_again : forall o m params filename dirs fs special keys files raise n,
  snd (target_path o m params filename dirs fs special keys files false raise n) =
  snd (target_path o m params filename dirs fs special keys [] true raise n).
Proof. intros. unfold target_path. cbn [mapped find]. destruct (rbind _ _) as [q|e]; [reflexivity|]. destruct e; reflexivity. Qed.
Print Assumptions C76_named_file.
Print Assumptions C76_missing_file.
Print Assumptions C76_opened_file.
Print Assumptions C76_remembered.
Print Assumptions C76_looked_for_again.

(** ** Compressed files with descriptions of what they hold *)
(** the label has both blocks, naming the files [cf] and [uf], and describes [n] in the second *)
Definition says_pair o m params (n cf uf : str) : Prop :=
  exists c u, md_get m $"COMPRESSED_FILE" <> None /\ md_get m $"UNCOMPRESSED_FILE" <> None /\
    mget o m params $"COMPRESSED_FILE" = PMulti c /\ mget o m params $"UNCOMPRESSED_FILE" = PMulti u /\ mblock o m params $"UNCOMPRESSED_FILE" = PMulti u /\
    holds c $"FILE_NAME" (PStr cf) /\ holds u $"FILE_NAME" (PStr uf) /\ md_get u n <> None.
(** the two orders in which Python may go through a set of two strings *)
Definition some_order (keys : list str) : Prop := Permutation [$"COMPRESSED_FILE"; $"UNCOMPRESSED_FILE"] keys.
Lemma orders keys : some_order keys -> keys = [$"COMPRESSED_FILE"; $"UNCOMPRESSED_FILE"] \/ keys = [$"UNCOMPRESSED_FILE"; $"COMPRESSED_FILE"].
Proof. apply Permutation_length_2_inv. Qed.
Lemma pair_candidates o m params filename dirs keys n cf uf : says_pair o m params n cf uf -> cf <> [] -> uf <> [] -> bare_name cf -> bare_name uf ->
  some_order keys ->
  exists a b, (a = cf /\ b = uf \/ a = uf /\ b = cf) /\
    object_to_filename o m params filename dirs None keys n = Ok (in_directories dirs a ++ in_directories dirs b).
Proof.
  intros (c & u & H1 & H2 & Hc & Hu & Hb & Hcf & Huf & Hn) Ncf Nuf Bc Bu Hk.
  unfold object_to_filename, check_compressed_file_pointer. rewrite !md_has_get.
  destruct (md_get m $"COMPRESSED_FILE"); [|contradiction]. destruct (md_get m $"UNCOMPRESSED_FILE"); [|contradiction]. cbn [andb].
  rewrite Hb, md_has_get. destruct (md_get u n); [|contradiction].
  unfold file_names_of. unfold holds in *.
  destruct (orders keys Hk) as [-> | ->]; cbn [rmap]; rewrite Hc, Hu; cbn [rbind]; rewrite Hcf, Huf; cbn [concat app filter];
    (destruct cf as [|x1 cf]; [contradiction|]); (destruct uf as [|x2 uf]; [contradiction|]); cbn [falsy negb filter rmap rbind flat_map];
    rewrite !absolute_bare, app_nil_r by assumption; eexists _, _; (split; [|reflexivity]); auto.
Qed.
Lemma check_app fs a b : check_cases fs (a ++ b) false = match check_cases fs a false with Ok p => Ok p | Err _ => check_cases fs b false end.
Proof.
  induction a as [|p a IH]; cbn [app check_cases]; [reflexivity|]. destruct (path_exists fs p); [reflexivity|].
  destruct (fs (pdir p)); [|exact IH]. destruct (filter _ _); [exact IH|reflexivity].
Qed.
(** An object of a compressed file is found under the name of the compressed file or of its
    contents; whichever is there, if only one is. *)
Theorem C76_compressed_pair : forall o m params filename dirs fs keys n cf uf files' p raise,
  ordinary_dirs fs -> says_pair o m params n cf uf -> cf <> [] -> uf <> [] -> bare_name cf -> bare_name uf -> some_order keys ->
  target_path o m params filename dirs fs None keys [] true raise n = (files', Ok (Some p)) ->
  (found_in fs dirs cf p \/ found_in fs dirs uf p) /\
  (Forall (fun d => no_candidate fs (mkPath d uf)) dirs -> found_in fs dirs cf p) /\
  (Forall (fun d => no_candidate fs (mkPath d cf)) dirs -> found_in fs dirs uf p).
Proof.
  intros o m params filename dirs fs keys n cf uf files' p raise Ho Hp Ncf Nuf Bc Bu Hk E.
  destruct (pair_candidates o m params filename dirs keys n cf uf Hp Ncf Nuf Bc Bu Hk) as (a & b & Hab & Ec).
  unfold target_path in E. cbn [mapped find] in E. rewrite Ec in E. cbn [rbind] in E. rewrite check_app in E.
  assert (No : forall x q, Forall (fun d => no_candidate fs (mkPath d x)) dirs -> check_cases fs (in_directories dirs x) false = Ok q -> False).
  { intros x q Hx Hq. assert (H : check_cases fs (in_directories dirs x) false = Err FileNotFoundError).
    { apply Files.C13_missing; [exact Ho|]. unfold in_directories. now rewrite Forall_map. } congruence. }
  assert (H : check_cases fs (in_directories dirs a) false = Ok p \/ check_cases fs (in_directories dirs b) false = Ok p).
  { destruct (check_cases fs (in_directories dirs a) false) as [q|e]; [injection E as <- <-; now left|].
    destruct (check_cases fs (in_directories dirs b) false) as [q|e'] eqn:Eb; [injection E as <- <-; now right|].
    apply cases_error in Eb as ->. destruct raise; discriminate. }
  assert (Hf : forall x, check_cases fs (in_directories dirs x) false = Ok p -> found_in fs dirs x p) by (intros; now apply found_dirs).
  destruct Hab as [[-> ->]|[-> ->]]; destruct H as [H|H]; (split; [auto|]); split; intros Hno; auto; exfalso; eapply No; eauto.
Qed.
Print Assumptions C76_compressed_pair.
Theorem C76_neither : forall o m params filename dirs fs keys n cf uf raise,
  ordinary_dirs fs -> says_pair o m params n cf uf -> cf <> [] -> uf <> [] -> bare_name cf -> bare_name uf -> some_order keys ->
  Forall (fun d => no_candidate fs (mkPath d uf)) dirs -> Forall (fun d => no_candidate fs (mkPath d cf)) dirs ->
  target_path o m params filename dirs fs None keys [] true raise n = ([], if raise : bool then Err FileNotFoundError else Ok None).
Proof.
  intros o m params filename dirs fs keys n cf uf raise Ho Hp Ncf Nuf Bc Bu Hk H1 H2.
  destruct (pair_candidates o m params filename dirs keys n cf uf Hp Ncf Nuf Bc Bu Hk) as (a & b & Hab & Ec).
  unfold target_path. cbn [mapped find]. rewrite Ec. cbn [rbind]. rewrite check_app.
  assert (No : forall x, Forall (fun d => no_candidate fs (mkPath d x)) dirs -> check_cases fs (in_directories dirs x) false = Err FileNotFoundError).
  { intros x Hx. apply Files.C13_missing; [exact Ho|]. unfold in_directories. now rewrite Forall_map. }
  destruct Hab as [[-> ->]|[-> ->]]; rewrite !No by assumption; reflexivity.
Qed.
Print Assumptions C76_neither.

(** ** Examples *)
Definition ex_dirs (d : str) : option (list str) := if str_eqb d $"/d" then Some [$"A.LBL"; $"a.img"; $"B.DAT"; $"B.Z"] else if str_eqb d $"/e" then Some [$"C.TAB"] else None.
Definition ex_pair : multidict :=
  [($"COMPRESSED_FILE", PMulti [($"FILE_NAME", PStr $"B.Z")]);
   ($"UNCOMPRESSED_FILE", PMulti [($"FILE_NAME", PStr $"B.DAT"); ($"IMAGE", PMulti [($"LINES", PInt 2)])])].
Definition look (m : multidict) (keys : list str) (n : str) : res (option path) :=
  snd (target_path DepthFirst m (keys_of (PMulti m)) (mkPath $"/d" $"A.LBL") [$"/d"; $"/e"] ex_dirs None keys [] true false n).
Lemma ex_dirs_ordinary : ordinary_dirs ex_dirs.
Proof.
  intros d l e H Hin. unfold ex_dirs in H. destruct (str_eqb d $"/d"); [|destruct (str_eqb d $"/e"); [|discriminate]]; injection H as <-;
  cbn in Hin; repeat (destruct Hin as [<-|Hin]; [apply Files.ordinary_bool; reflexivity|]); destruct Hin.
Qed.
Definition two_keys : list str := [$"COMPRESSED_FILE"; $"UNCOMPRESSED_FILE"].
Example C76_meets :
  look ex_product two_keys $"IMAGE" = Ok (Some (mkPath $"/d" $"a.img")) /\
  look [($"^TABLE", PStr $"C.TAB")] two_keys $"TABLE" = Ok (Some (mkPath $"/e" $"C.TAB")) /\
  look [($"^TABLE", PInt 3)] two_keys $"TABLE" = Ok (Some (mkPath $"/d" $"A.LBL")) /\
  look [($"^TABLE", PStr $"D.TAB")] two_keys $"TABLE" = Ok None /\
  one_file ex_product /\ ordinary_dirs ex_dirs /\
  says_pair DepthFirst ex_pair (keys_of (PMulti ex_pair)) $"IMAGE" $"B.Z" $"B.DAT".
Proof.
  split; [vm_compute; reflexivity|]. split; [vm_compute; reflexivity|]. split; [vm_compute; reflexivity|]. split; [vm_compute; reflexivity|].
  split; [now left|]. split; [exact ex_dirs_ordinary|].
  eexists _, _. split; [discriminate|]. split; [discriminate|]. split; [vm_compute; reflexivity|]. split; [vm_compute; reflexivity|].
  split; [vm_compute; reflexivity|]. split; [reflexivity|]. split; [reflexivity|]. discriminate.
Qed.
Example C76_special_meets :
  snd (target_path DepthFirst ex_pair (keys_of (PMulti ex_pair)) (mkPath $"/d" $"A.LBL") [$"/d"; $"/e"] ex_dirs (Some $"C.TAB") two_keys [] true false $"IMAGE") =
    Ok (Some (mkPath $"/e" $"C.TAB")).
Proof. vm_compute. reflexivity. Qed.
(** If both files are there, which one is read depends on the run (the seed of string hashes). *)
Theorem C76_same_every_run_refuted : exists m n keys keys' p p', some_order keys /\ some_order keys' /\
  look m keys n = Ok (Some p) /\ look m keys' n = Ok (Some p') /\ p <> p'.
Proof.
  exists ex_pair, $"IMAGE", two_keys, (rev two_keys), (mkPath $"/d" $"B.Z"), (mkPath $"/d" $"B.DAT").
  split; [apply Permutation_refl|]. split; [apply perm_swap|]. split; [vm_compute; reflexivity|]. split; [vm_compute; reflexivity|]. discriminate.
Qed.
Print Assumptions C76_same_every_run_refuted.
(** The line prefix table of an image is not looked for in the image's file, but in the one that
    was opened: the label, if that is what was opened. *)
Theorem C76_prefix_table_file_refuted : exists m st, open_ex m = Ok st /\ parent_of st $"IMAGE_LINE_PREFIX_TABLE" = Some $"IMAGE" /\
  look m two_keys $"IMAGE" = Ok (Some (mkPath $"/d" $"a.img")) /\
  look m two_keys $"IMAGE_LINE_PREFIX_TABLE" = Ok (Some (mkPath $"/d" $"A.LBL")).
Proof.
  exists ex_product. eexists. split; [vm_compute; reflexivity|]. split; [vm_compute; reflexivity|]. split; vm_compute; reflexivity.
Qed.
Print Assumptions C76_prefix_table_file_refuted.
