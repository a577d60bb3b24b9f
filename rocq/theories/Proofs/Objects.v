(** Proofs about the listing of objects and the finding of their files (Model/Objects.v). *)
From Coq Require Import Lia.
From Verif.Base Require Import Py PyFacts Val.
From Verif.Model Require Import Pvl Files Dispatch.
From Verif.Model Require Meta.
From Verif.Model Require Import Table Objects.
From Verif.Spec Require Import Pvl Objects.
From Verif.Proofs Require Import TableLabel PvlPointers.

Lemma picked_filter {A} (P : A -> Prop) f l l' : (forall x, f x = true <-> P x) -> picked P l l' -> l' = filter f l.
Proof.
  intros Hf H. induction H as [|x l l' Hp H IH|x l l' Hp H IH]; cbn [filter]; [reflexivity| |].
  - rewrite (proj2 (Hf x) Hp). now f_equal.
  - destruct (f x) eqn:E; [exfalso; apply Hp; now apply Hf|exact IH].
Qed.
Lemma filter_picked {A} (P : A -> Prop) f l : (forall x, f x = true <-> P x) -> picked P l (filter f l).
Proof.
  intros Hf. induction l as [|x l IH]; cbn [filter]; [constructor|]. destruct (f x) eqn:E.
  - constructor; [now apply Hf|exact IH].
  - constructor; [intros H; apply Hf in H; congruence|exact IH].
Qed.
Lemma filter_map_ {A B} (f : A -> B) p l : filter p (map f l) = map f (filter (fun x => p (f x)) l).
Proof. induction l as [|x l IH]; cbn; [reflexivity|]. destruct (p (f x)); cbn; now f_equal. Qed.

Lemma trivial_iff n : negb (is_trivial n) = true <-> shown n.
Proof.
  unfold is_trivial, shown, hidden, mentions. rewrite negb_true_iff, <- not_true_iff_false.
  rewrite !orb_true_iff, !andb_true_iff, !negb_true_iff, <- !not_true_iff_false, !contains_iff. tauto.
Qed.
Lemma image_iff n : contains $"IMAGE" n && negb (contains $"TABLE" n) = true <-> image_name n.
Proof. unfold image_name, mentions. rewrite andb_true_iff, negb_true_iff, <- not_true_iff_false, !contains_iff. tauto. Qed.

Lemma depointer n : depointerize (pointer n) = n.
Proof. reflexivity. Qed.

Section Product.
Variables (o : order) (m : multidict) (params : list str) (filename : path) (dirs : list str).
Notation block := (fun n => as_block (mblock o m params n)).
Lemma mblock_cases n : mblock o m params n = PNone \/ exists b, mblock o m params n = PMulti b \/ mblock o m params n = PDict b.
Proof.
  unfold mblock. destruct (_ =? 0)%nat; [now left|]. right. unfold Meta.metablock_interior.
  destruct (Meta.dig_for_value o m n); cbn [Meta.is_mapping]; eauto.
Qed.
Lemma orphan_iff n : contains $"LINE_PREFIX" n && is_none (mblock o m params n) = true <-> undescribed_prefix block n.
Proof.
  unfold undescribed_prefix, mentions. rewrite andb_true_iff, contains_iff.
  destruct (mblock_cases n) as [->|(b & [->| ->])]; cbn [is_none as_block]; intuition congruence.
Qed.
Definition formats_of (b : multidict) : multidict := filter (fun kv => is_structure (fst kv)) b.
Lemma formats_picked b l : picked points_to_format b l <-> l = formats_of b.
Proof.
  assert (H : forall kv : str * pv, is_structure (fst kv) = true <-> points_to_format kv) by (intros; apply is_structure_iff).
  split; [now apply picked_filter|intros ->; now apply filter_picked].
Qed.

(** the two definitions of the lookups agree *)
Lemma mget_meta eqb n : snd (fst (Meta.metaget o eqb (Meta.meta_init m params) n PNone)) = Ok (mget o m params n).
Proof. unfold Meta.metaget, mget. cbn [Meta.meta_init Meta.params]. destruct (count_str n params =? 0)%nat; reflexivity. Qed.
Lemma mblock_meta n : snd (Meta.metablock o (Meta.meta_init m params) n) = mblock o m params n.
Proof. unfold Meta.metablock, mblock. cbn [Meta.meta_init Meta.params]. destruct (count_str n params =? 0)%nat; reflexivity. Qed.

Section Find.
Variables (fs : fsys) (special_fn : str -> option str) (compkeys : list str) (start_of : str -> res Z).
Notation associate := (associate_prefix_tables o m params filename dirs fs special_fn compkeys start_of).
Notation associate_list := (associate_all o m params filename dirs fs special_fn compkeys start_of).

Inductive case_of n : Type :=
| no_block : mblock o m params n = PNone -> case_of n
| with_block b : block n = Some b -> (mblock o m params n = PMulti b \/ mblock o m params n = PDict b) -> case_of n.
Lemma get_case n : case_of n.
Proof.
  destruct (mblock o m params n) as [| | | | | | |l|l] eqn:E;
    [apply no_block; exact E|..|apply (with_block n l); [cbn; rewrite E; reflexivity|auto]|apply (with_block n l); [cbn; rewrite E; reflexivity|auto]];
    exfalso; destruct (mblock_cases n) as [H|(bb & [H|H])]; congruence.
Qed.
(** what the code does with an image, when nothing undescribed is there *)
Definition adds (n : str) : bool :=
  match block n with
  | Some b => match formats_of b with
              | [_] => match md_get b $"^LINE_PREFIX_STRUCTURE" with Some (PStr []) => false | _ => true end
              | _ => false
              end
  | None => false
  end.
Definition too_many (n : str) : bool :=
  match block n with Some b => match formats_of b with _ :: _ :: _ => true | _ => false end | None => false end.
Lemma too_many_iff n : too_many n = true <-> several_formats block n.
Proof.
  unfold too_many, several_formats. destruct (block n) as [b|]; [|split; [discriminate|intros (b & ? & ? & ? & H & _); discriminate]].
  split.
  - destruct (formats_of b) as [|kv [|kv' l]] eqn:E; try discriminate. intros _. exists b, kv, kv', l. split; [reflexivity|].
    now apply formats_picked.
  - intros (b' & kv & kv' & l & H & Hp). injection H as <-. apply formats_picked in Hp. now rewrite <- Hp.
Qed.
Lemma md_get_find (b : multidict) k : md_get b k = option_map snd (find (fun kv => str_eqb (fst kv) k) b).
Proof.
  unfold md_get. induction b as [|[k' v] b IH]; cbn; [reflexivity|]. 
  destruct (str_eqb k' k) eqn:E; cbn; [reflexivity|]. exact IH.
Qed.
Lemma get_structure b k : is_structure k = true -> md_get b k = md_get (formats_of b) k.
Proof.
  intros Hk. rewrite !md_get_find. f_equal. unfold formats_of. induction b as [|[k' v] b IH]; cbn [filter find fst]; [reflexivity|].
  destruct (str_eqb k' k) eqn:E.
  - apply str_eqb_eq in E as ->. rewrite Hk. cbn [find fst]. now rewrite str_eqb_refl.
  - destruct (is_structure k'); cbn [find fst]; [rewrite E|]; exact IH.
Qed.
Lemma adds_iff n : adds n = true <-> prefixed block n.
Proof.
  unfold adds, prefixed. destruct (block n) as [b|]; [|split; [discriminate|intros (b & ? & ? & H & _); discriminate]].
  rewrite (get_structure b $"^LINE_PREFIX_STRUCTURE") by reflexivity.
  split.
  - destruct (formats_of b) as [|[k v] [|kv' l]] eqn:E; try discriminate. intros H. exists b, k, v. split; [reflexivity|].
    split; [now apply formats_picked|]. intros [-> ->]. rewrite md_get_find in H. cbn in H. discriminate.
  - intros (b' & k & v & H & Hp & Hn). injection H as <-. apply formats_picked in Hp. rewrite <- Hp, md_get_find. cbn [find fst].
    destruct (str_eqb k _) eqn:Ek; cbn [option_map snd]; [|reflexivity].
    apply str_eqb_eq in Ek. destruct v as [| | | |[|]| | | |]; try reflexivity. exfalso. apply Hn. auto.
Qed.
Lemma associate_plain st n : associate [] st n =
  if too_many n then Err NotImplementedError_
  else Ok (if adds n then mkFound (idx st ++ [prefix_table n]) (set_parent (interleaved st) (prefix_table n) n) (files st) else st).
Proof.
  unfold associate_prefix_tables, too_many, adds. destruct (get_case n) as [E|b Eb E].
  - rewrite E. reflexivity.
  - rewrite Eb. assert (Hf : filter is_structure (map fst b) = map fst (formats_of b)) by apply filter_map_.
    destruct E as [-> | ->]; rewrite Hf; destruct (formats_of b) as [|kv [|kv' l]]; cbn [map]; try reflexivity;
    cbn [rbind]; destruct (md_get b _) as [[| | | |[|]| | | |]|]; reflexivity.
Qed.
Definition add_table (st : found) (n : str) : found :=
  mkFound (idx st ++ [prefix_table n]) (set_parent (interleaved st) (prefix_table n) n) (files st).
Lemma associate_plain_all images : forall st,
  associate_list [] images st =
  if existsb too_many images then Err NotImplementedError_ else Ok (fold_left add_table (filter adds images) st).
Proof.
  induction images as [|n images IH]; intros st; [reflexivity|]. cbn [associate_all existsb filter].
  rewrite associate_plain. destruct (too_many n); [reflexivity|]. cbn [orb rbind]. rewrite IH.
  destruct (existsb too_many images); [reflexivity|]. destruct (adds n); reflexivity.
Qed.
Lemma add_tables_index l : forall st, idx (fold_left add_table l st) = idx st ++ map prefix_table l.
Proof. induction l as [|n l IH]; intros st; cbn [fold_left map]; [now rewrite app_nil_r|]. rewrite IH. cbn. now rewrite <- app_assoc. Qed.
Lemma add_tables_files l : forall st, files (fold_left add_table l st) = files st.
Proof. induction l as [|n l IH]; intros st; cbn [fold_left]; [reflexivity|]. now rewrite IH. Qed.
End Find.
End Product.

(** ** the dictionary of interleaved objects *)
Definition plookup (l : list (str * str)) (k : str) : option str :=
  match find (fun e => str_eqb (fst e) k) l with Some e => Some (snd e) | None => None end.
Lemma find_app {A} (f : A -> bool) a b : find f (a ++ b) = match find f a with Some x => Some x | None => find f b end.
Proof. induction a as [|x a IH]; cbn; [reflexivity|]. destruct (f x); auto. Qed.
Lemma plookup_set l k v k' : plookup (set_parent l k v) k' = if str_eqb k k' then Some v else plookup l k'.
Proof.
  unfold plookup, set_parent. rewrite find_app. destruct (str_eqb k k') eqn:E.
  - apply str_eqb_eq in E as ->.
    replace (find _ (filter _ l)) with (@None (str * str)); [cbn; now rewrite str_eqb_refl|].
    symmetry. induction l as [|e l IH]; cbn; [reflexivity|]. destruct (str_eqb (fst e) k') eqn:E; cbn; [exact IH|]. now rewrite E.
  - assert (H : find (fun e => str_eqb (fst e) k') (filter (fun e => negb (str_eqb (fst e) k)) l) = find (fun e => str_eqb (fst e) k') l).
    { induction l as [|e l IH]; cbn; [reflexivity|]. destruct (str_eqb (fst e) k) eqn:Ek; cbn [negb].
      - apply str_eqb_eq in Ek. rewrite Ek, E. exact IH.
      - cbn. now rewrite IH. }
    rewrite H. cbn. rewrite E. destruct (find _ l) as [[]|]; reflexivity.
Qed.
Lemma prefix_inj a b : prefix_table a = prefix_table b -> a = b.
Proof. unfold prefix_table. apply app_inv_tail. Qed.
Lemma add_tables_parent l : forall st k p, plookup (interleaved (fold_left add_table l st)) k = Some p <->
  (In p l /\ k = prefix_table p) \/ (~ (exists q, In q l /\ k = prefix_table q) /\ plookup (interleaved st) k = Some p).
Proof.
  induction l as [|n l IH]; intros st k p; cbn [fold_left].
  - split; [intros H; right; split; [intros (q & [] & _)|exact H]|intros [[[] _]|[_ H]]; exact H].
  - rewrite IH. cbn [add_table interleaved]. rewrite plookup_set.
    destruct (str_eqb (prefix_table n) k) eqn:E.
    + apply str_eqb_eq in E as <-. split.
      * intros [[H1 H2]|[H1 H2]]; [left; split; [now right|exact H2]|]. injection H2 as <-. left. split; [now left|reflexivity].
      * intros [[H1 H2]|[H1 H2]]; [|exfalso; apply H1; exists n; split; [now left|reflexivity]].
        apply prefix_inj in H2 as ->. 
        destruct (in_dec (list_eq_dec ascii_dec) p l) as [Hi|Hi]; [left; auto|right].
        split; [|reflexivity]. intros (q & Hq & E). apply prefix_inj in E as ->. contradiction.
    + assert (Hk : k <> prefix_table n) by (intros ->; now rewrite str_eqb_refl in E). split.
      * intros [[H1 H2]|[H1 H2]]; [left; split; [now right|exact H2]|]. right. split; [|exact H2].
        intros (q & [->|Hq] & Eq); [contradiction|]. apply H1. eauto.
      * intros [[[->|H1] H2]|[H1 H2]]; [contradiction|left; auto|]. right. split; [|exact H2].
        intros (q & Hq & Eq). apply H1. exists q. split; [now right|exact Eq].
Qed.

(** ** line prefix objects that are pointed to, but not described *)
Section Orphans.
Variables (o : order) (m : multidict) (params : list str) (filename : path) (dirs : list str).
Variables (fs : fsys) (special_fn : str -> option str) (compkeys : list str) (start_of : str -> res Z).
Notation block := (fun n => as_block (mblock o m params n)).
Notation find_target := (fun files n => target_path o m params filename dirs fs (special_fn n) compkeys files true false n).
Notation standalone := (standalone_start_byte o m params filename dirs fs special_fn compkeys start_of).
Notation associate := (associate_prefix_tables o m params filename dirs fs special_fn compkeys start_of).
Notation associate_list := (associate_all o m params filename dirs fs special_fn compkeys start_of).
(** the label says which file to look for *)
Definition locatable (n : str) : Prop := exists c, object_to_filename o m params filename dirs (special_fn n) compkeys n = Ok c.
Lemma mapped_cons fl n (p : path) k : mapped ((n, p) :: fl) k = if str_eqb n k then Some p else mapped fl k.
Proof. unfold mapped. cbn [find fst]. destruct (str_eqb n k); reflexivity. Qed.
Lemma cases_error fs' c e : check_cases fs' c false = Err e -> e = FileNotFoundError.
Proof.
  induction c as [|p c IH]; cbn [check_cases]; [congruence|]. destruct (path_exists fs' p); [discriminate|].
  destruct (fs' (pdir p)); [|exact IH]. destruct (filter _ _); [exact IH|discriminate].
Qed.
(** looking for a file succeeds or is given up, and keeps what is known *)
Lemma find_keeps fl n : locatable n -> exists fl' r, find_target fl n = (fl', Ok r) /\
  forall k p, mapped fl k = Some p -> mapped fl' k = Some p.
Proof.
  intros [c Hc]. unfold target_path. destruct (mapped fl n) as [p|] eqn:E.
  - exists fl, (Some p). split; [reflexivity|auto].
  - rewrite Hc. cbn [rbind]. destruct (check_cases fs c false) as [p|e] eqn:Ec.
    + exists ((n, p) :: fl), (Some p). split; [reflexivity|]. intros k q Hq. rewrite mapped_cons.
      destruct (str_eqb n k) eqn:Ek; [apply str_eqb_eq in Ek; congruence|exact Hq].
    + apply cases_error in Ec as ->. exists fl, None. split; [reflexivity|auto].
Qed.
Variables (image_file : path) (image_start : Z).
Hypothesis image_at : start_of $"IMAGE" = Ok image_start.
Lemma standalone_known fl n : locatable n -> mapped fl $"IMAGE" = Some image_file ->
  exists fl', standalone fl n = (fl', Ok (image_file, image_start)) /\ mapped fl' $"IMAGE" = Some image_file.
Proof.
  intros Hl Hi. destruct (find_keeps fl n Hl) as (fl' & r & E & Hk). exists fl'.
  unfold standalone_start_byte. rewrite E. cbn [rbind]. rewrite (Hk _ _ Hi). cbn [rbind]. rewrite image_at. cbn [rbind]. auto.
Qed.
Lemma path_eqb_refl p : path_eqb p p = true.
Proof. unfold path_eqb. now rewrite !str_eqb_refl. Qed.
Lemma match_all imname pres : Forall locatable pres -> forall st any, mapped (files st) $"IMAGE" = Some image_file ->
  exists fl, match_prefix_objects o m params filename dirs fs special_fn compkeys start_of imname (image_file, image_start) pres st any =
    Ok (mkFound (idx st) (fold_left (fun l pre => set_parent l pre imname) pres (interleaved st)) fl,
        match pres with [] => any | _ => true end) /\ mapped fl $"IMAGE" = Some image_file.
Proof.
  induction 1 as [|pre pres Hp Hps IH]; intros [ix il fl] any Hi; cbn [files idx interleaved] in *.
  - exists fl. cbn. auto.
  - cbn [match_prefix_objects files]. destruct (standalone_known fl pre Hp Hi) as (fl' & E & Hi'). rewrite E. cbn [rbind fst snd].
    rewrite path_eqb_refl, Z.eqb_refl. cbn [andb].
    destruct (IH (mkFound ix (set_parent il pre imname) fl') true) as (fl2 & E2 & Hi2); [exact Hi'|].
    exists fl2. cbn [idx interleaved fold_left] in *. rewrite E2. split; [|exact Hi2]. destruct pres; reflexivity.
Qed.
Definition has_format (n : str) : bool :=
  match block n with Some b => match formats_of b with [_] => true | _ => false end | None => false end.
Lemma has_format_iff n : has_format n = true <-> one_format block n.
Proof.
  unfold has_format, one_format. destruct (block n) as [b|]; [|split; [discriminate|intros (b & ? & H & _); discriminate]].
  split.
  - destruct (formats_of b) as [|kv [|]] eqn:E; try discriminate. intros _. exists b, kv. split; [reflexivity|]. now apply formats_picked.
  - intros (b' & kv & H & Hp). injection H as <-. apply formats_picked in Hp. now rewrite <- Hp.
Qed.
(** an image that has no format file, or too many, is dealt with before anything else *)
Lemma associate_skip pres st n : has_format n = false -> too_many o m params n = false -> associate pres st n = Ok st.
Proof.
  unfold has_format, too_many, associate_prefix_tables. intros H1 H2. destruct (get_case o m params n) as [E|b Eb E]; [now rewrite E|].
  rewrite Eb in *. assert (Hf : filter is_structure (map fst b) = map fst (formats_of b)) by apply filter_map_.
  destruct E as [-> | ->]; rewrite Hf; destruct (formats_of b) as [|kv [|kv' l]]; cbn [map]; try reflexivity; discriminate.
Qed.
Lemma associate_one pres st n : has_format n = true -> pres <> [] ->
  exists f, associate pres st n =
    (do r <- (let '(fl, r) := standalone (files st) n in
              do here <- r; match_prefix_objects o m params filename dirs fs special_fn compkeys start_of n here pres (mkFound (idx st) (interleaved st) fl) false);
     let '(st, any) := r in if any : bool then Ok st else f st).
Proof.
  unfold has_format, associate_prefix_tables. intros H1 Hp. destruct (get_case o m params n) as [E|b Eb E].
  { exfalso. now rewrite E in H1. }
  rewrite Eb in H1. assert (Hf : filter is_structure (map fst b) = map fst (formats_of b)) by apply filter_map_.
  exists (fun st => match md_get b $"^LINE_PREFIX_STRUCTURE" with
           | Some (PStr []) => Ok st
           | _ => let fixname := n ++ $"_LINE_PREFIX_TABLE" in
                  Ok (mkFound (idx st ++ [fixname]) (set_parent (interleaved st) fixname n) (files st))
           end).
  destruct pres as [|pre pres]; [contradiction|].
  destruct E as [-> | ->]; rewrite Hf; destruct (formats_of b) as [|kv [|kv' l]]; try discriminate; reflexivity.
Qed.
Lemma associate_known pres st n : has_format n = true -> pres <> [] -> locatable n -> Forall locatable pres ->
  mapped (files st) $"IMAGE" = Some image_file ->
  exists fl, associate pres st n = Ok (mkFound (idx st) (fold_left (fun l pre => set_parent l pre n) pres (interleaved st)) fl) /\
    mapped fl $"IMAGE" = Some image_file.
Proof.
  intros Hf Hp Hl Hls Hi. destruct (associate_one pres st n Hf Hp) as [f ->].
  destruct (standalone_known (files st) n Hl Hi) as (fl' & E & Hi'). rewrite E. cbn [rbind].
  destruct (match_all n pres Hls (mkFound (idx st) (interleaved st) fl') false Hi') as (fl & E2 & Hi2).
  exists fl. rewrite E2. cbn [rbind idx interleaved]. destruct pres as [|pre pres]; [contradiction|]. auto.
Qed.
Definition adopt (pres : list str) (l : list (str * str)) (n : str) : list (str * str) := fold_left (fun l pre => set_parent l pre n) pres l.
Lemma associate_rest pres images : pres <> [] -> Forall locatable pres -> Forall locatable images ->
  existsb (too_many o m params) images = false -> forall st, mapped (files st) $"IMAGE" = Some image_file ->
  exists fl, associate_list pres images st = Ok (mkFound (idx st) (fold_left (adopt pres) (filter has_format images) (interleaved st)) fl) /\
    mapped fl $"IMAGE" = Some image_file.
Proof.
  intros Hp Hls Hli. induction Hli as [|n images Hn Hli IH]; intros Ht [ix il fl] Hi; cbn [files idx interleaved] in *.
  - exists fl. cbn. auto.
  - cbn [existsb associate_all filter] in *. apply orb_false_iff in Ht as [Ht1 Ht2]. destruct (has_format n) eqn:Ef.
    + destruct (associate_known pres (mkFound ix il fl) n Ef Hp Hn Hls Hi) as (fl' & E & Hi'). rewrite E. cbn [rbind].
      destruct (IH Ht2 (mkFound ix (adopt pres il n) fl') Hi') as (fl2 & E2 & Hi2). exists fl2. cbn [idx interleaved fold_left] in *. auto.
    + rewrite (associate_skip pres _ n Ef Ht1). cbn [rbind]. exact (IH Ht2 (mkFound ix il fl) Hi).
Qed.
(** the first image that has a format file decides *)
Lemma associate_from_image pres before images : pres <> [] -> Forall locatable pres -> Forall locatable images -> locatable $"IMAGE" ->
  Forall (fun n => has_format n = false) before -> has_format $"IMAGE" = true ->
  existsb (too_many o m params) (before ++ $"IMAGE" :: images) = false ->
  (exists c, object_to_filename o m params filename dirs (special_fn $"IMAGE") compkeys $"IMAGE" = Ok c /\ check_cases fs c false = Ok image_file) ->
  forall ix, exists fl, associate_list pres (before ++ $"IMAGE" :: images) (mkFound ix [] []) =
    Ok (mkFound ix (fold_left (adopt pres) ($"IMAGE" :: filter has_format images) []) fl).
Proof.
  intros Hp Hls Hli Hlo Hb Hf Ht (c & Hc & Hcc) ix. induction Hb as [|n before Hn Hb IH]; cbn [app associate_all existsb] in *.
  - apply orb_false_iff in Ht as [Ht1 Ht2].
    destruct (associate_one pres (mkFound ix [] []) $"IMAGE" Hf Hp) as [f ->].
    assert (Es : standalone [] $"IMAGE" = ([($"IMAGE", image_file)], Ok (image_file, image_start))).
    { unfold standalone_start_byte, target_path. cbn [mapped find]. rewrite Hc. cbn [rbind]. rewrite Hcc. cbn [rbind].
      rewrite mapped_cons, str_eqb_refl. cbn [rbind]. rewrite image_at. reflexivity. }
    cbn [files idx interleaved]. rewrite Es. cbn [rbind].
    destruct (match_all $"IMAGE" pres Hls (mkFound ix [] [($"IMAGE", image_file)]) false) as (fl & E2 & Hi2).
    { cbn [files]. now rewrite mapped_cons, str_eqb_refl. }
    rewrite E2. cbn [rbind idx interleaved]. destruct pres as [|pre pres]; [contradiction|]. cbn [rbind].
    destruct (associate_rest (pre :: pres) images Hp Hls Hli Ht2 (mkFound ix (adopt (pre :: pres) [] $"IMAGE") fl) Hi2) as (fl2 & E3 & _).
    exists fl2. exact E3.
  - apply orb_false_iff in Ht as [Ht1 Ht2]. rewrite (associate_skip pres _ n Hn Ht1). cbn [rbind]. exact (IH Ht2).
Qed.
Lemma associate_stuck pres before n images : pres <> [] -> locatable n ->
  Forall (fun n => has_format n = false /\ too_many o m params n = false) before -> has_format n = true ->
  (n = $"IMAGE" -> exists c, object_to_filename o m params filename dirs (special_fn $"IMAGE") compkeys $"IMAGE" = Ok c /\ check_cases fs c false = Err FileNotFoundError) ->
  forall ix, associate_list pres (before ++ n :: images) (mkFound ix [] []) = Err KeyError.
Proof.
  intros Hp [c Hc] Hb Hf Hi ix. induction Hb as [|x before [Hx Hx'] Hb IH]; cbn [app associate_all] in *.
  - destruct (associate_one pres (mkFound ix [] []) n Hf Hp) as [f ->].
    assert (Es : exists fl, standalone [] n = (fl, Err KeyError)).
    { unfold standalone_start_byte, target_path. cbn [mapped find]. rewrite Hc. cbn [rbind].
      destruct (check_cases fs c false) as [p|e] eqn:E.
      - eexists. cbn [rbind]. rewrite mapped_cons. destruct (str_eqb n $"IMAGE") eqn:En; [|reflexivity].
        apply str_eqb_eq in En as ->. destruct (Hi eq_refl) as (c' & Hc' & E'). congruence.
      - apply cases_error in E as ->. eexists. reflexivity. }
    destruct Es as [fl Es]. cbn [files]. rewrite Es. reflexivity.
  - rewrite (associate_skip pres _ x Hx Hx'). cbn [rbind]. exact IH.
Qed.
End Orphans.
Lemma adopt_lookup pres n k : forall l, plookup (adopt pres l n) k = if str_in k pres then Some n else plookup l k.
Proof.
  unfold adopt. induction pres as [|pre pres IH]; intros l; cbn [fold_left]; [reflexivity|]. rewrite IH, plookup_set.
  unfold str_in. cbn [existsb]. fold (str_in k pres). destruct (str_in k pres); cbn; [now rewrite orb_true_r|].
  rewrite orb_false_r. destruct (str_eqb pre k) eqn:E; destruct (str_eqb k pre) eqn:E'; try reflexivity.
  - apply str_eqb_eq in E as ->. now rewrite str_eqb_refl in E'.
  - apply str_eqb_eq in E' as ->. now rewrite str_eqb_refl in E.
Qed.
Lemma adopt_all pres ns : forall n l k, plookup (fold_left (adopt pres) (n :: ns) l) k = if str_in k pres then Some (last ns n) else plookup l k.
Proof.
  induction ns as [|x ns IH]; intros n l k.
  - cbn [fold_left last]. apply adopt_lookup.
  - cbn [fold_left]. change (fold_left (adopt pres) ns (adopt pres (adopt pres l n) x)) with (fold_left (adopt pres) (x :: ns) (adopt pres l n)).
    rewrite IH, adopt_lookup. destruct (str_in k pres); [|reflexivity]. f_equal. destruct ns as [|y ns]; [reflexivity|].
    cbn [last]. clear. revert y. induction ns as [|z ns IH]; intros y; [reflexivity|]. cbn [last] in *. apply IH.
Qed.

(** ** the pointers of a label *)
Lemma flat_map_in {A B} (f g : A -> list B) l : (forall x, In x l -> f x = g x) -> flat_map f l = flat_map g l.
Proof. intros H. induction l as [|x l IH]; cbn; [reflexivity|]. rewrite (H x) by now left. f_equal. apply IH. intros y Hy. apply H. now right. Qed.
Lemma depth_in l kv fuel : In kv l -> (depth (PMulti l) <= S fuel)%nat -> (depth (snd kv) <= fuel)%nat.
Proof.
  intros Hin H. cbn [depth] in H. apply le_S_n in H. revert H. induction l as [|x l IH]; [easy|]. cbn [fold_right].
  destruct Hin as [->|Hin]; intros H; [lia|]. apply IH; [exact Hin|lia].
Qed.
Lemma df_keys fuel : forall l, (depth (PMulti l) <= fuel)%nat -> map fst (items_df l fuel) = keys_of (PMulti l).
Proof.
  induction fuel as [|f IH]; intros l H; [cbn [depth] in H; lia|]. cbn [items_df keys_of].
  rewrite flat_map_concat_map, concat_map, map_map, <- flat_map_concat_map. apply flat_map_in. intros kv Hin. cbn [map]. f_equal.
  pose proof (depth_in l kv f Hin H) as Hd. destruct (snd kv); try reflexivity. now apply IH.
Qed.
Lemma lf_keys fuel : forall l, (depth (PMulti l) <= fuel)%nat -> map fst (items_lf l fuel) = keys_by_level (PMulti l).
Proof.
  induction fuel as [|f IH]; intros l H; [cbn [depth] in H; lia|]. cbn [items_lf keys_by_level]. rewrite map_app. f_equal.
  rewrite flat_map_concat_map, concat_map, map_map, <- flat_map_concat_map. apply flat_map_in. intros kv Hin.
  pose proof (depth_in l kv f Hin H) as Hd. destruct (snd kv); try reflexivity. now apply IH.
Qed.
Lemma walk_keys o m : map fst (walk o m) = match o with DepthFirst => keys_of (PMulti m) | LevelFirst => keys_by_level (PMulti m) end.
Proof. destruct o; [apply lf_keys|apply df_keys]; reflexivity. Qed.
Lemma pointers_eq o m names : pointed_to o m names <-> get_pds3_pointers o m = map pointer names.
Proof.
  assert (H : forall k, startswith $"^" k = true <-> exists n, k = pointer n) by (intros k; apply startswith_iff).
  unfold pointed_to, get_pds3_pointers. rewrite <- walk_keys. split.
  - intros Hp. symmetry. exact (picked_filter _ _ _ _ H Hp).
  - intros <-. now apply filter_picked.
Qed.
Lemma msl_iff ident : str_eqb (ident $"INSTRUMENT_HOST_NAME") $"MARS SCIENCE LABORATORY" &&
  str_in (ident $"INSTRUMENT_ID") msl_cameras && contains $"EDR" (ident $"DATA_SET_ID") = true <-> msl_camera_edr ident.
Proof. rewrite !andb_true_iff, str_eqb_eq, str_in_iff, contains_iff. unfold msl_camera_edr, mentions, msl_cameras. tauto. Qed.
Lemma vnis_iff ident kind : str_eqb (ident $"SPACECRAFT_NAME") $"Chang'E-3 Rover" &&
  contains ($"CE3_BMYK_VNIS-" ++ kind) (ident $"PRODUCT_ID") && contains $".2A" (ident $"PRODUCT_ID") = true <-> vnis_product kind ident.
Proof. rewrite !andb_true_iff, str_eqb_eq, !contains_iff. unfold vnis_product, mentions. tauto. Qed.
Lemma special_objects_iff ident names : check_special_objects ident = Some names <-> special_product ident names.
Proof.
  unfold check_special_objects. pose proof (msl_iff ident) as Hm. destruct (_ && contains $"EDR" _).
  { destruct Hm as [Hm _]. specialize (Hm eq_refl). split; [intros H; injection H as <-; now constructor|].
    intros H. destruct H; [reflexivity|contradiction..]. }
  assert (Nm : ~ msl_camera_edr ident) by (rewrite <- Hm; discriminate). clear Hm.
  set (c3 := fun word => str_eqb (ident $"SPACECRAFT_NAME") $"Chang'E-3 Rover" && contains word (ident $"PRODUCT_ID") && contains $".2A" (ident $"PRODUCT_ID")).
  assert (Hc : c3 $"CE3_BMYK_VNIS-CC_SCI_N" = true <-> vnis_product $"CC_SCI_N" ident) by exact (vnis_iff ident $"CC_SCI_N").
  assert (Hs : c3 $"CE3_BMYK_VNIS-SC_SCI_N_" = true <-> vnis_product $"SC_SCI_N_" ident) by exact (vnis_iff ident $"SC_SCI_N_").
  assert (Hd : c3 $"CE3_BMYK_VNIS-SD_SCI_N_" = true <-> vnis_product $"SD_SCI_N_" ident) by exact (vnis_iff ident $"SD_SCI_N_").
  change ((if c3 $"CE3_BMYK_VNIS-CC_SCI_N" then Some [$"LABEL"; $"IMAGE_PREFIX"; $"IMAGE"]
    else if c3 $"CE3_BMYK_VNIS-SC_SCI_N_" then Some [$"LABEL"; $"TABLE"]
    else if c3 $"CE3_BMYK_VNIS-SD_SCI_N_" then Some [$"LABEL"; $"TABLE"] else None) = Some names <-> special_product ident names).
  clearbody c3.
  destruct (c3 $"CE3_BMYK_VNIS-CC_SCI_N").
  { destruct Hc as [Hc _]. specialize (Hc eq_refl). split; [intros H; injection H as <-; now constructor|].
    intros H. destruct H; [contradiction|reflexivity|contradiction]. }
  assert (Nc : ~ vnis_product $"CC_SCI_N" ident) by (rewrite <- Hc; discriminate). clear Hc.
  destruct (c3 $"CE3_BMYK_VNIS-SC_SCI_N_").
  { destruct Hs as [Hs _]. specialize (Hs eq_refl). split; [intros H; injection H as <-; constructor; auto|].
    intros H. destruct H; [contradiction|contradiction|reflexivity]. }
  assert (Ns : ~ vnis_product $"SC_SCI_N_" ident) by (rewrite <- Hs; discriminate). clear Hs.
  destruct (c3 $"CE3_BMYK_VNIS-SD_SCI_N_").
  { destruct Hd as [Hd _]. specialize (Hd eq_refl). split; [intros H; injection H as <-; constructor; auto|].
    intros H. destruct H; [contradiction|contradiction|reflexivity]. }
  assert (Nd : ~ vnis_product $"SD_SCI_N_" ident) by (rewrite <- Hd; discriminate).
  split; [discriminate|]. intros H. destruct H as [| |_ _ [H|H]]; contradiction.
Qed.
