(** C75: the objects of a PDS3 product. *)
From Coq Require Import Lia.
From Verif.Base Require Import Py PyFacts Val.
From Verif.Model Require Import Pvl Files Dispatch.
From Verif.Model Require Import Table Objects.
From Verif.Spec Require Import Pvl Objects.
From Verif.Proofs Require Import TableLabel Objects.
From Verif.Properties Require Import Table.

(** the block the label has for a name (C11 says which) *)
Notation block_in o m params := (fun n => as_block (mblock o m params n)).

(** What opening does, once it is known what the label points to *)
Lemma open_eq o m params filename dirs fs special_fn compkeys start_of ident all names images orphans :
  (forall l, ~ special_product ident l) -> pointed_to o m all -> picked shown all names -> picked image_name names images ->
  picked (undescribed_prefix (block_in o m params)) names orphans ->
  find_objects o m params filename dirs fs special_fn compkeys start_of ident =
  associate_all o m params filename dirs fs special_fn compkeys start_of orphans images (mkFound names [] []).
Proof.
  intros Hs Hp Hn Hi Ho. unfold find_objects. destruct (check_special_objects ident) as [l|] eqn:E.
  { exfalso. apply (Hs l). now apply special_objects_iff. }
  apply pointers_eq in Hp. rewrite Hp, map_map, (map_ext _ (fun n => n) depointer), map_id.
  rewrite <- (picked_filter _ _ _ _ trivial_iff Hn), <- (picked_filter _ _ _ _ image_iff Hi).
  now rewrite <- (picked_filter _ _ _ _ (orphan_iff o m params) Ho).
Qed.
(** The index is what the label points to, in order, without the hidden objects, and then one
    line prefix table for each image whose block has a format file of its own; those tables
    belong to their images, and nothing else does. *)
Theorem C75_listed : forall o m params filename dirs fs special_fn compkeys start_of ident all names images tabled,
  (forall l, ~ special_product ident l) -> pointed_to o m all -> picked shown all names -> picked image_name names images ->
  Forall (fun n => ~ undescribed_prefix (block_in o m params) n) names ->
  Forall (fun n => ~ several_formats (block_in o m params) n) images ->
  picked (prefixed (block_in o m params)) images tabled ->
  exists st, find_objects o m params filename dirs fs special_fn compkeys start_of ident = Ok st /\
    idx st = names ++ map prefix_table tabled /\
    forall name parent, parent_of st name = Some parent <-> In parent tabled /\ name = prefix_table parent.
Proof.
  intros o m params filename dirs fs special_fn compkeys start_of ident all names images tabled Hs Hp Hn Hi Hu Hv Ht.
  assert (Ho : picked (undescribed_prefix (block_in o m params)) names []).
  { clear -Hu. induction Hu as [|n l H _ IH]; now constructor. }
  rewrite (open_eq _ _ _ _ _ _ _ _ _ _ _ _ _ _ Hs Hp Hn Hi Ho), associate_plain_all.
  assert (E : existsb (too_many o m params) images = false).
  { clear -Hv. induction Hv as [|n l H _ IH]; [reflexivity|]. cbn [existsb]. rewrite IH, orb_false_r.
    destruct (too_many o m params n) eqn:E; [exfalso; apply H; now apply too_many_iff|reflexivity]. }
  rewrite E, <- (picked_filter _ _ _ _ (adds_iff o m params) Ht). eexists. split; [reflexivity|]. split.
  - now rewrite add_tables_index.
  - intros name parent. change (parent_of ?st ?n) with (plookup (interleaved st) n). rewrite add_tables_parent. cbn [interleaved plookup find].
    split; [intros [H|[_ H]]; [exact H|discriminate]|now left].
Qed.
(** Otherwise products whose images have several format files cannot be opened. *)
Theorem C75_several_formats : forall o m params filename dirs fs special_fn compkeys start_of ident all names images,
  (forall l, ~ special_product ident l) -> pointed_to o m all -> picked shown all names -> picked image_name names images ->
  Forall (fun n => ~ undescribed_prefix (block_in o m params) n) names ->
  Exists (several_formats (block_in o m params)) images ->
  find_objects o m params filename dirs fs special_fn compkeys start_of ident = Err NotImplementedError_.
Proof.
  intros o m params filename dirs fs special_fn compkeys start_of ident all names images Hs Hp Hn Hi Hu Hv.
  assert (Ho : picked (undescribed_prefix (block_in o m params)) names []).
  { clear -Hu. induction Hu as [|n l H _ IH]; now constructor. }
  rewrite (open_eq _ _ _ _ _ _ _ _ _ _ _ _ _ _ Hs Hp Hn Hi Ho), associate_plain_all.
  assert (E : existsb (too_many o m params) images = true).
  { apply existsb_exists. apply Exists_exists in Hv as (n & Hin & H). exists n. split; [exact Hin|now apply too_many_iff]. }
  now rewrite E.
Qed.
(** Line prefix objects that are pointed to but not described belong to the last image that has
    a format file; nothing is added to the index. *)
Theorem C75_undescribed : forall o m params filename dirs fs special_fn compkeys start_of ident all names images orphans formatted p z,
  (forall l, ~ special_product ident l) -> pointed_to o m all -> picked shown all names -> picked image_name names images ->
  picked (undescribed_prefix (block_in o m params)) names orphans -> orphans <> [] ->
  Forall (fun n => ~ several_formats (block_in o m params) n) images ->
  picked (one_format (block_in o m params)) images ($"IMAGE" :: formatted) ->
  (* the label says which files to look for, and IMAGE is found *)
  Forall (locatable o m params filename dirs special_fn compkeys) names ->
  (exists c, object_to_filename o m params filename dirs (special_fn $"IMAGE") compkeys $"IMAGE" = Ok c /\ check_cases fs c false = Ok p) ->
  start_of $"IMAGE" = Ok z ->
  exists st, find_objects o m params filename dirs fs special_fn compkeys start_of ident = Ok st /\
    idx st = names /\
    forall name parent, parent_of st name = Some parent <-> In name orphans /\ parent = last formatted $"IMAGE".
Proof.
  intros o m params filename dirs fs special_fn compkeys start_of ident all names images orphans formatted p z
    Hs Hp Hn Hi Ho Hne Hv Hf Hl Hfile Hz.
  rewrite (open_eq _ _ _ _ _ _ _ _ _ _ _ _ _ _ Hs Hp Hn Hi Ho).
  assert (Sub : forall P (l l' : list str), picked P l l' -> incl l' l).
  { clear. induction 1 as [|x l l' _ _ IH|x l l' _ _ IH]; intros y Hy; [easy| |right; auto].
    destruct Hy as [->|Hy]; [now left|right; auto]. }
  assert (Hlo : Forall (locatable o m params filename dirs special_fn compkeys) orphans).
  { rewrite Forall_forall in *. intros x Hx. apply Hl. now apply (Sub _ _ _ Ho). }
  assert (Hli : Forall (locatable o m params filename dirs special_fn compkeys) images).
  { rewrite Forall_forall in *. intros x Hx. apply Hl. now apply (Sub _ _ _ Hi). }
  assert (Hsplit : exists before rest, images = before ++ $"IMAGE" :: rest /\
    Forall (fun n => has_format o m params n = false) before /\ picked (one_format (block_in o m params)) rest formatted).
  { clear -Hf. remember ($"IMAGE" :: formatted) as l eqn:El. induction Hf as [|x l l' H Hf IH|x l l' H Hf IH]; [discriminate| |].
    - injection El as -> ->. exists [], l. split; [reflexivity|]. split; [constructor|exact Hf].
    - destruct (IH El) as (before & rest & -> & Hb & Hr). exists (x :: before), rest. split; [reflexivity|]. split; [|exact Hr].
      constructor; [|exact Hb]. destruct (has_format o m params x) eqn:E; [exfalso; apply H; now apply has_format_iff|reflexivity]. }
  destruct Hsplit as (before & rest & -> & Hb & Hr).
  assert (E : existsb (too_many o m params) (before ++ $"IMAGE" :: rest) = false).
  { clear -Hv. induction Hv as [|n l H _ IH]; [reflexivity|]. cbn [existsb]. rewrite IH, orb_false_r.
    destruct (too_many o m params n) eqn:E; [exfalso; apply H; now apply too_many_iff|reflexivity]. }
  assert (Hii : has_format o m params $"IMAGE" = true).
  { apply has_format_iff. inversion Hf as [|x l l' H H'|x l l' H H'].
    - assumption.
    - clear -Hf. remember ($"IMAGE" :: formatted) as l eqn:El. induction Hf as [|x l l' H Hf IH|x l l' H Hf IH]; [discriminate| |auto].
      injection El as -> ->. exact H. }
  apply Forall_app in Hli as [_ Hli]. apply Forall_cons_iff in Hli as [Hl1 Hl2].
  destruct (associate_from_image o m params filename dirs fs special_fn compkeys start_of p z Hz orphans before rest
              Hne Hlo Hl2 Hl1 Hb Hii E Hfile names) as [fl E2].
  eexists. split; [exact E2|]. split; [reflexivity|]. intros name parent.
  change (parent_of ?st ?n) with (plookup (interleaved st) n). cbn [interleaved].
  rewrite <- (picked_filter _ _ _ _ (has_format_iff o m params) Hr), adopt_all.
  destruct (str_in name orphans) eqn:En.
  - apply str_in_iff in En. split; [intros H; injection H as <-; auto|intros [_ ->]; reflexivity].
  - split; [discriminate|]. intros [H _]. apply str_in_iff in H. congruence.
Qed.
(** ... but if the first such image is not called IMAGE, or its file is not found, the product
    cannot be opened *)
Theorem C75_undescribed_fails : forall o m params filename dirs fs special_fn compkeys start_of ident all names images orphans n formatted,
  (forall l, ~ special_product ident l) -> pointed_to o m all -> picked shown all names -> picked image_name names images ->
  picked (undescribed_prefix (block_in o m params)) names orphans -> orphans <> [] ->
  Forall (fun n => ~ several_formats (block_in o m params) n) images ->
  picked (one_format (block_in o m params)) images (n :: formatted) ->
  locatable o m params filename dirs special_fn compkeys n ->
  (n = $"IMAGE" -> exists c, object_to_filename o m params filename dirs (special_fn $"IMAGE") compkeys $"IMAGE" = Ok c /\
     check_cases fs c false = Err FileNotFoundError) ->
  find_objects o m params filename dirs fs special_fn compkeys start_of ident = Err KeyError.
Proof.
  intros o m params filename dirs fs special_fn compkeys start_of ident all names images orphans n formatted
    Hs Hp Hn Hi Ho Hne Hv Hf Hl Hfile.
  rewrite (open_eq _ _ _ _ _ _ _ _ _ _ _ _ _ _ Hs Hp Hn Hi Ho).
  assert (Hsplit : exists before rest, images = before ++ n :: rest /\
    Forall (fun n => has_format o m params n = false) before /\ has_format o m params n = true).
  { clear -Hf. remember (n :: formatted) as l eqn:El. induction Hf as [|x l l' H Hf IH|x l l' H Hf IH]; [discriminate| |].
    - injection El as -> ->. exists [], l. split; [reflexivity|]. split; [constructor|now apply has_format_iff].
    - destruct (IH El) as (before & rest & -> & Hb & Hr). exists (x :: before), rest. split; [reflexivity|]. split; [|exact Hr].
      constructor; [|exact Hb]. destruct (has_format o m params x) eqn:E; [exfalso; apply H; now apply has_format_iff|reflexivity]. }
  destruct Hsplit as (before & rest & -> & Hb & Hii).
  apply associate_stuck; auto. apply Forall_app in Hv as [Hv _]. rewrite Forall_forall in *. intros x Hx. split; [now apply Hb|].
  destruct (too_many o m params x) eqn:E; [exfalso; apply (Hv x Hx); now apply too_many_iff|reflexivity].
Qed.
(** The three kinds of products with fixed lists *)
Theorem C75_special_products : forall o m params filename dirs fs special_fn compkeys start_of ident names,
  special_product ident names ->
  exists st, find_objects o m params filename dirs fs special_fn compkeys start_of ident = Ok st /\ idx st = names /\
    forall name, parent_of st name = None.
Proof.
  intros. unfold find_objects. rewrite (proj2 (special_objects_iff ident names) H). eexists. split; [reflexivity|]. split; reflexivity.
Qed.
(** No name is listed twice, if the label points to each once and to no table that is added. *)
Lemma nodup_app {A} (a b : list A) : NoDup a -> NoDup b -> (forall x, In x a -> ~ In x b) -> NoDup (a ++ b).
Proof.
  intros Ha Hb H. induction Ha as [|x a Hx Ha IH]; [exact Hb|]. cbn. constructor.
  - rewrite in_app_iff. intros [Hi|Hi]; [contradiction|]. apply (H x); [now left|exact Hi].
  - apply IH. intros y Hy. apply H. now right.
Qed.
Theorem C75_listed_once : forall o m params filename dirs fs special_fn compkeys start_of ident all names images tabled st,
  (forall l, ~ special_product ident l) -> pointed_to o m all -> picked shown all names -> picked image_name names images ->
  Forall (fun n => ~ undescribed_prefix (block_in o m params) n) names ->
  picked (prefixed (block_in o m params)) images tabled ->
  NoDup all -> (forall n, In n tabled -> ~ In (prefix_table n) all) ->
  find_objects o m params filename dirs fs special_fn compkeys start_of ident = Ok st -> NoDup (idx st).
Proof.
  intros o m params filename dirs fs special_fn compkeys start_of ident all names images tabled st Hs Hp Hn Hi Hu Ht Hd Hc E.
  assert (Hv : Forall (fun n => ~ several_formats (block_in o m params) n) images).
  { rewrite Forall_forall. intros n Hin Hn'. rewrite (C75_several_formats o m params filename dirs fs special_fn compkeys start_of ident all names images) in E; auto; [discriminate|].
    apply Exists_exists. eauto. }
  destruct (C75_listed o m params filename dirs fs special_fn compkeys start_of ident all names images tabled Hs Hp Hn Hi Hu Hv Ht) as (st' & E' & Ex & _).
  rewrite E in E'. injection E' as <-. rewrite Ex.
  assert (Sub : forall P (l l' : list str), picked P l l' -> NoDup l -> NoDup l' /\ incl l' l).
  { clear. induction 1 as [|x l l' _ _ IH|x l l' _ _ IH]; intros H; [split; [constructor|easy]| |].
    - inversion H; subst. destruct (IH H3) as [I1 I2]. split; [constructor; [intros Hx; now apply H2, I2|exact I1]|].
      intros y [->|Hy]; [now left|right; auto].
    - inversion H; subst. destruct (IH H3) as [I1 I2]. split; [exact I1|]. intros y Hy. right. auto. }
  destruct (Sub _ _ _ Hn Hd) as [N1 S1]. destruct (Sub _ _ _ Hi N1) as [N2 S2]. destruct (Sub _ _ _ Ht N2) as [N3 S3].
  apply nodup_app; [exact N1| |].
  - apply FinFun.Injective_map_NoDup; [intros a b; apply prefix_inj|exact N3].
  - intros x Hx Hm. apply in_map_iff in Hm as (n & <- & Hin). apply (Hc n Hin). now apply S1.
Qed.
Print Assumptions C75_listed.
Print Assumptions C75_several_formats.
Print Assumptions C75_undescribed.
Print Assumptions C75_undescribed_fails.
Print Assumptions C75_special_products.
Print Assumptions C75_listed_once.

(** ** Where line prefix tables are, and what they hold *)
(** The position of a line prefix table is that of its image; other objects are where their own
    pointers say. *)
Theorem C75_prefix_position : forall o m params st name parent, parent_of st name = Some parent -> parent_of st parent = None ->
  get_target o m params st name = get_target o m params st parent.
Proof. intros o m params st name parent H H'. unfold get_target. now rewrite H, H'. Qed.
Print Assumptions C75_prefix_position.
Theorem C75_other_blocks : forall o m params load st name, parent_of st name = None ->
  get_block o m params load st name = Ok (mblock o m params name).
Proof. intros. unfold get_block. now rewrite H. Qed.
Print Assumptions C75_other_blocks.
Open Scope Z_scope.
Lemma parts_app {A} (says : str -> pv -> A -> Prop) m m' l : parts says m l -> parts says m' [] -> parts says (m ++ m') l.
Proof. intros H H'. induction H; cbn [app]; [exact H'|constructor; auto|apply part_item; auto]. Qed.
Lemma md_get_app (a b : multidict) k : md_get (a ++ b) k = match md_get a k with Some v => Some v | None => md_get b k end.
Proof. rewrite !md_get_find, find_app. destruct (find _ a); reflexivity. Qed.
Lemma md_has_get (b : multidict) k : md_has b k = match md_get b k with Some _ => true | None => false end.
Proof.
  rewrite md_get_find. unfold md_has. induction b as [|[k' v] b IH]; [reflexivity|]. cbn [existsb find fst].
  destruct (str_eqb k' k) eqn:E; [reflexivity|]. exact IH.
Qed.
(** Each row of the table is made of the bytes before the pixels of a line: for any table
    described by the image's block with the format file put in its place, in a file of lines
    made of ROW_BYTES prefix bytes and SAMPLE_BITS / 8 * LINE_SAMPLES bytes of pixels. *)
Theorem C75_prefix_rows : forall o m params load bits fuel st name image b b1 k v b2 file items t blk bb prefix lines sample_bits samples c
    mem pre (rows : list (list ascii * list ascii)) post,
  parent_of st name = Some image -> as_block (mblock o m params image) = Some b ->
  b = b1 ++ (k, v) :: b2 -> structure_pointer k ->
  Forall (fun kv => ~ structure_pointer (fst kv)) (b1 ++ b2) -> load v = Ok file -> stands_for file items ->
  let described := b1 ++ items ++ b2 in
  lacks described $"ROWS" -> lacks described $"ROW_SUFFIX_BYTES" -> lacks described $"ROW_PREFIX_BYTES" ->
  holds described $"LINES" (PInt lines) -> holds described $"SAMPLE_BITS" (PInt sample_bits) ->
  holds described $"LINE_SAMPLES" (PInt samples) -> holds described $"ROW_BYTES" (PInt prefix) ->
  says_table described t -> named described blk -> may_hold described $"BYTES" bb -> good_table blk t ->
  name <> $"CONTAINER" -> (3 <= fuel)%nat -> last_column_ends t c -> 0 <= column_end c <= prefix -> 0 < prefix ->
  0 <= sample_bits / 8 * samples ->
  Forall (fun x => 0 <= fst x /\ 0 <= snd x) (table_cells 0 t) ->
  Forall (fun line => Z.of_nat (List.length (fst line)) = prefix /\ Z.of_nat (List.length (snd line)) = sample_bits / 8 * samples) rows ->
  lines = Z.of_nat (List.length rows) ->
  exists block r, get_block o m params load st name = Ok (PMulti block) /\ holds block $"ROWS" (PInt lines) /\
    parse_table_structure load bits fuel block name = Ok r /\
    read_binary mem (pre ++ concat (map (fun line => fst line ++ snd line) rows) ++ post) (List.length pre) (Z.to_nat lines) r =
    Ok (map (fun line => map (fun x => firstn (Z.to_nat (snd x)) (skipn (Z.to_nat (fst x)) (fst line))) (table_cells 0 t)) rows).
Proof.
  intros o m params load bits fuel st name image b b1 k v b2 file items t blk bb prefix lines sample_bits samples c mem pre rows post
    Hp Hb -> Hk Hother Hload Hstands D Hr1 Hr2 Hr3 Hlines Hbits Hsamples Hbytes Hs Hn Hbb Hg Hna Hf Hl He Hpos Hsize Hcells Hrows Hcount.
  apply Forall_app in Hother as [Ho1 Ho2].
  assert (Hb2 : inject_format_files load b2 = Ok b2).
  { rewrite inject_splice. clear -Ho2. induction Ho2 as [|[k' v'] l Hk' _ IH]; [reflexivity|]. cbn [splice].
    rewrite (proj2 (not_structure k') Hk'), IH. reflexivity. }
  pose proof (C51_one_pass load b1 k v b2 file items b2 Ho1 Hk Hload Hstands Hb2) as Hi.
  set (block := (D ++ [($"ROWS", PInt lines)]) ++ [($"ROW_SUFFIX_BYTES", PInt (sample_bits / 8 * samples))]).
  assert (Hblock : get_block o m params load st name = Ok (PMulti block)).
  { unfold get_block. rewrite Hp. destruct (mblock o m params image) as [| | | | | | |kvs|kvs]; try discriminate Hb; injection Hb as ->;
    unfold fix_up_line_prefix_table_block; rewrite Hi; fold D; cbn [rbind]; rewrite md_has_get, Hr1, Hlines; cbn [rbind];
    rewrite md_has_get, !md_get_app, Hr2, Hbits, Hsamples; reflexivity. }
  assert (Hget : forall x, x <> $"ROWS" -> x <> $"ROW_SUFFIX_BYTES" -> md_get block x = md_get D x).
  { intros x H1 H2. unfold block. rewrite !md_get_app. destruct (md_get D x); [reflexivity|].
    rewrite !md_get_find. cbn [find fst]. destruct (str_eqb $"ROWS" x) eqn:E1; [apply str_eqb_eq in E1; congruence|]. cbn [option_map].
    destruct (str_eqb $"ROW_SUFFIX_BYTES" x) eqn:E2; [apply str_eqb_eq in E2; congruence|]. reflexivity. }
  assert (Hsuffix : md_get block $"ROW_SUFFIX_BYTES" = Some (PInt (sample_bits / 8 * samples))).
  { unfold block. rewrite !md_get_app, Hr2. reflexivity. }
  destruct (C25_cells load bits fuel block name t blk bb (Some (sample_bits / 8 * samples)) prefix c mem pre
              (map (fun line => fst line ++ snd line) rows) post (Z.to_nat lines)) as (r & E1 & E2); auto.
  - destruct Hs as [Hs1 Hs2]. split.
    + unfold block. apply parts_app; [apply parts_app; [exact Hs1|]|]; (apply other_item; [not_in|not_ptr|constructor]).
    + unfold lacks in *. rewrite Hget by discriminate. exact Hs2.
  - unfold named in *. rewrite Hget by discriminate. exact Hn.
  - unfold may_hold, holds, lacks in *. rewrite Hget by discriminate. exact Hbb.
  - unfold row_measures, may_hold, holds, lacks in *. rewrite Hsuffix, !Hget by discriminate. auto.
  - cbn [opt0]. lia.
  - cbn [opt0]. lia.
  - cbn [opt0]. rewrite Forall_map. eapply Forall_impl; [|exact Hrows]. cbv beta. intros [a p] [H1 H2]. cbn [fst snd] in *.
    rewrite app_length. lia.
  - left. rewrite map_length. lia.
  - exists block, r. split; [exact Hblock|]. split.
    { unfold holds, block. rewrite !md_get_app. unfold lacks in Hr1. rewrite Hr1. reflexivity. }
    split; [exact E1|]. rewrite E2, map_map. f_equal. apply map_ext_in. intros [a p] Hin. cbn [fst snd].
    rewrite Forall_forall in Hrows. specialize (Hrows _ Hin). cbn [fst snd] in Hrows.
    apply map_ext_in. intros [off w] Hc. destruct Hl as (_ & _ & Hends). rewrite Forall_forall in Hends, Hcells.
    specialize (Hends _ Hc). specialize (Hcells _ Hc). cbn [fst snd] in *.
    rewrite skipn_app, firstn_app. replace (Z.to_nat w - _)%nat with 0%nat; [now rewrite firstn_O, app_nil_r|].
    rewrite skipn_length. lia.
Qed.
Print Assumptions C75_prefix_rows.

(** ** Examples *)
Definition open_ex (m : multidict) : res found :=
  find_objects DepthFirst m (keys_of (PMulti m)) (mkPath $"/d" $"A.LBL") [$"/d"] (fun d => if str_eqb d $"/d" then Some [$"A.LBL"; $"A.IMG"; $"B.DAT"] else None)
    (fun _ => None) [$"COMPRESSED_FILE"; $"UNCOMPRESSED_FILE"] (fun _ => Ok 20) (fun _ => []).
Definition ex_image_block (more : multidict) : pv :=
  PMulti ([($"LINES", PInt 2); ($"SAMPLE_BITS", PInt 16); ($"LINE_SAMPLES", PInt 3); ($"ROW_BYTES", PInt 4)] ++ more).
Definition ex_product : multidict :=
  [($"^TIFF_HEADER", PInt 1); ($"^IMAGE", PTuple [PStr $"A.IMG"; PInt 3]); ($"^RED_IMAGE", PTuple [PStr $"A.IMG"; PInt 9]);
   ($"^TELEMETRY_TABLE", PStr $"B.DAT"); ($"TELEMETRY_TABLE", PMulti [($"^STRUCTURE", PStr $"T.FMT")]);
   ($"IMAGE", ex_image_block [($"^LINE_PREFIX_STRUCTURE", PStr $"P.FMT")]);
   ($"RED_IMAGE", ex_image_block [($"^LINE_PREFIX_STRUCTURE", PStr [])])].
Lemma no_special : forall l, ~ special_product (fun _ => []) l.
Proof. intros l H. apply special_objects_iff in H. discriminate. Qed.
Lemma by_filter {A} (P : A -> Prop) f l l' : (forall x, f x = true <-> P x) -> filter f l = l' -> picked P l l'.
Proof. intros Hf <-. now apply filter_picked. Qed.
Example C75_meets : exists all names images tabled,
  pointed_to DepthFirst ex_product all /\ picked shown all names /\ picked image_name names images /\
  Forall (fun n => ~ undescribed_prefix (block_in DepthFirst ex_product (keys_of (PMulti ex_product))) n) names /\
  Forall (fun n => ~ several_formats (block_in DepthFirst ex_product (keys_of (PMulti ex_product))) n) images /\
  picked (prefixed (block_in DepthFirst ex_product (keys_of (PMulti ex_product)))) images tabled /\
  names = [$"IMAGE"; $"RED_IMAGE"; $"TELEMETRY_TABLE"] /\ tabled = [$"IMAGE"] /\
  exists st, open_ex ex_product = Ok st /\ idx st = [$"IMAGE"; $"RED_IMAGE"; $"TELEMETRY_TABLE"; $"IMAGE_LINE_PREFIX_TABLE"] /\
    parent_of st $"IMAGE_LINE_PREFIX_TABLE" = Some $"IMAGE".
Proof.
  exists [$"TIFF_HEADER"; $"IMAGE"; $"RED_IMAGE"; $"TELEMETRY_TABLE"; $"STRUCTURE"; $"LINE_PREFIX_STRUCTURE"; $"LINE_PREFIX_STRUCTURE"],
    [$"IMAGE"; $"RED_IMAGE"; $"TELEMETRY_TABLE"], [$"IMAGE"; $"RED_IMAGE"], [$"IMAGE"].
  split; [apply pointers_eq; vm_compute; reflexivity|]. 
  split; [apply (by_filter _ _ _ _ trivial_iff); vm_compute; reflexivity|]. split; [apply (by_filter _ _ _ _ image_iff); vm_compute; reflexivity|].
  split; [repeat (apply Forall_cons; [intros H; apply orphan_iff in H; vm_compute in H; discriminate|]); apply Forall_nil|].
  split; [repeat (apply Forall_cons; [intros H; apply too_many_iff in H; vm_compute in H; discriminate|]); apply Forall_nil|].
  split; [apply (by_filter _ _ _ _ (adds_iff DepthFirst ex_product (keys_of (PMulti ex_product)))); vm_compute; reflexivity|].
  split; [reflexivity|]. split; [reflexivity|]. eexists. split; [vm_compute; reflexivity|]. split; reflexivity.
Qed.
(** the rows of that table: two lines of 4 prefix bytes and 3 samples of 2 bytes *)
Definition ex_format : multidict := [ex_column $"COUNT" 1 2 []; ex_column $"FLAG" 4 1 []].
Example C75_prefix_rows_meets : exists st block r,
  open_ex ex_product = Ok st /\
  get_block DepthFirst ex_product (keys_of (PMulti ex_product)) (fun _ => Ok ex_format) st $"IMAGE_LINE_PREFIX_TABLE" = Ok (PMulti block) /\
  says_table block [Column (mkCol $"COUNT" 1 2 None None None None); Column (mkCol $"FLAG" 4 1 None None None None)] /\
  parse_table_structure (fun _ => Ok ex_format) (fun f _ => Ok f) 5 block $"IMAGE_LINE_PREFIX_TABLE" = Ok r /\
  read_binary false $"xxabcdPPPPPPefghQQQQQQyy" 2 2 r = Ok [[$"ab"; $"d"]; [$"ef"; $"h"]].
Proof.
  eexists _, _, _. split; [vm_compute; reflexivity|]. split; [vm_compute; reflexivity|]. split.
  { split; [|reflexivity]. repeat (apply other_item; [not_in|not_ptr|]). 
    do 2 (apply part_item; [cbn; tauto|a_column|]). repeat (apply other_item; [not_in|not_ptr|]). constructor. }
  split; [vm_compute; reflexivity|]. vm_compute. reflexivity.
Qed.
(** An object of another file with LINE_PREFIX in its name is taken to be the prefixes of IMAGE,
    and read from IMAGE's position, whatever its own pointer says. *)
Definition ex_other : multidict :=
  [($"^IMAGE", PTuple [PStr $"A.IMG"; PInt 3]); ($"^LINE_PREFIX_TABLE", PTuple [PStr $"B.DAT"; PInt 7]);
   ($"IMAGE", ex_image_block [($"^LINE_PREFIX_STRUCTURE", PStr $"P.FMT")])].
Theorem C75_same_place_refuted : exists m st params, params = keys_of (PMulti m) /\ open_ex m = Ok st /\
  parent_of st $"LINE_PREFIX_TABLE" = Some $"IMAGE" /\
  md_get m $"^LINE_PREFIX_TABLE" = Some (PTuple [PStr $"B.DAT"; PInt 7]) /\
  get_target DepthFirst m params st $"LINE_PREFIX_TABLE" = PTuple [PStr $"A.IMG"; PInt 3].
Proof.
  exists ex_other. eexists _, _. split; [reflexivity|]. split; [vm_compute; reflexivity|]. split; [reflexivity|]. split; vm_compute; reflexivity.
Qed.
Print Assumptions C75_same_place_refuted.
(** Such products cannot even be opened if their image has another name. *)
Definition ex_red : multidict :=
  [($"^RED_IMAGE", PTuple [PStr $"A.IMG"; PInt 3]); ($"^LINE_PREFIX_TABLE", PTuple [PStr $"A.IMG"; PInt 3]);
   ($"RED_IMAGE", ex_image_block [($"^LINE_PREFIX_STRUCTURE", PStr $"P.FMT")])].
Theorem C75_opens_refuted : exists m, md_get m $"^RED_IMAGE" = Some (PTuple [PStr $"A.IMG"; PInt 3]) /\
  md_get m $"^LINE_PREFIX_TABLE" = md_get m $"^RED_IMAGE" /\ open_ex m = Err KeyError.
Proof. exists ex_red. repeat split; vm_compute; reflexivity. Qed.
Print Assumptions C75_opens_refuted.
(** A prefix table with a block of its own is listed twice, if the image's block also has its format. *)
Definition ex_twice : multidict :=
  [($"^IMAGE", PTuple [PStr $"A.IMG"; PInt 3]); ($"^IMAGE_LINE_PREFIX_TABLE", PTuple [PStr $"A.IMG"; PInt 3]);
   ($"IMAGE", ex_image_block [($"^LINE_PREFIX_STRUCTURE", PStr $"P.FMT")]); ($"IMAGE_LINE_PREFIX_TABLE", PMulti [($"ROWS", PInt 2)])].
Theorem C75_listed_once_refuted : exists m st, open_ex m = Ok st /\ NoDup (map fst m) /\
  idx st = [$"IMAGE"; $"IMAGE_LINE_PREFIX_TABLE"; $"IMAGE_LINE_PREFIX_TABLE"].
Proof.
  exists ex_twice. eexists. split; [vm_compute; reflexivity|]. split; [|reflexivity].
  repeat (apply NoDup_cons; [intros H; cbn in H; repeat (destruct H as [H|H]; [discriminate H|]); exact H|]). apply NoDup_nil.
Qed.
Print Assumptions C75_listed_once_refuted.
(** the hypotheses about undescribed prefix objects *)
Example C75_undescribed_meets : exists names images orphans formatted,
  names = [$"IMAGE"; $"LINE_PREFIX_TABLE"] /\ pointed_to DepthFirst ex_other (names ++ [$"LINE_PREFIX_STRUCTURE"]) /\ picked image_name names images /\
  picked (undescribed_prefix (block_in DepthFirst ex_other (keys_of (PMulti ex_other)))) names orphans /\ orphans = [$"LINE_PREFIX_TABLE"] /\
  Forall (fun n => ~ several_formats (block_in DepthFirst ex_other (keys_of (PMulti ex_other))) n) images /\
  picked (one_format (block_in DepthFirst ex_other (keys_of (PMulti ex_other)))) images ($"IMAGE" :: formatted) /\
  exists st, open_ex ex_other = Ok st /\ idx st = names.
Proof.
  exists [$"IMAGE"; $"LINE_PREFIX_TABLE"], [$"IMAGE"], [$"LINE_PREFIX_TABLE"], [].
  split; [reflexivity|]. split; [apply pointers_eq; vm_compute; reflexivity|].
  split; [apply (by_filter _ _ _ _ image_iff); vm_compute; reflexivity|].
  split; [apply (by_filter _ _ _ _ (orphan_iff DepthFirst ex_other (keys_of (PMulti ex_other)))); vm_compute; reflexivity|]. split; [reflexivity|].
  split; [repeat (apply Forall_cons; [intros H; apply too_many_iff in H; vm_compute in H; discriminate|]); apply Forall_nil|].
  split; [apply (by_filter _ _ _ _ (has_format_iff DepthFirst ex_other (keys_of (PMulti ex_other)))); vm_compute; reflexivity|].
  eexists. split; [vm_compute; reflexivity|]. reflexivity.
Qed.
