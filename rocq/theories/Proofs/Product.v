(** Proofs for C82. *)
From Verif.Base Require Import Py Val PyFacts.
From Verif.Model Require Import Files Trim Pvl PvlLiteral Meta Objects Product.
From Verif.Spec Require Import Pvl Meta Trim Files Objects Product.
From Verif.Proofs Require Import PvlBlocks PvlText PvlPointers PvlLiteral PvlWhole Meta Objects.
From Verif.Properties Require Pvl Trim Meta Objects Files.

(** ** Values *)
Lemma unbased_test s : unbased s -> negb (startswith [""""%char] s) && has_char "#"%char (zslice 1 3 s) = false.
Proof.
  intros [[t ->]|H]; [reflexivity|]. apply andb_false_iff. right. destruct (has_char _ _) eqn:E; [|reflexivity].
  exfalso. apply H. apply has_char_iff in E. replace (zslice 1 3 s) with (firstn 2 (skipn 1 s)) in E; [exact E|].
  symmetry. apply (zslice_nat s 1 3).
Qed.
Lemma plain_fuel lit s v n : plain_value lit s v -> literalize_fuel lit (S n) s = Ok v.
Proof.
  intros [t w U E|t U E B H]; cbn [literalize_fuel]; rewrite (unbased_test _ U).
  - now rewrite E.
  - assert (Eb : has_char "<"%char t && has_char ">"%char t = false).
    { destruct B as [B|B]; apply andb_false_iff; [left|right]; apply not_true_iff_false; intros X; apply has_char_iff in X; contradiction. }
    assert (Es : match t with [] => Err IndexError
                 | c :: _ => if Ascii.eqb c "("%char || Ascii.eqb c "{"%char then parse_unusual_collection t else Ok (PStr t) end = Err IndexError \/
                 match t with [] => Err IndexError
                 | c :: _ => if Ascii.eqb c "("%char || Ascii.eqb c "{"%char then parse_unusual_collection t else Ok (PStr t) end = Ok (PStr t)).
    { destruct t as [|c t]; [now left|right]. destruct (H t) as [H1 H2].
      destruct (Ascii.eqb_spec c "("%char) as [->|_]; [now destruct H1|]. destruct (Ascii.eqb_spec c "{"%char) as [->|_]; [now destruct H2|]. reflexivity. }
    destruct E as [-> | ->]; rewrite Eb; destruct Es as [-> | ->]; reflexivity.
Qed.
Lemma plain_ok lit s v : plain_value lit s v -> literalize lit s = Ok v.
Proof. intros H. now apply plain_fuel. Qed.
Lemma value_ok lit s v : value_of_text lit s v -> literalize lit s = Ok v.
Proof.
  assert (Q : forall items vs, Forall2 (qmeaning (plain_value lit)) items vs -> Forall2 (qmeaning (fun s v => literalize lit s = Ok v)) items vs).
  { intros items vs H. induction H as [|i w items vs Hi _ IH]; constructor; [|exact IH].
    inversion Hi; subst; constructor; now apply plain_ok. }
  intros [t w H|items vs W E M N|items vs W E M N].
  - now apply plain_ok.
  - pose proof (Pvl.C55_quantities lit items vs [] [] W E (or_introl (conj eq_refl eq_refl))) as H. cbn zeta in H. cbn [app] in H. rewrite app_nil_r in H. apply H; auto.
  - pose proof (Pvl.C55_quantities lit items vs $"(" $")" W E (or_intror (conj eq_refl eq_refl))) as H. apply H; auto.
Qed.
Lemma shape_unique (R R' : pv -> pv -> Prop) : (forall v a b, R v a -> R' v b -> a = b) -> forall v a b, same_shape R v a -> same_shape R' v b -> a = b.
Proof.
  intros F v. induction v as [v Hv|kvs IH] using pv_multi_ind; intros a b Ha Hb.
  - inversion Ha; subst; [|discriminate]. inversion Hb; subst; [|discriminate]. eauto.
  - inversion Ha as [? ? X|? l Hl]; subst; [discriminate|]. inversion Hb as [? ? X|? l' Hl']; subst; [discriminate|]. f_equal.
    clear Ha Hb. revert l l' Hl Hl'. induction IH as [|kv kvs Hkv _ IHl]; intros l l' Hl Hl'; inversion Hl as [|? x ? ? [K1 S1] T1]; inversion Hl' as [|? y ? ? [K2 S2] T2]; subst; [reflexivity|].
    f_equal; [|now apply IHl]. destruct x as [x1 x2], y as [y1 y2]. cbn [fst snd] in *. subst x1. subst y1. f_equal. eapply Hkv; eassumption.
Qed.
(** ** The label *)
Lemma writes_statements es last : wf_label es -> last = [] \/ last = [($"END", [])] ->
  parse_statements (label_statements es ++ last) = Ok (denote es, flat_map completed_keys es, false).
Proof.
  intros W L. set (ts := map Ent es ++ match last with [] => [] | _ => [Stray $"END" []] end).
  assert (E1 : flat_map top_statements ts = label_statements es ++ last).
  { unfold ts. rewrite flat_map_app, flat_map_concat_map, map_map. cbn [top_statements]. rewrite <- flat_map_concat_map.
    destruct L as [-> | ->]; reflexivity. }
  assert (E2 : top_entries ts = es).
  { unfold ts, top_entries. rewrite flat_map_app. destruct L as [-> | ->]; cbn [flat_map app]; rewrite app_nil_r; clear; induction es; cbn; congruence. }
  rewrite <- E1, Pvl.C02_surplus_ends_ignored; [now rewrite E2|].
  unfold ts. apply Forall_app. split; [rewrite Forall_map; exact W|]. destruct L as [-> | ->]; constructor; [|constructor].
  cbn. split; [intros [H|[H|[H|H]]]; discriminate|now exists []].
Qed.
Lemma label_parsed lit o es text label : tame lit -> wf_label es -> (forall p, ~ renamed_pointer (flat_map completed_keys es) p) ->
  written es text -> label_of_entries lit es label -> parse_pvl lit o text true = Ok (label, flat_map completed_keys es).
Proof.
  intros T W D (last & lss & L & Hw & -> & U) S. unfold parse_pvl.
  rewrite (Pvl.C03_text_to_statements _ _ Hw U), (writes_statements es last W L). cbn [rbind].
  rewrite completed_keys_post in *. rewrite index_no_dups by assumption. cbn [rbind fst snd].
  destruct (literalize_block_total lit (denote es) T (string_leaves_denote es)) as [m Hm]. rewrite Hm. cbn [rbind]. repeat f_equal.
  apply literalize_block_shape in Hm. assert (E : PMulti m = PMulti label); [|now injection E].
  eapply shape_unique; [|exact Hm|exact S]. intros v a b (s & -> & H1) (s' & E & H2). injection E as <-. apply value_ok in H2. congruence.
Qed.

Lemma piece_chunk : piece = CHUNK.
Proof. reflexivity. Qed.
Lemma piece_pos : (0 < CHUNK)%nat.
Proof. unfold CHUNK. rewrite N2Nat.inj_mul. change (N.to_nat 50) with 50%nat. assert (0 < N.to_nat 1024)%nat by (change 1024%N with (N.succ 1023); rewrite N2Nat.inj_succ; lia). lia. Qed.
Lemma ascii_bytes s : ascii_text s -> forallb is_ascii_byte s = true.
Proof. intros H. apply forallb_forall. intros c Hc. unfold ascii_text in H. rewrite Forall_forall in H. unfold is_ascii_byte. now apply N.ltb_lt, H. Qed.
Lemma label_trimmed (dec : str -> res str) max strict file text : label_in max file text -> ascii_text text -> dec text = Ok text ->
  trim_label dec CHUNK max strict false file = Ok text.
Proof.
  intros H A D. unfold trim_label.
  assert (E : trim_bytes CHUNK max strict false file = Ok text); [|now rewrite E].
  destruct H as [head chunks a m b rest -> Hh Hc Hm Hl Hf|head chunks last -> Hh Hc Hm Hl Hn].
  - assert (B : strict = true -> forallb is_ascii_byte head = true).
    { intros _. apply ascii_bytes. now apply Forall_app in A as [A _]. }
    destruct Hf as [Hf|(-> & F1 & F2 & F3)].
    + apply Trim.C09_ends_at_first_marker; auto using piece_pos.
    + apply Trim.C09_ends_at_unix_end; auto using piece_pos.
  - assert (B : strict = true -> forallb is_ascii_byte head = true).
    { intros _. apply ascii_bytes. now apply Forall_app in A as [A _]. }
    pose proof (Trim.C09_no_ending CHUNK max strict false head chunks last [] piece_pos Hh B Hc) as X. rewrite app_nil_r in X. apply X. right. repeat split; auto; apply Hn.
Qed.
Lemma read_label_text x d max strict p es text label : tame (literal_eval x) -> (forall b t, ascii_text t -> decode x b t = Ok t) ->
  label_in max (contents d p) text -> ascii_text text -> wf_label es -> (forall q, ~ renamed_pointer (flat_map completed_keys es) q) ->
  written es text -> label_of_entries (literal_eval x) es label ->
  read_pvl x d max strict p = Ok (label, flat_map completed_keys es).
Proof.
  intros T D L A W R Hw S. unfold read_pvl. rewrite (label_trimmed _ _ _ _ _ L A) by now apply D. cbn [rbind]. now apply label_parsed.
Qed.
(** ** Finding the label *)
Lemma label_found fs fn label : on_disk fs fn -> ordinary_dirs fs -> labelled fs fn label ->
  exists l, associate_label_file fs fn None false = Ok l /\ label = match l with Some q => q | None => fn end.
Proof.
  intros (l & Hl & Hin) O [H|stem ext N1 N2 S C|stem ext N1 N2 S X (l' & Hl' & Hin')].
  - exists (Some fn). split; [|reflexivity]. rewrite (Files.C14_itself fs fn false (or_introl H)). destruct fn as [dir name]. now rewrite (Files.C13_exact fs dir l name Hl Hin).
  - exists None. split; [|reflexivity]. destruct (Files.C14_search fs fn stem ext false O N1 N2 S) as [[E _]|(before & cand & after & p & E & _ & E2 & _ & Hp & l' & Hl' & Hin')]; [exact E|].
    exfalso. assert (Hc : no_candidate fs cand).
    { assert (I : In cand (map (fun e => mkPath (pdir fn) (stem ++ e)) [$".xml"; $".lbl"; $".lblx"])) by (rewrite E; apply in_elt).
      apply in_map_iff in I as (e & <- & He). rewrite Forall_forall in C. now apply C. }
    assert (Dir : pdir cand = pdir fn).
    { assert (I : In cand (map (fun e => mkPath (pdir fn) (stem ++ e)) [$".xml"; $".lbl"; $".lblx"])) by (rewrite E; apply in_elt). apply in_map_iff in I as (e & <- & He). reflexivity. }
    unfold no_candidate in Hc. rewrite Dir, Hl' in Hc. destruct Hc as [Hc1 Hc2]. destruct Hp as [->|Hp]; [contradiction|]. now apply (Hc2 (pname p)).
  - exists (Some (mkPath (pdir fn) (stem ++ $".lbl"))). split; [|reflexivity]. rewrite (Files.associate_search fs fn false N1 N2).
    assert (W : map (with_extension fn) [$".xml"; $".lbl"; $".lblx"] = map (fun e => mkPath (pdir fn) (stem ++ e)) [$".xml"; $".lbl"; $".lblx"]).
    { apply map_ext_in. intros e He. unfold with_extension. now rewrite (proj2 (Files.last_dot_split _ _ _ S)). }
    rewrite W. cbn [map]. pose proof (Files.check_app fs [mkPath (pdir fn) (stem ++ $".xml")] [mkPath (pdir fn) (stem ++ $".lbl"); mkPath (pdir fn) (stem ++ $".lblx")]) as E. cbn [app] in E. rewrite E.
    assert (M : check_cases fs [mkPath (pdir fn) (stem ++ $".xml")] false = Err FileNotFoundError) by (apply Files.C13_missing; [exact O|constructor; [exact X|constructor]]).
    rewrite M. cbn [check_cases pdir pname] in *. unfold path_exists. cbn [pdir pname] in *. rewrite Hl'. apply str_in_iff in Hin'. now rewrite Hin'.
Qed.
Lemma pds3_label fmt p : pds3_name p -> check_primary_fmt fmt p = None /\ is_pds4_label (pstr p) = false.
Proof.
  intros (X & C & F & D). split.
  - unfold check_primary_fmt. destruct (endswith_any FITS_EXTENSIONS (lower (pstr p))) eqn:E.
    { apply Files.endswith_any_iff in E as (e & t & He & E). now destruct (F t e He). }
    destruct (looks_like_this_kind_of_file (pname p) DESKTOP_IMAGE_EXTENSIONS) eqn:L; [|reflexivity].
    exfalso. apply D. unfold looks_like_this_kind_of_file in L. apply existsb_exists in L as (e & Hin & He). apply str_in_iff in He. now exists e.
  - unfold is_pds4_label. apply orb_false_iff. split; [apply orb_false_iff; split|].
    + apply not_true_iff_false. intros H. apply endswith_iff in H as [s H]. now destruct (X s).
    + apply not_true_iff_false. intros H. apply endswith_iff in H as [s H]. now destruct (X s).
    + apply andb_false_iff. right. apply not_true_iff_false. intros H. apply existsb_exists in H as (e & He & H). apply endswith_iff in H as [s H]. now apply (C s e He).
Qed.

(** ** Looking things up *)
Lemma shape_values R k v v' : same_shape R v v' -> In k (keys_post v) -> values_of k v' <> [].
Proof.
  revert v'. induction v as [v Hv|kvs IH] using pv_multi_ind; intros v' S Hk.
  - destruct v; try contradiction Hk; discriminate.
  - inversion S as [? ? X|? l Hl]; subst; [discriminate|]. cbn [keys_post] in Hk. cbn [values_of]. clear S.
    revert l Hl Hk. induction IH as [|kv kvs Hkv _ IHl]; intros l Hl Hk; [contradiction|].
    inversion Hl as [|? y ? ? [K T] Tl]; subst. cbn [flat_map] in Hk |- *. rewrite in_app_iff, in_app_iff in Hk.
    intros E. apply app_eq_nil in E as [E1 E2]. apply app_eq_nil in E1 as [E0 E1]. destruct Hk as [[Hk|[Hk|[]]]|Hk].
    + exact (Hkv _ T Hk E1).
    + rewrite <- K, Hk, str_eqb_refl in E0. discriminate.
    + exact (IHl _ Tl Hk E2).
Qed.
Lemma entries_values lit es label k : label_of_entries lit es label -> In k (flat_map completed_keys es) -> values_of k (PMulti label) <> [].
Proof. intros S H. rewrite completed_keys_post in H. exact (shape_values _ _ _ _ S H). Qed.
Lemma mget_in o m keys k : mget o m keys k = PNone \/ In (mget o m keys k) (values_of k (PMulti m)).
Proof.
  unfold mget. destruct (count_str k keys =? 0)%nat; [now left|]. rewrite metaget_interior_or.
  destruct (values_of k (PMulti m)) as [|v l] eqn:E; [left; now rewrite dig_none|].
  assert (N : values_of k (PMulti m) <> []) by (rewrite E; discriminate). pose proof (dig_in o m k N) as I. rewrite E in I.
  destruct (dig_for_value o m k); cbn [or_default]; auto.
Qed.
Lemma mblock_in lit o es label k : label_of_entries lit es label -> (forall v, In v (values_of k (PMulti label)) -> exists b, v = PMulti b) ->
  mblock o label (flat_map completed_keys es) k = PNone \/ In (mblock o label (flat_map completed_keys es) k) (values_of k (PMulti label)).
Proof.
  intros S B. unfold mblock. destruct (count_str k _ =? 0)%nat eqn:C; [now left|]. right.
  assert (I : In k (flat_map completed_keys es)).
  { destruct (str_in k (flat_map completed_keys es)) eqn:X; [now apply str_in_iff|]. exfalso. rewrite Properties.Meta.not_counted in C; [discriminate|]. intros H. apply str_in_iff in H. congruence. }
  pose proof (dig_in o label k (entries_values _ _ _ _ S I)) as D. unfold metablock_interior. destruct (B _ D) as [b E]. rewrite E in *. exact D.
Qed.
Lemma no_special x label keys : ordinary_product label -> forall l, ~ special_product (identifier x label keys) l.
Proof.
  intros [H1 H2] l S.
  assert (T : forall k s, s <> [] -> identifier x label keys k = s -> In (PStr s) (values_of k (PMulti label))).
  { intros k s Ns E. unfold identifier in E. destruct (mget_in (walk_order x) label keys k) as [X|X]; [rewrite X in E; congruence|].
    destruct (mget (walk_order x) label keys k) as [| | | |t| | | |]; try congruence. }
  destruct S as [(A & _)|_ (A & _)|_ _ [(A & _)|(A & _)]]; [apply H1|apply H2|apply H2|apply H2]; apply T; try discriminate; exact A.
Qed.

Lemma picked_none {A} (P : A -> Prop) l : Forall (fun y => ~ P y) l -> picked P l [].
Proof. induction 1; now constructor. Qed.
Lemma picked_exists {A} (P : A -> Prop) l : (forall y, P y \/ ~ P y) -> exists l', picked P l l'.
Proof. intros D. induction l as [|y l [l' IH]]; [now exists []; constructor|]. destruct (D y); [exists (y :: l')|exists l']; now constructor. Qed.
Lemma picked_inv {A} (P : A -> Prop) l y l' : picked P l (y :: l') -> In y l.
Proof. remember (y :: l') as r. intros H. induction H; [discriminate|left; congruence|right; auto]. Qed.
(** ** The objects *)
Lemma image_name_dec n : image_name n \/ ~ image_name n.
Proof.
  unfold image_name, Objects.mentions. destruct (contains $"IMAGE" n) eqn:A; destruct (contains $"TABLE" n) eqn:B;
    repeat match goal with H : contains _ n = true |- _ => apply contains_iff in H end;
    [right; now intros [_ []]|left; split; [exact A|]|right|right]; try (intros [X _]; apply contains_iff in X; congruence).
  intros X. apply contains_iff in X. congruence.
Qed.
Lemma objects_found x d lit es label names filename dirs keys start : label_of_entries lit es label -> ordinary_product label ->
  keys = flat_map completed_keys es -> lists_objects (walk_order x) label names ->
  exists st, find_objects (walk_order x) label keys filename dirs (listing d) (fun _ => None) (compkeys x) start (identifier x label keys) = Ok st /\
    idx st = names /\ (forall n, parent_of st n = None) /\ files st = [].
Proof.
  intros S O -> (all & Hp & Hs & Hn).
  destruct (picked_exists image_name names image_name_dec) as [images Hi].
  assert (B : forall n, In n names -> forall b, as_block (mblock (walk_order x) label (flat_map completed_keys es) n) = Some b -> Forall (fun kv => ~ points_to_format kv) b).
  { intros n In_ b E. destruct (Hn n In_) as [_ Hb].
    destruct (mblock_in lit (walk_order x) es label n S) as [X|X]; [intros v Hv; destruct (Hb v Hv) as (b' & -> & _); now exists b'| |].
    - rewrite X in E. discriminate.
    - destruct (Hb _ X) as (b' & E' & F). rewrite E' in E. cbn in E. now injection E as <-. }
  assert (Hin : forall n, In n images -> In n names).
  { clear -Hi. induction Hi; [easy|intros n [->|H0]; [now left|right; auto]|intros n H0; right; auto]. }
  destruct (Properties.Objects.C75_listed (walk_order x) label (flat_map completed_keys es) filename dirs (listing d) (fun _ => None) (compkeys x) start
     (identifier x label (flat_map completed_keys es)) all names images [] (no_special x label _ O) Hp Hs Hi) as (st & E & Ei & Ep).
  - apply Forall_forall. intros n In_ [M _]. now apply (proj1 (Hn n In_)).
  - apply Forall_forall. intros n In_ (b & kv & kv' & l & Eb & P). specialize (B n (Hin n In_) b Eb). apply picked_inv in P as P0.
    rewrite Forall_forall in B. apply (B kv P0).
    clear -P. remember (kv :: kv' :: l) as r. revert Heqr. induction P; intros Heqr; [discriminate|now injection Heqr as <- _|auto].
  - apply picked_none, Forall_forall. intros n In_ (b & k & v & Eb & P & _). specialize (B n (Hin n In_) b Eb). apply picked_inv in P as P0.
    rewrite Forall_forall in B. apply (B (k, v) P0). clear -P. remember [(k, v)] as r. revert Heqr. induction P; intros Heqr; [discriminate|injection Heqr as <- _; exact H|auto].
  - exists st. split; [exact E|]. split; [rewrite Ei; apply app_nil_r|]. split.
    + intros n. destruct (parent_of st n) as [q|] eqn:X; [|reflexivity]. apply Ep in X as [[] _].
    + assert (Ho : picked (undescribed_prefix (fun n => as_block (mblock (walk_order x) label (flat_map completed_keys es) n))) names []).
      { apply picked_none, Forall_forall. intros n In_ [M _]. now apply (proj1 (Hn n In_)). }
      rewrite (Properties.Objects.open_eq _ _ _ _ _ _ _ _ _ _ _ _ _ _ (no_special x label _ O) Hp Hs Hi Ho) in E. clear -E.
      assert (G : forall images st st', files st = [] -> associate_all (walk_order x) label (flat_map completed_keys es) filename dirs (listing d) (fun _ => None) (compkeys x) start [] images st = Ok st' -> files st' = []).
      { clear. induction images as [|i images IH]; intros st st' F E; cbn [associate_all] in E; [now injection E as <-|].
        unfold associate_prefix_tables in E at 1. destruct (mblock _ _ _ i); cbn [rbind] in E; try (now apply IH with st);
          (destruct (filter _ _) as [|? [|? ?]]; cbn [rbind] in E; [now apply IH with st| |discriminate]);
          (destruct (md_get _ _) as [[| | | |[|? ?]| | | |]|]; cbn [rbind] in E; refine (IH _ _ _ E); exact F). }
      eapply G; [|exact E]. reflexivity.
Qed.

(** ** Opening *)
Lemma product_opened x d fn label_path max strict extra es text label names :
  tame (literal_eval x) -> (forall b t, ascii_text t -> decode x b t = Ok t) -> ordinary_dirs (listing d) ->
  on_disk (listing d) fn -> labelled (listing d) fn label_path -> pds3_name label_path ->
  label_in max (contents d label_path) text -> ascii_text text -> written es text ->
  wf_label es -> (forall p, ~ renamed_pointer (flat_map completed_keys es) p) -> label_of_entries (literal_eval x) es label ->
  ordinary_product label -> lists_objects (walk_order x) label names ->
  exists st, open_product x d fn None extra max strict = Ok (mkProduct fn label_path label (flat_map completed_keys es) st (pdir fn :: extra)) /\
    idx st = $"LABEL" :: names /\ (forall n, parent_of st n = None) /\ files st = [($"LABEL", label_path)].
Proof.
  intros T D O Hd L N I A W Wf R S Op Lo. unfold open_product.
  assert (E0 : check_cases (listing d) [fn] false = Ok fn). { destruct Hd as (l & Hl & Hin), fn as [dir name]. now apply (Files.C13_exact _ _ l). }
  rewrite E0. cbn [rbind]. destruct (label_found _ _ _ Hd O L) as (q & Eq & ->). rewrite Eq. cbn [rbind].
  destruct (pds3_label (image_format x) _ N) as [-> P4].
  assert (P : match q with Some l => is_pds4_label (pstr l) | None => false end = false) by (destruct q; [exact P4|reflexivity]). rewrite P.
  rewrite (read_label_text x d max strict _ es text label T D I A Wf R W S). cbn [rbind].
  destruct (objects_found x d _ es label names fn (pdir fn :: extra) _ (start_of x d label (flat_map completed_keys es) fn (pdir fn :: extra)) S Op eq_refl Lo) as (st & E & Ei & Ep & Ef).
  rewrite E. cbn [rbind]. eexists. split; [reflexivity|]. cbn [idx files]. split; [now rewrite Ei|]. split; [exact Ep|now rewrite Ef].
Qed.
