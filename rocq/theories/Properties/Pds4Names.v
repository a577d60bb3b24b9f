(** C67: the names of the columns and objects of PDS4 products. *)
From Coq Require Import ZArith Lia QArith.
From Verif.Base Require Import Py PyFacts Val.
From Verif.Model Require Import Types Scaling Pds4Types Pds4Values.
From Verif.Spec Require Import Scaling Pds4Values.
From Verif.Proofs Require Import Scaling.
From Verif.Model Require Import Pds4Tables Pds4Frame.
From Verif.Spec Require Import Pds4Tables Pds4Frame.
From Verif.Proofs Require Import Pds4Manifest Pds4Tables Pds4Names Pds4Heads Pds4Frame.
From Verif.Proofs Require Data.
From Verif.Properties Require Import Pds4Frame.
Open Scope nat_scope.

(** ** Names of fields *)
(** A field is called after its groups and itself. *)
Theorem C67_names F : field_names (manifest 0 (label_fields F)) (label_names F) = map head_name (heads F) /\
  map (group_shape (manifest 0 (label_fields F))) (field_indices (manifest 0 (label_fields F))) = map snd (heads F).
Proof. split; [exact (names_heads F)|exact (shapes_heads F)]. Qed.
Print Assumptions C67_names.
Example C67_names_meets :
  map head_name (heads [NF $"x:t" 1 1; NG (Some $"g") 2 1 1 [NF $"a" 1 1; NF $"b" 1 1; NF $"a" 1 1]; NG None 3 1 1 [NG None 1 1 1 [NF $"a" 1 1]]])
  = [$"x_t"; $"g, a [0]"; $"g, b"; $"g, a [1]"; $"GROUP_1, GROUP_0, a"].
Proof. reflexivity. Qed.

Definition all_named (F : list named) (P : str -> Prop) : Prop := forall s, In (Some s) (label_names F) -> P s.
Lemma names_for_label F : all_named F plain_name -> names_for (flatten 0 (label_fields F)) (label_names F).
Proof.
  intros H. assert (G : forall lvl, Forall2 (fun e o => match o with Some _ => True | None => is_group e = true end) (flatten lvl (label_fields F)) (label_names F)).
  { clear H. induction F as [|x l n F IH|o r l n cs F IHc IH] using nforest_ind; intros lvl; [constructor| |]; unfold label_names, label_fields in *; cbn [flat_map map unnamed names_item].
    - rewrite flatten_fld. cbn [app]. constructor; [exact I|apply IH].
    - rewrite flatten_grp. cbn [app]. constructor; [destruct o; [exact I|reflexivity]|]. apply Forall2_app; [apply IHc|apply IH]. }
  specialize (G 0). split.
  - rewrite names_length, flatten_length. reflexivity.
  - intros i L. destruct (nth i (label_names F) None) as [s|] eqn:E.
    + apply H. rewrite <- E. apply nth_In. rewrite names_length, <- (flatten_length _ 0). exact L.
    + unfold ent. revert i L E. induction G as [|e o m ns He _ IH]; intros i L E; [cbn in L; lia|]. destruct i as [|i]; cbn [nth] in *; [now subst o|]. apply IH; [cbn in L; lia|exact E].
Qed.
(** No two fields have one name, if the names in the label have no comma, bracket or colon. *)
Theorem C67_distinct F : all_named F plain_name -> NoDup (map head_name (heads F)).
Proof. intros H. rewrite <- names_heads. apply names_distinct. now apply names_for_label. Qed.
Print Assumptions C67_distinct.
Example C67_distinct_meets : let F := [NG (Some $"g") 2 1 1 [NF $"a" 1 1; NF $"a" 1 1]; NG (Some $"g") 2 1 1 [NF $"a" 1 1]] in
  all_named F plain_name /\ map head_name (heads F) = [$"g [0], a [0]"; $"g [0], a [1]"; $"g [1], a"].
Proof. cbv zeta. split; [|reflexivity]. intros s H. cbn in H. repeat (destruct H as [[= <-]|H]; [repeat split; cbn; intuition discriminate|]). destruct H. Qed.
(** Fields of one name make the table unreadable... *)
Theorem C67_duplicates_refuted fs : ~ NoDup (map t_name fs) -> table_df fs = Err ValueError.
Proof.
  intros N. unfold table_df, new_table. destruct (has_dup (map t_name fs)) eqn:E; [reflexivity|]. apply has_dup_iff in E. contradiction.
Qed.
Print Assumptions C67_duplicates_refuted.
(** ...as those of some legal labels are, whose names have commas or colons. *)
Theorem C67_comma_refuted a b r l n : map head_name (heads [NF (a ++ $", " ++ b) l n; NG (Some a) r l n [NF b l n]]) = repeat (numpy_name (a ++ $", " ++ b)) 2 /\
  map head_name (heads [NF (a ++ $":" ++ b) l n; NF (a ++ $"_" ++ b) l n]) = repeat (numpy_name (a ++ $":" ++ b)) 2.
Proof.
  assert (E : forall s, str_eqb s s = true) by (intros s; now apply str_eqb_eq).
  split.
  - unfold heads, labels. cbn [bases length seq map]. unfold label_of. cbn [nth filter like fst snd Bool.eqb andb length]. rewrite !E. cbn [length Nat.leb app heads_go heads_item].
    unfold labels. cbn [bases length seq map]. unfold label_of. cbn [nth filter like fst snd Bool.eqb andb length]. rewrite !E. cbn [length Nat.leb app heads_go heads_item map fst snd repeat].
    unfold head_name. cbn [fst join]. rewrite !app_nil_r. reflexivity.
  - unfold heads, labels. cbn [bases length seq map]. unfold label_of. cbn [nth filter like fst snd Bool.eqb andb length]. rewrite !E.
    assert (N : str_eqb (a ++ $":" ++ b) (a ++ $"_" ++ b) = false /\ str_eqb (a ++ $"_" ++ b) (a ++ $":" ++ b) = false).
    { split; apply not_true_iff_false; intros X; apply str_eqb_eq, app_inv_head in X; discriminate X. }
    rewrite (proj1 N), (proj2 N). cbn [length Nat.leb app heads_go heads_item map fst snd repeat]. unfold head_name. cbn [fst join]. rewrite !app_nil_r. 
    repeat f_equal. unfold numpy_name. now rewrite !map_app.
Qed.
Print Assumptions C67_comma_refuted.

(** ** Names of columns *)
(** labels: a name, perhaps with a number behind *)
Definition label_like (P : str -> Prop) (l : str) : Prop := exists s, P s /\ (l = s \/ exists k, l = s ++ $" [" ++ str_of_nat k ++ $"]").
Definition groups_named (F : list named) : Prop := ~ In None (label_names F).
Lemma labels_like (P : str -> Prop) F : groups_named F -> all_named F P -> Forall (label_like P) (labels F).
Proof.
  intros G H. unfold labels. apply Forall_forall. intros l Hl. apply in_map_iff in Hl as (k & <- & Hk). apply in_seq in Hk.
  assert (B : forall g, length (bases g F) = length F /\ Forall (fun b => P (snd b)) (bases g F)).
  { clear Hk. induction F as [|[x a b|[o|] r a b cs] F IH]; intros g; cbn [bases length]; [split; [reflexivity|constructor]| | |].
    - destruct (IH ltac:(intros X; apply G; right; exact X) ltac:(intros s Hs; apply H; right; exact Hs) g) as [IL IF]. split; [now rewrite IL|]. constructor; [|exact IF]. apply H. now left.
    - destruct (IH ltac:(intros X; apply G; right; apply in_or_app; right; exact X) ltac:(intros s Hs; apply H; right; apply in_or_app; right; exact Hs) (S g)) as [IL IF]. split; [now rewrite IL|]. constructor; [|exact IF]. apply H. now left.
    - destruct G. now left. }
  destruct (B 0) as [BL BF]. unfold label_of. rewrite Forall_forall in BF. eexists. split; [apply (BF (nth k (bases 0 F) (false, []))); apply nth_In; lia|].
  destruct (2 <=? _); [right; eexists; reflexivity|left; apply app_nil_r].
Qed.
Lemma heads_like (P : str -> Prop) F : groups_named F -> all_named F P -> forall labs, Forall (label_like P) labs -> Forall (fun h => fst h <> [] /\ Forall (label_like P) (fst h)) (heads_go labs F).
Proof.
  induction F as [|x l n F IH|o r l n cs F IHc IH] using nforest_ind; intros G H labs L; [destruct labs; constructor| |]; (destruct labs as [|lab labs]; [constructor|]); inversion L as [|? ? L1 L2]; subst; cbn [heads_go].
  - apply Forall_app. split; [constructor; [|constructor]; split; [discriminate|constructor; [exact L1|constructor]]|]. apply IH; [intros X; apply G; right; exact X|intros s Hs; apply H; right; exact Hs|exact L2].
  - apply Forall_app. split.
    + cbn [heads_item]. change ((fix go (labs : list str) (cs0 : list named) {struct cs0} : list (list str * list nat) := match labs with [] => [] | lab0 :: labs0 => match cs0 with [] => [] | c :: cs1 => heads_item lab0 c ++ go labs0 cs1 end end) (labels cs) cs) with (heads_go (labels cs) cs).
      apply Forall_map. assert (Gc : groups_named cs) by (intros X; apply G; right; apply in_or_app; left; exact X). assert (Hc : all_named cs P) by (intros s Hs; apply H; right; apply in_or_app; left; exact Hs).
      eapply Forall_impl; [|apply (IHc Gc Hc (labels cs)); now apply labels_like]. intros h [_ Fh]. cbn [fst]. split; [discriminate|]. now constructor.
    + apply IH; [intros X; apply G; right; apply in_or_app; right; exact X|intros s Hs; apply H; right; apply in_or_app; right; exact Hs|exact L2].
Qed.
Definition nice (s : str) : Prop := s <> [] /\ quiet_name s.
Lemma nice_number s k : nice s -> nice (s ++ $" [" ++ str_of_nat k ++ $"]").
Proof.
  intros (Ne & O & T1 & T2). split; [destruct s; discriminate|]. split; [|split].
  - cbn [app list_ascii_of_string]. intros H. apply occurs_before in H as [H|H]; [easy| |discriminate|cbn; intuition discriminate].
    apply (occurs_before _ [] _ "["%char) in H as [(a & b & H)|H]; [now destruct a|destruct H as (a & b & H)|discriminate|cbn; intuition discriminate].
    assert (D : In "G"%char (str_of_nat k ++ ["]"%char])) by (rewrite H; apply in_or_app; right; now left). apply in_app_or in D as [D|[D|[]]]; [|discriminate D]. apply digits_nat_char in D. discriminate D.
  - destruct s; [easy|exact T1].
  - intros u c E. rewrite !app_assoc in E. apply app_inj_tail in E as [_ <-]. split; discriminate.
Qed.
Lemma nice_join ls : ls <> [] -> Forall nice ls -> nice (join $", " ls).
Proof.
  intros Ne F. induction F as [|l ls Hl F IH]; [easy|]. destruct ls as [|l' ls]; [exact Hl|]. specialize (IH ltac:(discriminate)).
  change (join $", " (l :: l' :: ls)) with (l ++ $", " ++ join $", " (l' :: ls)). set (r := join $", " (l' :: ls)) in *. destruct Hl as (N1 & O1 & A1 & A2), IH as (N2 & O2 & B1 & B2). split; [destruct l; [easy|discriminate]|]. split; [|split].
  - cbn [app list_ascii_of_string]. intros H. apply occurs_before in H as [H|H]; [easy| |discriminate|cbn; intuition discriminate].
    apply (occurs_before _ [] _ " "%char) in H as [(a & b & H)|H]; [now destruct a|easy|discriminate|cbn; intuition discriminate].
  - destruct l; [easy|exact A1].
  - intros u c E. destruct (exists_last N2) as (v & c' & X). rewrite X in E. rewrite !app_assoc in E. apply app_inj_tail in E as [_ <-]. apply (B2 v). exact X.
Qed.
Lemma nice_numpy s : nice s -> nice (numpy_name s).
Proof.
  intros (N & O & A & B). unfold numpy_name. set (g := fun c => if Ascii.eqb c ":"%char then "_"%char else c).
  assert (Gc : forall c, c <> ","%char /\ c <> " "%char -> g c <> ","%char /\ g c <> " "%char). { intros c Hc. unfold g. destruct (Ascii.eqb c ":"%char); [split; discriminate|exact Hc]. }
  split; [destruct s; [easy|discriminate]|]. split; [|split].
  - intros (a & b & E). apply O. apply map_eq_app in E as (s1 & s2 & -> & E1 & E2). apply map_eq_app in E2 as (s3 & s4 & -> & E3 & _). exists s1, s4. do 2 f_equal.
    assert (X : forall t : str, ~ In "_"%char t -> forall u, map g u = t -> u = t).
    { clear. induction t as [|c t IH]; intros Nt u Eu; destruct u as [|d u]; try discriminate Eu; [reflexivity|]. injection Eu as E1 E2. f_equal; [|apply IH; [intros H; apply Nt; now right|exact E2]].
      unfold g in E1. destruct (Ascii.eqb_spec d ":"%char); [|exact E1]. exfalso. apply Nt. left. congruence. }
    apply X; [cbn; intuition discriminate|exact E3].
  - destruct s as [|c s]; [easy|]. cbn [map]. now apply Gc.
  - intros u c E. apply map_eq_app in E as (s1 & s2 & -> & _ & E2). destruct s2 as [|d [|d' s2]]; try discriminate E2. injection E2 as <-. apply Gc. now apply (B s1).
Qed.
(** A label whose names have none of the characters and words in question, and whose groups have
    names, keeps its names in the DataFrame. *)
Theorem C67_columns F : heads F <> [] -> groups_named F -> all_named F (fun s => plain_name s /\ s <> [] /\ quiet_name s) -> Forall (fun h => length (snd h) <= 2) (heads F) ->
  showable F /\ forall h, In h (heads F) -> column_name (head_name h) = head_name h.
Proof.
  intros Ne G H D. assert (Q : Forall (fun h => quiet_name (head_name h)) (heads F)).
  { assert (N : all_named F nice) by (intros s Hs; apply (H s Hs)). pose proof (heads_like nice F G N (labels F) (labels_like nice F G N)) as L. eapply Forall_impl; [|exact L]. intros h [Nh Fh].
    apply (nice_numpy (join $", " (fst h))). apply nice_join; [exact Nh|]. eapply Forall_impl; [|exact Fh]. intros l (s & Hs & [->|[k ->]]); [exact Hs|now apply nice_number]. }
  split.
  - split; [exact Ne|]. split; [apply C67_distinct; intros s Hs; apply (H s Hs)|]. rewrite Forall_forall in Q, D |- *. intros h Hh. auto.
  - intros h Hh. apply quiet_column. rewrite Forall_forall in Q. now apply Q.
Qed.
Print Assumptions C67_columns.
Lemma sum_index {A} (w : A -> nat) l : forall p, p < list_sum (map w l) -> exists k a j, nth_error l k = Some a /\ j < w a /\ p = list_sum (map w (firstn k l)) + j.
Proof.
  induction l as [|x l IH]; intros p H; cbn in H; [lia|]. destruct (Nat.lt_ge_cases p (w x)) as [L|L].
  - exists 0, x, p. cbn. auto.
  - destruct (IH (p - w x)) as (k & a & j & E & Lj & Ep); [unfold list_sum; lia|]. exists (S k), a, j. split; [exact E|]. split; [exact Lj|]. cbn [firstn map list_sum fold_right]. fold (list_sum (map w (firstn k l))). lia.
Qed.
(** the names of all columns *)
Definition column_names (fields : list (str * list nat)) : list str := flat_map (fun p => map (column_of (fst p) (snd p)) (seq 0 (columns_in (snd p)))) fields.
Lemma frame_names n fields cell cols : frame n fields cell cols -> map fst cols = column_names fields.
Proof.
  intros [L H]. destruct (flat_map_at (fun p : str * list nat => map (column_of (fst p) (snd p)) (seq 0 (columns_in (snd p)))) (fun p => columns_in (snd p)) fields) as [L' H'].
  { intros a _. now rewrite map_length, seq_length. }
  apply list_ext. intros p. destruct (Nat.lt_ge_cases p (length cols)) as [Lp|Lp].
  - rewrite L in Lp. destruct (sum_index _ _ _ Lp) as (k & [name shape] & j & E & Lj & ->). cbn [snd] in Lj.
    destruct (H k name shape j E Lj) as (col & E1 & _). rewrite nth_error_map, E1. cbn [option_map fst]. unfold column_names. rewrite (H' k _ j E) by exact Lj. cbn [fst snd]. rewrite nth_error_map, nth_error_seq by exact Lj. reflexivity.
  - rewrite (proj2 (nth_error_None _ p)) by (rewrite map_length; lia). symmetry. apply nth_error_None. unfold column_names. rewrite L', <- L. exact Lp.
Qed.
Lemma number_split (a b : str) i j : a ++ $"_" ++ str_of_nat i = b ++ $"_" ++ str_of_nat j -> a = b /\ i = j.
Proof.
  intros E. assert (X : forall (s t u v : str), ~ In "_"%char t -> ~ In "_"%char v -> s ++ "_"%char :: t = u ++ "_"%char :: v -> s = u /\ t = v).
  { clear. induction s as [|c s IH]; intros t u v Nt Nv E; destruct u as [|d u]; cbn [app] in E.
    - now injection E.
    - injection E as <- E. destruct Nt. rewrite E. apply in_or_app. right. now left.
    - injection E as -> E. destruct Nv. rewrite <- E. apply in_or_app. right. now left.
    - injection E as -> E. destruct (IH t u v Nt Nv E) as [-> ->]. auto. }
  assert (N : forall k, ~ In "_"%char (str_of_nat k)) by (intros k H; apply digits_nat_char in H; discriminate H).
  destruct (X _ _ _ _ (N i) (N j) E) as [-> Y]. split; [reflexivity|]. now apply str_of_nat_inj.
Qed.
Lemma labels_no_comma F : all_named F plain_name -> Forall (fun l => ~ In ","%char l) (labels F).
Proof.
  intros H. unfold labels. apply Forall_forall. intros l Hl. apply in_map_iff in Hl as (k & <- & _).
  assert (B : forall g, Forall (fun b : bool * str => ~ In ","%char (snd b)) (bases g F)).
  { clear k. induction F as [|[x a b|o r a b cs] F IH]; intros g; cbn [bases]; constructor.
    - apply (H x). now left.
    - apply IH. intros s Hs. apply H. now right.
    - destruct o as [o|]; [apply (H o); now left|]. cbn [snd]. intros X. apply in_app_or in X as [X|X]; [cbn in X; intuition discriminate|]. apply digits_nat_char in X. discriminate X.
    - apply IH. intros s Hs. apply H. right. apply in_or_app. now right. }
  unfold label_of. intros X. apply in_app_or in X as [X|X].
  - destruct (nth_in_or_default k (bases 0 F) (false, [])) as [I0|E0]; [|rewrite E0 in X; exact X]. specialize (B 0). rewrite Forall_forall in B. exact (B _ I0 X).
  - destruct (2 <=? _); [|exact X]. apply in_app_or in X as [X|X]; [cbn in X; intuition discriminate|]. apply in_app_or in X as [X|X]; [apply digits_nat_char in X; discriminate X|cbn in X; intuition discriminate].
Qed.
(** names of fields have a comma just if these are in groups *)
Lemma comma_iff F : all_named F plain_name -> Forall (fun h => In ","%char (head_name h) <-> snd h <> []) (heads F).
Proof.
  intros H. unfold heads. assert (G : forall (labs : list str) F, Forall (fun l : str => ~ In ","%char l) labs -> Forall (fun h : list str * list nat => length (fst h) = S (length (snd h)) /\ (length (fst h) = 1 -> Forall (fun l : str => ~ In ","%char l) (fst h))) (heads_go labs F)).
  { clear. intros labs F. revert labs. induction F as [|x l n F IH|o r l n cs F IHc IH] using nforest_ind; intros labs L; [destruct labs; constructor| |]; (destruct labs as [|lab labs]; [constructor|]); inversion L as [|? ? L1 L2]; subst; cbn [heads_go].
    - constructor; [|now apply IH]. cbn. split; [reflexivity|]. intros _. now constructor.
    - apply Forall_app. split; [|now apply IH]. cbn [heads_item]. change ((fix go (labs : list str) (cs0 : list named) {struct cs0} : list (list str * list nat) := match labs with [] => [] | lab0 :: labs0 => match cs0 with [] => [] | c :: cs1 => heads_item lab0 c ++ go labs0 cs1 end end) (labels cs) cs) with (heads_go (labels cs) cs).
      apply Forall_map. assert (Y : Forall (fun h => length (fst h) = S (length (snd h))) (heads_go (labels cs) cs)).
      { clear. generalize (labels cs). induction cs as [|x l n F IH|o r l n cs F IHc IH] using nforest_ind; intros labs; [destruct labs; constructor| |]; (destruct labs as [|lab labs]; [constructor|]); cbn [heads_go].
        - constructor; [reflexivity|apply IH].
        - apply Forall_app. split; [|apply IH]. cbn [heads_item]. apply Forall_map. eapply Forall_impl; [|apply (IHc (labels cs))]. intros h E. cbn [fst snd length]. now rewrite E. }
      eapply Forall_impl; [|exact Y]. intros h E. cbv beta in E |- *. cbn [fst snd length]. split; [f_equal; exact E|]. intros X. injection X as X. discriminate (eq_trans (eq_sym E) X). }
  eapply Forall_impl; [|apply G; now apply labels_no_comma]. intros h [E N]. unfold head_name.
  assert (M : forall s : str, In ","%char (map (fun c => if Ascii.eqb c ":"%char then "_"%char else c) s) <-> In ","%char s).
  { intros s. rewrite in_map_iff. split; [intros (c & Ec & Hc); destruct (Ascii.eqb_spec c ":"%char); [discriminate Ec|now subst c]|intros Hc; exists ","%char; auto]. }
  rewrite M. destruct (snd h) as [|r sh] eqn:Es; cbn [length] in E.
  - specialize (N E). destruct (fst h) as [|l [|l' ls]]; [discriminate E| |discriminate E]. inversion N; subst. cbn [join]. split; [intros; contradiction|intros X; now destruct X].
  - split; [discriminate|]. intros _. destruct (fst h) as [|l [|l' ls]]; [discriminate E|discriminate E|]. change (join $", " (l :: l' :: ls)) with (l ++ $", " ++ join $", " (l' :: ls)). apply in_or_app. right. now left.
Qed.
(** The columns have different names too. *)
Theorem C67_columns_distinct n F cell cols : all_named F plain_name -> label_frame n F cell cols -> NoDup (map fst cols).
Proof.
  intros H Fr. unfold label_frame in Fr. rewrite (frame_names _ _ _ _ Fr). unfold column_names. rewrite flat_map_concat_map, map_map. cbn [fst snd]. rewrite <- flat_map_concat_map.
  pose proof (C67_distinct F H) as D. pose proof (comma_iff F H) as C. clear Fr. revert D C. generalize (heads F). intros hs D C.
  induction hs as [|h hs IH]; [constructor|]. cbn [map] in D. inversion D as [|? ? D1 D2]; subst. inversion C as [|? ? C1 C2]; subst. cbn [flat_map].
  assert (Inj : forall h' j j', In ","%char (head_name h') <-> snd h' <> [] -> column_of (head_name h) (snd h) j = column_of (head_name h') (snd h') j' -> head_name h = head_name h' /\ (snd h <> [] -> j = j')).
  { intros h' j j' Ch E. unfold column_of in E. destruct (snd h) as [|r sh] eqn:Es, (snd h') as [|r' sh'] eqn:Es'.
    - split; [exact E|intros X; now destruct X].
    - exfalso. apply (proj1 C1); [|reflexivity]. rewrite E. apply in_or_app. left. apply Ch. discriminate.
    - exfalso. apply (proj1 Ch); [|reflexivity]. rewrite <- E. apply in_or_app. left. apply C1. discriminate.
    - apply number_split in E as [E ->]. auto. }
  apply Data.NoDup_app.
  - apply NoDup_map_in; [apply seq_NoDup|]. intros a b Ha Hb E. destruct (list_eq_dec Nat.eq_dec (snd h) []) as [Es|Es].
    + rewrite Es in Ha, Hb. cbn in Ha, Hb. destruct Ha as [<-|[]], Hb as [<-|[]]. reflexivity.
    + exact (proj2 (Inj h a b C1 E) Es).
  - now apply IH.
  - intros x H1 H2. apply in_map_iff in H1 as (j & <- & _). apply in_flat_map in H2 as (h' & Hh & H2). apply in_map_iff in H2 as (j' & E & _). rewrite Forall_forall in C2.
    destruct (Inj h' j j' (C2 h' Hh) (eq_sym E)) as [X _]. apply D1. rewrite X. now apply in_map.
Qed.
Print Assumptions C67_columns_distinct.
Example C67_columns_meets : let F := [NF $"time" 1 1; NG (Some $"sensor") 2 1 1 [NF $"a" 1 1; NF $"a_0" 1 1]] in
  heads F <> [] /\ groups_named F /\ all_named F (fun s => plain_name s /\ s <> [] /\ quiet_name s) /\ Forall (fun h => length (snd h) <= 2) (heads F) /\
  column_names (map (fun h => (head_name h, snd h)) (heads F)) = [$"time"; $"sensor, a_0"; $"sensor, a_1"; $"sensor, a_0_0"; $"sensor, a_0_1"].
Proof.
  cbv zeta. split; [discriminate|]. split; [intros X; cbn in X; intuition discriminate|]. split.
  - intros s H. cbn in H. repeat (destruct H as [[= <-]|H]; [split; [repeat split; cbn; intuition discriminate|split; [discriminate|now apply quiet_easy]]|]). destruct H.
  - split; [|reflexivity]. change (heads _) with [([$"time"], @nil nat); ([$"sensor"; $"a"], [2]); ([$"sensor"; $"a_0"], [2])]. repeat constructor.
Qed.
(** Groups without name leave no trace in the names of columns. *)
Lemma head_cons (g : str) (h : list str * list nat) r : fst h <> [] -> ~ In ":"%char g -> head_name (g :: fst h, r :: snd h) = g ++ $", " ++ head_name h.
Proof.
  intros Ne N. unfold head_name. cbn [fst]. destruct (fst h) as [|l ls]; [easy|]. change (join $", " (g :: l :: ls)) with (g ++ $", " ++ join $", " (l :: ls)). rewrite !map_app. change (map _ $", ") with $", ". apply (f_equal (fun u => u ++ _)).
  clear -N. induction g as [|c g IH]; [reflexivity|]. cbn [map]. rewrite IH by (intros H; apply N; now right). destruct (Ascii.eqb_spec c ":"%char); [destruct N; now left|reflexivity].
Qed.
Lemma heads_ne F : forall labs, Forall (fun h => fst h <> []) (heads_go labs F).
Proof.
  induction F as [|i F IH]; intros labs; [destruct labs; constructor|]. destruct labs as [|lab labs]; [constructor|]. cbn [heads_go]. apply Forall_app. split; [|apply IH].
  destruct i as [x l n|o r l n cs]; cbn [heads_item]; [constructor; [discriminate|constructor]|]. apply Forall_map, Forall_forall. intros h _. discriminate.
Qed.
Lemma heads_group lab o r l n cs : heads_item lab (NG o r l n cs) = map (fun h => (lab :: fst h, r :: snd h)) (heads cs).
Proof. reflexivity. Qed.
Theorem C67_unnamed r l n cs : Forall (fun h => quiet_name (head_name h)) (heads cs) ->
  map column_name (map head_name (heads [NG None r l n cs])) = map head_name (heads cs).
Proof.
  intros Q. assert (E : heads [NG None r l n cs] = map (fun h => ($"GROUP_0" :: fst h, r :: snd h)) (heads cs)).
  { change (heads [NG None r l n cs]) with (heads_item (label_of [(true, $"GROUP_0")] 0) (NG None r l n cs) ++ []). rewrite app_nil_r, heads_group. reflexivity. }
  rewrite E, !map_map. apply map_ext_in. intros h Hh. rewrite Forall_forall in Q. pose proof (heads_ne cs (labels cs)) as Ne. rewrite Forall_forall in Ne.
  rewrite head_cons; [|now apply Ne|cbn; intuition discriminate]. apply (unnamed_column 0). now apply Q.
Qed.
Print Assumptions C67_unnamed.
Lemma nodup_disjoint {A} (a b : list A) x : NoDup (a ++ b) -> In x a -> In x b -> False.
Proof. induction a as [|y a IH]; intros N Ha Hb; [destruct Ha|]. cbn [app] in N. inversion N as [|? ? N1 N2]; subst. destruct Ha as [->|Ha]; [apply N1, in_or_app; now right|now apply IH]. Qed.
(** Fields of one name in two such groups give columns of one name. *)
Theorem C67_unnamed_refuted s r r' l n l' n' v v' : quiet_name s -> ~ In ":"%char s -> 1 <= r -> 1 <= r' -> complete v -> complete v' ->
  exists a b cols, map head_name (heads [NG None r l n [NF s l' n']; NG None r' l n [NF s l' n']]) = [a; b] /\ a <> b /\
    table_df [mkT a [r] None v; mkT b [r'] None v'] = Ok cols /\ ~ NoDup (map fst cols).
Proof.
  intros Q Nc R R' C C'. set (a := $"GROUP_0, " ++ s). set (b := $"GROUP_1, " ++ s).
  assert (Ls : label_of [(false, s)] 0 = s). { unfold label_of. cbn [nth filter like fst snd Bool.eqb andb length]. rewrite (proj2 (str_eqb_eq s s) eq_refl). apply app_nil_r. }
  assert (Hd : forall (g : str) (k : nat) r, ~ In ":"%char g -> map head_name (heads_item g (NG None r l n [NF s l' n'])) = [g ++ $", " ++ s] /\ k = k).
  { intros g k r0 Ng. split; [|reflexivity]. rewrite heads_group. change (heads [NF s l' n']) with [([label_of [(false, s)] 0], @nil nat)]. rewrite Ls. cbn [map]. rewrite head_cons; [|discriminate|exact Ng].
    f_equal. f_equal. f_equal. unfold head_name. cbn [fst join]. clear -Nc. induction s as [|c s IH]; [reflexivity|]. cbn [map]. rewrite IH by (intros H; apply Nc; now right). destruct (Ascii.eqb_spec c ":"%char); [destruct Nc; now left|reflexivity]. }
  assert (Dab : a <> b) by (unfold a, b; cbn; congruence).
  exists a, b. destruct (new_table_plain [mkT a [r] None v; mkT b [r'] None v']) as [m E].
  { cbn [map t_name]. repeat constructor; cbn; intuition congruence. }
  { left. repeat constructor. }
  destruct (pieces_ok [mkT a [r] None v; mkT b [r'] None v'] [] (Forall_nil _)) as (ps & Ep & Cp & Np); [repeat constructor|].
  eexists. split; [|split; [exact Dab|]].
  - change (heads [NG None r l n [NF s l' n']; NG None r' l n [NF s l' n']]) with (heads_item $"GROUP_0" (NG None r l n [NF s l' n']) ++ heads_item $"GROUP_1" (NG None r' l n [NF s l' n']) ++ []).
    rewrite app_nil_r, map_app, (proj1 (Hd $"GROUP_0" 0 r ltac:(cbn; intuition discriminate))), (proj1 (Hd $"GROUP_1" 0 r' ltac:(cbn; intuition discriminate))). reflexivity.
  - unfold table_df. rewrite E. cbn [rbind snd]. unfold structured_array_to_df. rewrite Ep. cbn [rbind]. destruct ps as [|p ps']; [destruct Np; [reflexivity|discriminate]|]. cbn [rbind]. split; [reflexivity|].
    rewrite Cp. cbn [pending app flag flat_map]. rewrite app_nil_r, map_map, map_app. unfold colsp, cols. cbn [fst snd t_shape t_name t_vals]. rewrite !map_map. cbn [fst].
    assert (Z : forall g k w l0, 1 <= w -> g = $"GROUP_" ++ str_of_nat k ++ $", " ++ s -> In (s ++ $"_0") (map (fun x : nat * list dfvalue => column_name (g ++ $"_" ++ str_of_nat (fst x))) (enum (columns_of w l0)))).
    { intros g k w l0 Hw ->. apply in_map_iff. destruct w as [|w]; [lia|]. eexists (0, _). split; [|left; reflexivity]. cbn [fst]. rewrite <- !app_assoc. apply (unnamed_column k). apply (quiet_digits s 0). exact Q. }
    intros N. apply (nodup_disjoint _ _ (s ++ $"_0") N); [apply (Z a 0)|apply (Z b 1)]; try reflexivity; cbn; lia.
Qed.
Print Assumptions C67_unnamed_refuted.
Example C67_unnamed_meets : let v := FText [$"x"; $"y"] in
  map head_name (heads [NG None 1 1 1 [NF $"a" 1 1]; NG None 1 1 1 [NF $"a" 1 1]]) = [$"GROUP_0, a"; $"GROUP_1, a"] /\ table_df [mkT $"GROUP_0, a" [1] None v; mkT $"GROUP_1, a" [1] None v] = Ok [($"a_0", [VT $"x"; VT $"y"]); ($"a_0", [VT $"x"; VT $"y"])].
Proof. split; reflexivity. Qed.

(** ** Names of objects *)
Definition object_names (l : list structure) : list str := map object_name (structure_ids [] l).
(** the structure that a name stands for *)
Definition structure_at (l : list structure) (name : str) : option (option nat) := Val.dict_get (snd (init_pds4 l)) name.
Lemma ids_length before l : length (structure_ids before l) = length l.
Proof. revert before. induction l as [|s l IH]; intros before; [reflexivity|]. cbn [structure_ids length]. now rewrite IH. Qed.
Lemma fold_set_last {A} (kvs : list (str * A)) : forall d k, Val.dict_get (fold_left (fun d p => Val.dict_set d (fst p) (snd p)) kvs d) k =
  match find (fun p => str_eqb (fst p) k) (rev kvs) with Some p => Some (snd p) | None => Val.dict_get d k end.
Proof.
  induction kvs as [|p kvs IH] using rev_ind; intros d k; [reflexivity|]. rewrite fold_left_app, rev_app_distr. cbn [fold_left rev app find]. rewrite dict_get_set. destruct (str_eqb (fst p) k); [reflexivity|]. apply IH.
Qed.
(** Each structure is an object of the product, with its name... *)
Theorem C67_objects l : NoDup (object_names l ++ [$"label"]) ->
  fst (init_pds4 l) = object_names l ++ [$"label"] /\
  (forall i name, nth_error (object_names l) i = Some name -> structure_at l name = Some (Some i)) /\
  structure_at l $"label" = Some None /\
  (forall name, structure_at l name <> None -> In name (fst (init_pds4 l))).
Proof.
  intros N. split; [reflexivity|]. unfold structure_at, init_pds4. fold (object_names l). cbn [fst snd]. set (ids := object_names l) in *.
  rewrite !fold_set_last. split; [|split].
  - intros i name E. rewrite fold_set_last, rev_app_distr. cbn [rev app find fst snd].
    destruct (str_eqb $"label" name) eqn:El. { apply str_eqb_eq in El. exfalso. apply (nodup_disjoint _ _ name N); [now apply nth_error_In in E|left; exact El]. }
    assert (Nd : NoDup ids) by now apply nodup_app_l in N.
    assert (X : find (fun p : str * option nat => str_eqb (fst p) name) (rev (combine ids (map Some (seq 0 (length ids))))) = Some (name, Some i)); [|rewrite X; reflexivity].
    assert (Hin : In (name, Some i) (rev (combine ids (map Some (seq 0 (length ids)))))).
    { apply -> in_rev. apply (nth_error_In _ i). apply nth_error_combine; [exact E|]. rewrite nth_error_map, nth_error_seq; [reflexivity|]. apply nth_error_Some. congruence. }
    destruct (find _ _) as [[k o]|] eqn:F.
    + apply find_some in F as [F1 F2]. cbn [fst] in F2. apply str_eqb_eq in F2. subst k. apply in_rev in F1. apply In_nth_error in F1 as [q Fq].
      assert (Lq : q < length ids). { assert (q < length (combine ids (map Some (seq 0 (length ids))))) by (apply nth_error_Some; congruence). rewrite combine_length in H. lia. }
      destruct (nth_error ids q) as [k|] eqn:Eq; [|apply nth_error_None in Eq; lia].
      rewrite (nth_error_combine ids _ q k (Some q) Eq) in Fq by (rewrite nth_error_map, nth_error_seq by exact Lq; reflexivity). injection Fq as -> <-.
      f_equal. f_equal. f_equal. apply (proj1 (NoDup_nth_error ids) Nd); [exact Lq|congruence].
    + apply find_none with (x := (name, Some i)) in F; [|exact Hin]. cbn [fst] in F. rewrite (proj2 (str_eqb_eq _ _) eq_refl) in F. discriminate F.
  - rewrite rev_app_distr. reflexivity.
  - intros name. rewrite fold_set_last. destruct (find _ _) as [[k o]|] eqn:F; [|intros X; now destruct X]. intros _. apply find_some in F as [F1 F2]. cbn [fst] in F2. apply str_eqb_eq in F2. subst k. apply in_rev in F1.
    apply in_app_or in F1 as [F1|[F1|[]]]; apply in_or_app; [left; now apply in_combine_l in F1|right; left; congruence].
Qed.
Print Assumptions C67_objects.
(** ...but of structures of one name only the last can be reached, and none named label. *)
Theorem C67_objects_refuted l i name : nth_error (object_names l) i = Some name ->
  (name = $"label" \/ exists j, i < j /\ nth_error (object_names l) j = Some name) ->
  ~ NoDup (fst (init_pds4 l)) /\ forall name', structure_at l name' <> Some (Some i).
Proof.
  intros E H. unfold structure_at, init_pds4. fold (object_names l). cbn [fst snd]. set (ids := object_names l) in *. assert (Li : i < length ids) by (apply nth_error_Some; congruence). split.
  - intros N. destruct H as [->|(j & L & Ej)].
    + apply (nodup_disjoint _ _ $"label" N); [now apply nth_error_In in E|now left].
    + apply nodup_app_l in N. assert (i = j); [|lia]. apply (proj1 (NoDup_nth_error ids) N); [exact Li|congruence].
  - intros name'. rewrite fold_set_last, rev_app_distr. cbn [rev app find fst snd]. destruct (str_eqb $"label" name') eqn:El; [discriminate|].
    destruct (find _ _) as [[k o]|] eqn:F; [|discriminate]. cbn [snd]. intros [= ->].
    pose proof (find_some _ _ F) as [F1 F2]. cbn [fst] in F2. apply str_eqb_eq in F2. subst k. apply in_rev in F1.
    assert (Hn : name' = name).
    { apply In_nth_error in F1 as [q Fq]. assert (Lq : q < length ids). { assert (q < length (combine ids (map Some (seq 0 (length ids))))) by (apply nth_error_Some; congruence). rewrite combine_length in H0. lia. }
      destruct (nth_error ids q) as [k|] eqn:Eq; [|apply nth_error_None in Eq; lia].
      rewrite (nth_error_combine ids _ q k (Some q) Eq) in Fq by (rewrite nth_error_map, nth_error_seq by exact Lq; reflexivity). injection Fq as -> ->. congruence. }
    subst name'. destruct H as [->|(j & L & Ej)]; [discriminate El|].
    assert (Lj : j < length ids) by (apply nth_error_Some; congruence).
    destruct (nth_error_split (combine ids (map Some (seq 0 (length ids)))) j (a := (name, Some j))) as (a & b & X & La).
    { apply nth_error_combine; [exact Ej|]. now rewrite nth_error_map, nth_error_seq by exact Lj. }
    assert (Hb : ~ In (name, Some i) b).
    { intros Hb. apply In_nth_error in Hb as [q Hq]. assert (Y : nth_error (combine ids (map Some (seq 0 (length ids)))) (length a + S q) = Some (name, Some i)).
      { rewrite X, nth_error_app2, Nat.add_comm, Nat.add_sub by lia. exact Hq. }
      rewrite La in Y. assert (Lq : j + S q < length ids). { assert (j + S q < length (combine ids (map Some (seq 0 (length ids))))) by (apply nth_error_Some; congruence). rewrite combine_length in H. lia. }
      destruct (nth_error ids (j + S q)) as [k|] eqn:Eq; [|apply nth_error_None in Eq; lia].
      rewrite (nth_error_combine ids _ (j + S q) k (Some (j + S q)) Eq) in Y by (rewrite nth_error_map, nth_error_seq by exact Lq; reflexivity). injection Y as _ Y. lia. }
    rewrite X, rev_app_distr in F. cbn [rev] in F. rewrite <- app_assoc in F. cbn [app] in F.
    assert (Fa : forall (p : str * option nat -> bool) u x v, p x = true -> find p (u ++ x :: v) = Some x \/ exists y, In y u /\ find p (u ++ x :: v) = Some y).
    { intros p u x v Px. induction u as [|y u IH]; cbn [app find]; [rewrite Px; now left|]. destruct (p y); [right; exists y; split; [now left|reflexivity]|]. destruct IH as [IH|(z & Hz & IH)]; [now left|right; exists z; split; [now right|exact IH]]. }
    destruct (Fa (fun p => str_eqb (fst p) name) (rev b) (name, Some j) (rev a) (proj2 (str_eqb_eq name name) eq_refl)) as [G|(y & Hy & G)]; rewrite G in F; injection F as F.
    + lia.
    + subst y. apply in_rev in Hy. contradiction.
Qed.
Print Assumptions C67_objects_refuted.
(** Structures without names get different ones. *)
Theorem C67_objects_unnamed l : Forall (fun s => s_local s = None /\ s_name s = None /\ In (s_kind s) [$"HEADER"; $"ARRAY"; $"TABLE"]) l -> NoDup (object_names l ++ [$"label"]).
Proof.
  intros F. assert (G : forall before l, Forall (fun s => s_local s = None /\ s_name s = None /\ In (s_kind s) [$"HEADER"; $"ARRAY"; $"TABLE"]) l ->
    map object_name (structure_ids before l) = structure_ids before l /\ NoDup (structure_ids before l) /\
    forall x, In x (structure_ids before l) -> exists k n, In k [$"HEADER"; $"ARRAY"; $"TABLE"] /\ x = k ++ $"_" ++ str_of_nat n /\ count_kind k before <= n).
  { clear. intros before l F. revert before. induction F as [|s l (A & B & C) _ IH]; intros before; [repeat split; [constructor|intros x []]|]. cbn [structure_ids map]. destruct (IH (before ++ [s])) as (I1 & I2 & I3).
    assert (Cnt : forall k a b, count_kind k (a ++ b) = count_kind k a + count_kind k b). { intros k a b. induction a as [|x a IHa]; [reflexivity|]. cbn [app count_kind]. rewrite IHa. lia. }
    unfold structure_id. rewrite A, B. split; [|split].
    - rewrite I1. f_equal. unfold object_name. rewrite !map_app. assert (D : forall t : str, ~ In " "%char t -> map (fun c => if Ascii.eqb c " "%char then "_"%char else c) t = t).
      { clear. induction t as [|c t IH]; intros N; [reflexivity|]. cbn [map]. rewrite IH by (intros H; apply N; now right). destruct (Ascii.eqb_spec c " "%char); [destruct N; now left|reflexivity]. }
      rewrite !D; [reflexivity| | |]; [intros X; apply digits_nat_char in X; discriminate X|cbn; intuition discriminate|].
      destruct C as [<-|[<-|[<-|[]]]]; cbn; intuition discriminate.
    - constructor; [|exact I2]. intros X. destruct (I3 _ X) as (k & n & Hk & E & Hn). apply number_split in E as [<- <-]. rewrite Cnt in Hn. cbn [count_kind] in Hn. rewrite (proj2 (str_eqb_eq _ _) eq_refl) in Hn. lia.
    - intros x [<-|Hx]; [exists (s_kind s), (count_kind (s_kind s) before); auto|]. destruct (I3 x Hx) as (k & n & Hk & E & Hn). exists k, n. rewrite Cnt in Hn. split; [exact Hk|]. split; [exact E|lia]. }
  destruct (G [] l F) as (G1 & G2 & G3). unfold object_names. rewrite G1. apply Data.NoDup_app; [exact G2|repeat constructor; intros []|].
  intros x Hx [<-|[]]. destruct (G3 _ Hx) as (k & n & Hk & E & _). destruct Hk as [<-|[<-|[<-|[]]]]; discriminate E.
Qed.
Print Assumptions C67_objects_unnamed.
Example C67_objects_meets : let l := [mkS $"HEADER" None None; mkS $"TABLE" None (Some $"my table"); mkS $"TABLE" (Some $"t2") (Some $"x"); mkS $"TABLE" None None] in
  fst (init_pds4 l) = [$"HEADER_0"; $"my_table"; $"t2"; $"TABLE_2"; $"label"] /\ structure_at l $"t2" = Some (Some 2) /\
  structure_at [mkS $"TABLE" None (Some $"a b"); mkS $"TABLE" (Some $"a_b") None] $"a_b" = Some (Some 1).
Proof. repeat split; reflexivity. Qed.
