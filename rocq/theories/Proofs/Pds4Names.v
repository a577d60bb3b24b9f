(** Proofs about the names of PDS4 fields (C67). *)
From Coq Require Import Lia.
From Verif.Base Require Import Py PyFacts Val.
From Verif.Model Require Import Types Scaling Pds4Types Pds4Tables Pds4Values Pds4Frame.
From Verif.Spec Require Import Pds4Tables Pds4Frame.
From Verif.Proofs Require Import Pds4Manifest Pds4Tables.
Open Scope nat_scope.

(** ** The manifest: every item is a child of its parent *)
Lemma kids_at m F : forall s lvl, At m s lvl F -> forall i, In i (kids s F) -> s <= i < s + size F /\ group_level (ent m i) = lvl.
Proof.
  induction F as [|l n F IH|r l n cs F _ IH] using forest_ind; intros s lvl A i H; [destruct H| |]; cbn [kids size_item] in H; destruct H as [<-|H].
  - rewrite (at_ent_fld _ _ _ _ _ _ A), size_fld. cbn. split; [lia|reflexivity].
  - rewrite Nat.add_1_r in H. apply at_tail_fld in A. destruct (IH _ _ A i H). rewrite size_fld. split; [lia|assumption].
  - rewrite (at_ent_grp _ _ _ _ _ _ _ _ A), size_grp. cbn. split; [lia|reflexivity].
  - apply at_tail_grp in A. replace (s + S (list_sum (map size_item cs))) with (S s + size cs) in H by (unfold size; lia). destruct (IH _ _ A i H). rewrite size_grp. split; [lia|assumption].
Qed.
Lemma some_kid m F : forall s lvl, At m s lvl F -> forall i, s <= i < s + size F ->
  In i (kids s F) \/ exists p lvl' r l n cs F', At m p lvl' (Grp r l n cs :: F') /\ In i (kids (S p) cs).
Proof.
  induction F as [|l n F IH|r l n cs F IHc IH] using forest_ind; intros s lvl A i H.
  - cbn in H. lia.
  - rewrite size_fld in H. destruct (Nat.eq_dec i s) as [->|]; [left; now left|]. pose proof (at_tail_fld _ _ _ _ _ _ A) as A'.
    destruct (IH _ _ A' i ltac:(lia)) as [K|K]; [left; right; cbn [size_item]; now rewrite Nat.add_1_r|now right].
  - rewrite size_grp in H. destruct (Nat.eq_dec i s) as [->|]; [left; now left|]. destruct (Nat.lt_ge_cases i (S s + size cs)) as [L|L].
    + right. destruct (IHc _ _ (at_in_grp _ _ _ _ _ _ _ _ A) i ltac:(lia)) as [K|K]; [exists s, lvl, r, l, n, cs, F; auto|exact K].
    + destruct (IH _ _ (at_tail_grp _ _ _ _ _ _ _ _ A) i ltac:(lia)) as [K|K]; [left; right|now right].
      cbn [size_item]. now replace (s + S (list_sum (map size_item cs))) with (S s + size cs) by (unfold size; lia).
Qed.
Lemma root_parent m i : group_level (ent m i) = 0 -> parent_of m i = None.
Proof.
  intros H. unfold parent_of. rewrite H. generalize i at 1. clear. intros k. induction k as [|k IH]; [reflexivity|]. exact IH.
Qed.
Lemma child_of_parent g i : i < length (flatten 0 g) -> In i (children (flatten 0 g) (parent_of (flatten 0 g) i) true).
Proof.
  intros H. rewrite flatten_length in H. pose proof (at_root g) as A. destruct (some_kid _ _ _ _ A i ltac:(lia)) as [K|(p & lvl & r & l & n & cs & F & A' & K)].
  - destruct (kids_at _ _ _ _ A i K) as [_ L]. rewrite (root_parent _ _ L), root_children. exact K.
  - destruct (kids_at _ _ _ _ (at_in_grp _ _ _ _ _ _ _ _ A') i K) as [B L]. rewrite (parents_step _ _ _ _ _ _ _ _ A' i B L), (at_children _ _ _ _ _ _ _ _ _ A'). exact K.
Qed.
Lemma parent_group m i p : parent_of m i = Some p -> p < i /\ is_group (ent m p) = true.
Proof.
  unfold parent_of. generalize (group_level (ent m i)). intros lvl. induction i as [|i IH]; cbn [parent_below]; [discriminate|].
  destruct ((S (group_level (ent m i)) =? lvl) && is_group (ent m i)) eqn:E; [intros [= <-]; apply andb_true_iff in E; split; [lia|apply E]|].
  intros H. destruct (IH H). split; [lia|assumption].
Qed.

(** ** Full locations *)
Definition seg := (str * option nat)%type.
Definition steps (p : seg) : list step := SName (fst p) :: match snd p with Some k => [SOverlap k] | None => [] end.
Section Loc.
  Variables (m : list entry) (ns : list (option str)).
  Definition own (i : nat) : seg := (item_name m ns i, if 2 <=? length (overlapping m ns i) then Some (index_of i (overlapping m ns i)) else None).
  Lemma own_steps i : own_location m ns i = steps (own i).
  Proof. unfold own_location, own, steps. cbn [fst snd]. destruct (2 <=? _); reflexivity. Qed.
  (** the path of an item, with enough fuel *)
  Fixpoint way (fuel i : nat) : list seg :=
    match fuel with
    | 0 => []
    | S fuel => (match parent_of m i with Some p => way fuel p | None => [] end) ++ [own i]
    end.
  Lemma way_fuel i : forall a b, i < a -> i < b -> way a i = way b i.
  Proof.
    induction i as [i IH] using (well_founded_induction Wf_nat.lt_wf). intros a b Ha Hb. destruct a as [|a]; [lia|]. destruct b as [|b]; [lia|]. cbn [way]. f_equal.
    destruct (parent_of m i) as [p|] eqn:P; [|reflexivity]. apply parent_group in P as [P _]. apply IH; lia.
  Qed.
  Definition path_of (i : nat) : list seg := way (S i) i.
  Lemma path_eq i : path_of i = (match parent_of m i with Some p => path_of p | None => [] end) ++ [own i].
  Proof.
    unfold path_of. cbn [way]. destruct (parent_of m i) as [p|] eqn:P; [|reflexivity]. apply parent_group in P as [P _]. f_equal. change (way i p = way (S p) p). apply way_fuel; lia.
  Qed.
  Lemma locations_prefix k : fold_left (fun acc i => acc ++ [(match parent_of m i with Some p => nth p acc [] | None => [] end) ++ own_location m ns i]) (seq 0 k) []
    = map (fun i => flat_map steps (path_of i)) (seq 0 k).
  Proof.
    induction k as [|k IH]; [reflexivity|]. rewrite seq_S, fold_left_app, IH, map_app. cbn [fold_left Nat.add map]. f_equal. f_equal.
    rewrite path_eq, flat_map_app, own_steps. cbn [flat_map]. rewrite app_nil_r. f_equal.
    destruct (parent_of m k) as [p|] eqn:P; [|reflexivity]. apply parent_group in P as [P _].
    change (@nil step) with ((fun i => flat_map steps (way 0 i)) 0). rewrite nth_indep with (d' := flat_map steps (path_of 0)) by (now rewrite map_length, seq_length).
    rewrite (map_nth (fun i => flat_map steps (path_of i))), seq_nth by lia. reflexivity.
  Qed.
  Lemma location_path i : i < length m -> nth i (locations m ns) [] = flat_map steps (path_of i).
  Proof.
    intros H. unfold locations. rewrite locations_prefix. rewrite nth_indep with (d' := flat_map steps (path_of 0)) by (now rewrite map_length, seq_length).
    rewrite (map_nth (fun i => flat_map steps (path_of i))), seq_nth by lia. reflexivity.
  Qed.
End Loc.

(** ** Names of locations *)
Definition seg_text (p : seg) : str := fst p ++ match snd p with Some k => $" [" ++ str_of_nat k ++ $"]" | None => [] end.
Lemma location_join l : location_name (flat_map steps l) = join $", " (map seg_text l).
Proof.
  induction l as [|[n o] l IH]; [reflexivity|]. cbn [flat_map map]. unfold steps at 1. cbn [fst snd].
  assert (N : match flat_map steps l with SName _ :: _ => $", " | _ => [] end = match l with [] => [] | _ => $", " end) by (destruct l as [|[? ?] ?]; reflexivity).
  assert (J : join $", " (seg_text (n, o) :: map seg_text l) = seg_text (n, o) ++ match l with [] => [] | _ => $", " end ++ join $", " (map seg_text l))
    by (destruct l; [cbn; now rewrite !app_nil_r|reflexivity]).
  rewrite J, <- IH. unfold seg_text. cbn [fst snd]. destruct o as [k|]; cbn [app location_name].
  - rewrite N. now rewrite <- !app_assoc.
  - destruct l as [|[n' o'] l]; [cbn; now rewrite !app_nil_r|]. cbn [flat_map] in *. unfold steps at 1. cbn [fst snd app]. rewrite app_nil_r. reflexivity.
Qed.
Definition seg_ok (p : seg) : Prop := plain_name (fst p).
Lemma str_of_nat_digits k : Forall (fun c => is_digit c = true) (str_of_nat k).
Proof.
  apply Forall_forall. intros c H. destruct (to_base_chars 10 _ c ltac:(lia) H) as (d & L & ->).
  assert (K : (d = 0 \/ d = 1 \/ d = 2 \/ d = 3 \/ d = 4 \/ d = 5 \/ d = 6 \/ d = 7 \/ d = 8 \/ d = 9)%N) by lia. repeat destruct K as [->|K]; [..|subst]; reflexivity.
Qed.
Lemma str_of_nat_ne k : str_of_nat k <> [].
Proof. apply to_base_nonempty. Qed.
Lemma digits_nat_char k c : In c (str_of_nat k) -> is_digit c = true.
Proof.
  intros H. assert (F : Forall (fun c => is_digit c = true) (str_of_nat k)) by (apply str_of_nat_digits). rewrite Forall_forall in F. now apply F.
Qed.
Lemma seg_comma p : seg_ok p -> ~ In ","%char (seg_text p).
Proof.
  intros (H & _ & _) X. unfold seg_text in X. apply in_app_or in X as [X|X]; [easy|]. destruct (snd p) as [k|]; [|destruct X].
  apply in_app_or in X as [X|X]; [cbn in X; intuition discriminate|]. apply in_app_or in X as [X|X]; [|cbn in X; intuition discriminate]. apply digits_nat_char in X. discriminate X.
Qed.
Lemma first_char (c : ascii) a b x y : ~ In c a -> ~ In c b -> a ++ c :: x = b ++ c :: y -> a = b /\ x = y.
Proof.
  revert b. induction a as [|d a IH]; intros [|e b] Na Nb E; cbn [app] in E.
  - injection E as <-. auto.
  - injection E as -> _. destruct Nb. now left.
  - injection E as -> _. destruct Na. now left.
  - injection E as -> E. destruct (IH b) with (2 := fun H => Nb (or_intror H)) (3 := E) as [-> ->]; [|auto]. intros H. apply Na. now right.
Qed.
Lemma seg_inj p q : seg_ok p -> seg_ok q -> seg_text p = seg_text q -> p = q.
Proof.
  destruct p as [n o], q as [n' o']. unfold seg_ok, seg_text. cbn [fst snd]. intros (_ & H & _) (_ & H' & _) E.
  assert (Sp : forall s, ~ In "["%char s -> ~ In "["%char (s ++ [" "%char])) by (intros s N X; apply in_app_or in X as [X|[X|[]]]; [easy|discriminate X]).
  assert (R : forall s k, s ++ $" [" ++ str_of_nat k ++ $"]" = (s ++ [" "%char]) ++ "["%char :: str_of_nat k ++ $"]") by (intros; now rewrite <- app_assoc).
  destruct o as [k|], o' as [k'|]; rewrite ?R, ?app_nil_r in E.
  - apply first_char in E as [E1 E2]; [|auto|auto]. apply app_inj_tail in E1 as [-> _]. apply app_inj_tail in E2 as [E2 _]. apply str_of_nat_inj in E2 as ->. reflexivity.
  - destruct H'. rewrite <- E. apply in_or_app. right. now left.
  - destruct H. rewrite E. apply in_or_app. right. now left.
  - now subst.
Qed.
Lemma join_seg_inj : forall l l', Forall seg_ok l -> Forall seg_ok l' -> l <> [] -> l' <> [] -> join $", " (map seg_text l) = join $", " (map seg_text l') -> l = l'.
Proof.
  induction l as [|p l IH]; intros [|q l'] F F' N N' E; try easy. inversion F as [|? ? Hp Fl]; inversion F' as [|? ? Hq Fl']; subst.
  destruct l as [|p2 l], l' as [|q2 l'].
  - cbn in E. f_equal. now apply seg_inj.
  - exfalso. change (join $", " (map seg_text (q :: q2 :: l'))) with (seg_text q ++ $", " ++ join $", " (map seg_text (q2 :: l'))) in E. apply (seg_comma p Hp). cbn [map join] in E. rewrite E. apply in_or_app. right. now left.
  - exfalso. change (join $", " (map seg_text (p :: p2 :: l))) with (seg_text p ++ $", " ++ join $", " (map seg_text (p2 :: l))) in E. apply (seg_comma q Hq). cbn [map join] in E. rewrite <- E. apply in_or_app. right. now left.
  - change (join $", " (map seg_text (q :: q2 :: l'))) with (seg_text q ++ ","%char :: " "%char :: join $", " (map seg_text (q2 :: l'))) in E.
    change (join $", " (map seg_text (p :: p2 :: l))) with (seg_text p ++ ","%char :: " "%char :: join $", " (map seg_text (p2 :: l))) in E.
    apply first_char in E as [E1 E2]; [|now apply seg_comma|now apply seg_comma]. injection E2 as E2. f_equal; [now apply seg_inj|]. apply IH; easy.
Qed.

(** ** Distinct names *)
Lemma item_name_plain m ns i : names_for m ns -> i < length m -> plain_name (item_name m ns i).
Proof.
  intros [_ H] L. specialize (H i L). unfold item_name. destruct (nth i ns None) as [s|]; [exact H|].
  assert (X : forall c, In c ($"GROUP_" ++ str_of_nat (group_number m i)) -> c <> ","%char /\ c <> "["%char /\ c <> ":"%char).
  { intros c Hc. apply in_app_or in Hc as [Hc|Hc]; [cbn in Hc; intuition (subst; discriminate)|]. apply digits_nat_char in Hc. repeat split; intros ->; discriminate Hc. }
  repeat split; intros Hc; apply X in Hc; intuition.
Qed.
Lemma path_ok m ns i : names_for m ns -> i < length m -> Forall seg_ok (path_of m ns i).
Proof.
  intros N. induction i as [i IH] using (well_founded_induction Wf_nat.lt_wf). intros L. rewrite path_eq. apply Forall_app. split.
  - destruct (parent_of m i) as [p|] eqn:P; [|constructor]. apply parent_group in P as [P _]. apply IH; lia.
  - constructor; [|constructor]. now apply item_name_plain.
Qed.
Lemma path_ne m ns i : path_of m ns i <> [].
Proof. rewrite path_eq. intros H. now apply app_eq_nil in H as [_ H]. Qed.
Lemma index_of_inj i j l : In i l -> In j l -> index_of i l = index_of j l -> i = j.
Proof.
  induction l as [|x l IH]; [now intros []|]. cbn [index_of]. intros Hi Hj. destruct (Nat.eqb_spec x i), (Nat.eqb_spec x j); intros E; try congruence.
  destruct Hi as [Hi|Hi]; [easy|]. destruct Hj as [Hj|Hj]; [easy|]. apply IH; auto.
Qed.
Lemma path_inj g ns i j : let m := flatten 0 g in i < length m -> j < length m -> is_group (ent m i) = is_group (ent m j) -> path_of m ns i = path_of m ns j -> i = j.
Proof.
  intros m. revert j. induction i as [i IH] using (well_founded_induction Wf_nat.lt_wf). intros j Li Lj G E.
  rewrite (path_eq m ns i), (path_eq m ns j) in E. apply app_inj_tail in E as [E1 E2].
  assert (P : parent_of m i = parent_of m j).
  { destruct (parent_of m i) as [p|] eqn:Pi, (parent_of m j) as [q|] eqn:Pj; try reflexivity.
    - apply parent_group in Pi as [Pi Gi], Pj as [Pj Gj]. f_equal. apply IH; [exact Pi|lia|lia|congruence|exact E1].
    - now destruct (path_ne m ns p).
    - now destruct (path_ne m ns q). }
  unfold own in E2. assert (E3 : item_name m ns i = item_name m ns j) by congruence.
  assert (O : overlapping m ns i = overlapping m ns j) by (unfold overlapping; now rewrite P, E3, G).
  assert (Mi : forall k, k < length m -> In k (overlapping m ns k)).
  { intros k Hk. apply filter_In. split; [now apply child_of_parent|]. rewrite (proj2 (str_eqb_eq _ _) eq_refl). apply Bool.eqb_reflx. }
  pose proof (Mi i Li) as Hi. pose proof (Mi j Lj) as Hj. rewrite <- O in Hj.
  apply (f_equal snd) in E2. cbn [snd] in E2. rewrite <- O in E2. destruct (2 <=? length (overlapping m ns i)) eqn:L; [|apply Nat.leb_gt in L].
  - injection E2 as E2. now apply (index_of_inj i j _ Hi Hj).
  - destruct (overlapping m ns i) as [|x [|y l]]; [destruct Hi| |cbn in L; lia]. destruct Hi as [<-|[]], Hj as [<-|[]]. reflexivity.
Qed.
Lemma no_colon s : ~ In ":"%char s -> numpy_name s = s.
Proof.
  intros H. unfold numpy_name. rewrite <- (map_id s) at 2. apply map_ext_in. intros c Hc. destruct (Ascii.eqb_spec c ":"%char) as [->|]; [easy|reflexivity].
Qed.
Lemma join_no_colon l : Forall seg_ok l -> ~ In ":"%char (join $", " (map seg_text l)).
Proof.
  induction 1 as [|p l Hp _ IH]; [now intros []|]. assert (X : ~ In ":"%char (seg_text p)).
  { destruct Hp as (_ & _ & H). unfold seg_text. intros X. apply in_app_or in X as [X|X]; [easy|]. destruct (snd p) as [k|]; [|destruct X].
    apply in_app_or in X as [X|X]; [cbn in X; intuition discriminate|]. apply in_app_or in X as [X|X]; [|cbn in X; intuition discriminate]. apply digits_nat_char in X. discriminate X. }
  destruct l as [|q l]; [exact X|]. change (join $", " (map seg_text (p :: q :: l))) with (seg_text p ++ $", " ++ join $", " (map seg_text (q :: l))).
  intros Y. apply in_app_or in Y as [Y|Y]; [easy|]. apply in_app_or in Y as [Y|Y]; [cbn in Y; intuition discriminate|easy].
Qed.
Lemma field_name_path m ns i : names_for m ns -> i < length m -> numpy_name (location_name (nth i (locations m ns) [])) = join $", " (map seg_text (path_of m ns i)).
Proof. intros N L. rewrite location_path by exact L. rewrite location_join. apply no_colon, join_no_colon. now apply path_ok. Qed.
Lemma field_index m i : In i (field_indices m) -> i < length m /\ is_group (ent m i) = false.
Proof. intros H. apply filter_In in H as [H G]. apply in_seq in H. split; [lia|]. now destruct (is_group (ent m i)). Qed.
Lemma NoDup_map_in {A B} (f : A -> B) l : NoDup l -> (forall a b, In a l -> In b l -> f a = f b -> a = b) -> NoDup (map f l).
Proof.
  induction 1 as [|a l Na _ IH]; intros H; cbn [map]; constructor.
  - intros X. apply in_map_iff in X as (b & E & Hb). apply Na. rewrite <- (H b a); [exact Hb|now right|now left|exact E].
  - apply IH. intros x y Hx Hy. apply H; now right.
Qed.
Lemma names_distinct u f ns : names_for (manifest u f) ns -> NoDup (field_names (manifest u f) ns).
Proof.
  intros N. unfold field_names. apply NoDup_map_in; [apply NoDup_filter, seq_NoDup|]. intros i j Hi Hj E. apply field_index in Hi as [Li Gi], Hj as [Lj Gj].
  rewrite !field_name_path in E by assumption. apply join_seg_inj in E; [|now apply path_ok|now apply path_ok|apply path_ne|apply path_ne].
  rewrite manifest_ahead in *. apply (path_inj (ahead u f) ns); try assumption. congruence.
Qed.

(** ** Column names *)
Definition edge (c : ascii) : bool := Ascii.eqb c ","%char || Ascii.eqb c " "%char.
Lemma edge_false c : c <> ","%char /\ c <> " "%char -> edge c = false.
Proof. intros [H1 H2]. unfold edge. now rewrite (proj2 (Ascii.eqb_neq _ _) H1), (proj2 (Ascii.eqb_neq _ _) H2). Qed.
Lemma trimmed_strip s : trimmed_name s -> strip_by edge s = s.
Proof.
  intros [H1 H2]. destruct s as [|c t]; [reflexivity|]. destruct (exists_last (l := c :: t) ltac:(discriminate)) as (u & d & E).
  eapply strip_by_fixed; [reflexivity|exact E|now apply edge_false|apply edge_false; now apply (H2 u)].
Qed.
Lemma group_match_occurs s r : group_match s = Some r -> occurs $"GROUP" s.
Proof. unfold group_match. destruct (startswith $"GROUP" s) eqn:E; [|discriminate]. intros _. apply startswith_iff in E as [t ->]. now exists [], t. Qed.
Lemma remove_none s : ~ occurs $"GROUP" s -> forall fuel, remove_groups fuel s = s.
Proof.
  intros H fuel. revert s H. induction fuel as [|fuel IH]; intros s H; [reflexivity|]. cbn [remove_groups]. destruct (group_match s) as [r|] eqn:E; [now apply group_match_occurs in E|].
  destruct s as [|c s]; [reflexivity|]. f_equal. apply IH. intros (a & b & ->). apply H. now exists (c :: a), b.
Qed.
Lemma quiet_column s : quiet_name s -> column_name s = s.
Proof. intros [H T]. unfold column_name. rewrite remove_none by exact H. now apply trimmed_strip. Qed.
Lemma drop_digits_app d s : Forall (fun c => is_digit c = true) d -> match s with c :: _ => is_digit c = false | [] => True end -> drop_digits (d ++ s) = s.
Proof. induction 1 as [|c d Hc _ IH]; intros H; cbn [app drop_digits]; [destruct s as [|c s]; [reflexivity|]; cbn; now rewrite H|]. rewrite Hc. auto. Qed.
Lemma group_prefix_match k s : group_match ($"GROUP_" ++ str_of_nat k ++ $", " ++ s) = Some ($", " ++ s).
Proof.
  unfold group_match. change (startswith $"GROUP" ($"GROUP_" ++ str_of_nat k ++ $", " ++ s)) with true. change (skipn 5 ($"GROUP_" ++ str_of_nat k ++ $", " ++ s)) with ("_"%char :: str_of_nat k ++ $", " ++ s).
  cbn [Ascii.eqb Bool.eqb]. pose proof (str_of_nat_digits k) as D. destruct (str_of_nat k) as [|c d] eqn:E; [now destruct (str_of_nat_ne k)|]. inversion D as [|? ? Hc Hd]; subst. cbn [app]. rewrite Hc. f_equal.
  apply (drop_digits_app d ($", " ++ s) Hd). reflexivity.
Qed.
(** an unnamed group leaves no trace *)
Lemma unnamed_column k s : quiet_name s -> column_name ($"GROUP_" ++ str_of_nat k ++ $", " ++ s) = s.
Proof.
  intros [H T]. unfold column_name. cbn [remove_groups]. rewrite group_prefix_match.
  assert (N : ~ occurs $"GROUP" ($", " ++ s)).
  { intros (a & b & E). destruct a as [|x [|y a]]; cbn in E; [discriminate E|discriminate E|]. injection E as _ _ E. apply H. now exists a, b. }
  rewrite remove_none by exact N. cbn [app list_ascii_of_string]. unfold strip_by. cbn [lstrip_by]. cbn [Ascii.eqb Bool.eqb orb andb]. fold (strip_by edge s).
  change (rstrip_by _ (lstrip_by _ s)) with (strip_by edge s). now apply trimmed_strip.
Qed.
Definition starts_well (s : str) : bool := match s with [] => true | c :: _ => negb (edge c) end.
Lemma quiet_easy s : contains $"GROUP" s = false -> starts_well s = true -> starts_well (rev s) = true -> quiet_name s.
Proof.
  assert (E : forall c, edge c = false -> c <> ","%char /\ c <> " "%char) by (intros c H; split; intros ->; discriminate H).
  intros C A B. split; [|split].
  - intros (a & b & X). apply not_true_iff_false in C. apply C, contains_iff. now exists a, b.
  - destruct s as [|c s]; [exact I|]. apply E. now apply negb_true_iff in A.
  - intros u c ->. apply E. rewrite rev_app_distr in B. cbn in B. now apply negb_true_iff in B.
Qed.
