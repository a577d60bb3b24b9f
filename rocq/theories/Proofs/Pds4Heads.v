(** The names of PDS4 fields, from the tree of the label (C67). *)
From Coq Require Import Lia Permutation.
From Verif.Base Require Import Py PyFacts Val.
From Verif.Model Require Import Types Scaling Pds4Types Pds4Values Pds4Tables Pds4Frame.
From Verif.Spec Require Import Pds4Tables Pds4Frame.
From Verif.Proofs Require Import Pds4Manifest Pds4Tables Pds4Names.
Open Scope nat_scope.

(** ** Parents of items of one level are in order *)
Lemma parent_mono m lvl i j p : i <= j -> parent_below m lvl i = Some p -> exists q, parent_below m lvl j = Some q /\ p <= q.
Proof.
  intros L P. induction L as [|j L IH]; [eauto|]. destruct IH as (q & E & Lq). cbn [parent_below].
  destruct ((S (group_level (ent m j)) =? lvl) && is_group (ent m j)); [|eauto]. exists j. split; [reflexivity|].
  assert (p < i); [|lia]. clear -P. revert P. induction i as [|i IH]; cbn [parent_below]; [discriminate|]. destruct (_ && _); [intros [= <-]; lia|]. intros H. apply IH in H. lia.
Qed.
Definition before (a b : option nat) : Prop := match a, b with None, _ => True | Some x, Some y => x <= y | Some _, None => False end.
Lemma parent_before m i j : group_level (ent m i) = group_level (ent m j) -> i <= j -> before (parent_of m i) (parent_of m j).
Proof.
  unfold parent_of. intros -> L. unfold before. destruct (parent_below m (group_level (ent m j)) i) as [p|] eqn:E; [|exact Logic.I].
  destruct (parent_mono _ _ _ _ _ L E) as (q & -> & H). exact H.
Qed.
Lemma same_parent_iff a b : same_parent a b = true <-> a = b.
Proof. destruct a as [a|], b as [b|]; cbn [same_parent]; try (split; discriminate || congruence). rewrite Nat.eqb_eq. split; congruence. Qed.
Lemma before_antisym a b : before a b -> before b a -> a = b.
Proof. destruct a as [a|], b as [b|]; cbn; try tauto. intros. f_equal. lia. Qed.

(** ** Numbers of groups *)
Section Numbers.
  Variable m : list entry.
  Definition alike (p : option nat) (l : list nat) : nat := length (filter (fun h => same_parent (parent_of m h) p) l).
  (** the groups of one level: each is numbered after those before it with its parent *)
  Lemma number_spec l : forall pre prev counter,
    (forall a b, In a (pre ++ l) -> In b (pre ++ l) -> group_level (ent m a) = group_level (ent m b)) ->
    (forall h x rest, In h pre -> l = x :: rest -> h <= x) -> Sorting.Sorted.StronglySorted lt l ->
    match prev with
    | None => pre = []
    | Some q => In q (map (parent_of m) pre) /\ (forall h, In h pre -> before (parent_of m h) q) /\ counter + 1 = alike q pre
    end ->
    forall a g b, l = a ++ g :: b -> In (g, alike (parent_of m g) (pre ++ a)) (number_groups m prev counter l).
  Proof.
    induction l as [|x l IH]; intros pre prev counter Lv Ord Srt Inv a g b E; [destruct a; discriminate E|].
    cbn [number_groups]. set (c := match prev with Some q => if same_parent (parent_of m x) q then counter + 1 else 0 | None => 0 end).
    assert (C : c = alike (parent_of m x) pre).
    { unfold c. destruct prev as [q|]; [|now subst pre]. destruct Inv as (Iq & Bq & Cq). destruct (same_parent (parent_of m x) q) eqn:Sp.
      - apply same_parent_iff in Sp. now rewrite Sp.
      - unfold alike. destruct (filter _ pre) as [|h r] eqn:Ef; [reflexivity|]. exfalso.
        assert (Hh : In h (filter (fun h => same_parent (parent_of m h) (parent_of m x)) pre)) by (rewrite Ef; now left). apply filter_In in Hh as [Hh Hs]. apply same_parent_iff in Hs.
        apply in_map_iff in Iq as (h' & <- & Hh'). pose proof (Bq h Hh) as B1. rewrite Hs in B1.
        assert (B2 : before (parent_of m h') (parent_of m x)). { apply parent_before; [|eapply Ord; eauto]. apply Lv; apply in_or_app; [now left|right; now left]. }
        rewrite (before_antisym _ _ B1 B2) in Sp. rewrite (proj2 (same_parent_iff _ _) eq_refl) in Sp. discriminate Sp. }
    inversion Srt as [|? ? Srt' Fx]; subst. rewrite Forall_forall in Fx.
    destruct a as [|y a]; injection E as -> E; [left; rewrite app_nil_r; now rewrite C|right].
    replace (pre ++ y :: a) with ((pre ++ [y]) ++ a) by (now rewrite <- app_assoc).
    apply (IH (pre ++ [y]) (Some (parent_of m y)) c) with (b := b).
    - intros u v Hu Hv. rewrite <- app_assoc in Hu, Hv. now apply Lv.
    - intros h z rest Hh ->. apply in_app_or in Hh as [Hh|[<-|[]]]; [|specialize (Fx z (or_introl eq_refl)); lia].
      specialize (Ord h y (z :: rest) Hh eq_refl). specialize (Fx z (or_introl eq_refl)). lia.
    - exact Srt'.
    - split; [rewrite map_app; apply in_or_app; right; now left|]. split.
      + intros h Hh. apply in_app_or in Hh as [Hh|[<-|[]]]; apply parent_before; try lia; try reflexivity.
        * apply Lv; apply in_or_app; [now left|right; now left].
        * eapply Ord; eauto.
      + unfold alike. rewrite filter_app, app_length. cbn [filter]. rewrite (proj2 (same_parent_iff _ _) eq_refl). cbn [length]. rewrite C. reflexivity.
    - exact E.
  Qed.
  Definition at_level (lvl i : nat) : bool := is_group (ent m i) && (group_level (ent m i) =? lvl).
  Lemma number_fst l : forall prev c, map fst (number_groups m prev c l) = l.
  Proof. induction l as [|x l IH]; intros prev c; [reflexivity|]. cbn [number_groups map fst]. now rewrite IH. Qed.
  Lemma seq_sorted s n : Sorting.Sorted.StronglySorted lt (seq s n).
  Proof. revert s. induction n as [|n IH]; intros s; cbn [seq]; constructor; [apply IH|]. apply Forall_forall. intros x H. apply in_seq in H. lia. Qed.
  Lemma filter_sorted (f : nat -> bool) l : Sorting.Sorted.StronglySorted lt l -> Sorting.Sorted.StronglySorted lt (filter f l).
  Proof.
    induction 1 as [|x l _ IH F]; cbn [filter]; [constructor|]. destruct (f x); [|exact IH]. constructor; [exact IH|]. apply Forall_forall. intros y Hy. apply filter_In in Hy as [Hy _]. rewrite Forall_forall in F. now apply F.
  Qed.
  Lemma group_numbers_fst fuel : forall lvl p, In p (group_numbers fuel m lvl) -> is_group (ent m (fst p)) = true /\ lvl <= group_level (ent m (fst p)).
  Proof.
    induction fuel as [|fuel IH]; intros lvl p; cbn [group_numbers]; [intros []|]. fold (at_level lvl).
    destruct (filter (at_level lvl) (seq 0 (length m))) as [|x l] eqn:E; [intros []|]. rewrite <- E. intros H. apply in_app_or in H as [H|H].
    - apply (in_map fst) in H. rewrite number_fst in H. apply filter_In in H as [_ H]. unfold at_level in H. apply andb_true_iff in H as [H1 H2]. apply Nat.eqb_eq in H2. split; [exact H1|lia].
    - destruct (IH _ _ H). split; [assumption|lia].
  Qed.
  Lemma find_level fuel : forall lvl g, g < length m -> is_group (ent m g) = true -> lvl <= group_level (ent m g) < lvl + fuel ->
    (forall k, lvl <= k <= group_level (ent m g) -> filter (at_level k) (seq 0 (length m)) <> []) ->
    match find (fun p => fst p =? g) (group_numbers fuel m lvl) with Some p => snd p | None => 0 end =
    match find (fun p => fst p =? g) (number_groups m None 0 (filter (at_level (group_level (ent m g))) (seq 0 (length m)))) with Some p => snd p | None => 0 end.
  Proof.
    induction fuel as [|fuel IH]; intros lvl g Lg G B Ne; [lia|]. cbn [group_numbers]. fold (at_level lvl).
    assert (Fd : forall l l' : list (nat * nat), find (fun p => fst p =? g) (l ++ l') = match find (fun p => fst p =? g) l with Some p => Some p | None => find (fun p => fst p =? g) l' end).
    { intros l l'. induction l as [|p l IHl]; [reflexivity|]. cbn [app find]. now destruct (fst p =? g). }
    destruct (filter (at_level lvl) (seq 0 (length m))) as [|x l] eqn:E; [destruct (Ne lvl ltac:(lia)); exact E|]. rewrite <- E. rewrite Fd.
    destruct (Nat.eq_dec lvl (group_level (ent m g))) as [El|El].
    - subst lvl. destruct (find (fun p => fst p =? g) (number_groups m None 0 _)) as [p|] eqn:Ef; [reflexivity|]. exfalso.
      assert (In g (filter (at_level (group_level (ent m g))) (seq 0 (length m)))) as H by (apply filter_In; split; [apply in_seq; lia|]; unfold at_level; now rewrite G, Nat.eqb_refl).
      rewrite <- (number_fst _ None 0) in H. apply in_map_iff in H as (p & Hp & H). pose proof (find_none _ _ Ef p H) as X. cbv beta in X. rewrite Hp, Nat.eqb_refl in X. discriminate X.
    - assert (Nf : find (fun p => fst p =? g) (number_groups m None 0 (filter (at_level lvl) (seq 0 (length m)))) = None).
      { destruct (find _ (number_groups m None 0 (filter (at_level lvl) (seq 0 (length m))))) as [p|] eqn:Ef; [|reflexivity]. exfalso. apply find_some in Ef as [H1 H2]. apply Nat.eqb_eq in H2.
        apply (in_map fst) in H1. rewrite number_fst, H2 in H1. apply filter_In in H1 as [_ H1]. unfold at_level in H1. apply andb_true_iff in H1 as [_ H1]. apply Nat.eqb_eq in H1. lia. }
      rewrite Nf. apply IH; try assumption; [lia|]. intros k Hk. apply Ne. lia.
  Qed.
  Lemma split_filter (f : nat -> bool) g : g < length m -> f g = true ->
    filter f (seq 0 (length m)) = filter f (seq 0 g) ++ g :: filter f (seq (S g) (length m - S g)).
  Proof.
    intros L F. replace (length m) with (g + S (length m - S g)) at 1 by lia. rewrite seq_app, filter_app. cbn [Nat.add seq filter]. now rewrite F.
  Qed.
  (** groups of all levels above exist *)
  Definition rooted : Prop := forall g, g < length m -> group_level (ent m g) <> 0 -> exists p, parent_of m g = Some p.
  Lemma parent_level g p : parent_of m g = Some p -> S (group_level (ent m p)) = group_level (ent m g).
  Proof.
    unfold parent_of. generalize (group_level (ent m g)). intros lvl. induction g as [|g IH]; cbn [parent_below]; [discriminate|].
    destruct ((S (group_level (ent m g)) =? lvl) && is_group (ent m g)) eqn:E; [|exact IH]. intros [= <-]. apply andb_true_iff in E as [E _]. now apply Nat.eqb_eq.
  Qed.
  Lemma levels_inhabited : rooted -> forall d g, g < length m -> is_group (ent m g) = true -> group_level (ent m g) = d -> forall k, k <= d -> filter (at_level k) (seq 0 (length m)) <> [].
  Proof.
    intros R d. induction d as [|d IH]; intros g L G E k Hk.
    - assert (k = 0) as -> by lia. intros X. assert (H : In g (filter (at_level 0) (seq 0 (length m)))); [|rewrite X in H; destruct H]. apply filter_In. split; [apply in_seq; lia|]. unfold at_level. now rewrite G, E.
    - destruct (Nat.eq_dec k (S d)) as [->|N].
      + intros X. assert (H : In g (filter (at_level (S d)) (seq 0 (length m)))); [|rewrite X in H; destruct H]. apply filter_In. split; [apply in_seq; lia|]. unfold at_level. now rewrite G, E, Nat.eqb_refl.
      + destruct (R g L ltac:(lia)) as [p Hp]. pose proof (parent_level _ _ Hp) as Lp. destruct (parent_group _ _ _ Hp) as [Lt Gp]. apply (IH p); [lia|exact Gp|lia|lia].
  Qed.
  Lemma level_le : rooted -> forall g, g < length m -> group_level (ent m g) <= g.
  Proof.
    intros R g. induction g as [g IH] using (well_founded_induction Wf_nat.lt_wf). intros L. destruct (Nat.eq_dec (group_level (ent m g)) 0) as [->|N]; [lia|].
    destruct (R g L N) as [p Hp]. pose proof (parent_level _ _ Hp) as Lp. destruct (parent_group _ _ _ Hp) as [Lt _]. specialize (IH p Lt ltac:(lia)). lia.
  Qed.
  Lemma group_number_count g : rooted -> g < length m -> is_group (ent m g) = true ->
    group_number m g = alike (parent_of m g) (filter (at_level (group_level (ent m g))) (seq 0 g)).
  Proof.
    intros R L G. unfold group_number. rewrite (find_level (length m) 0 g L G); [|pose proof (level_le R g L); lia|intros k Hk; apply (levels_inhabited R _ g L G eq_refl); lia].
    set (f := at_level (group_level (ent m g))). assert (Fg : f g = true) by (unfold f, at_level; now rewrite G, Nat.eqb_refl).
    assert (H : In (g, alike (parent_of m g) ([] ++ filter f (seq 0 g))) (number_groups m None 0 (filter f (seq 0 (length m))))).
    { eapply number_spec with (b := filter f (seq (S g) (length m - S g))).
      - cbn [app]. intros a b Ha Hb. apply filter_In in Ha as [_ Ha], Hb as [_ Hb]. unfold f, at_level in Ha, Hb. apply andb_true_iff in Ha as [_ Ha], Hb as [_ Hb]. apply Nat.eqb_eq in Ha, Hb. congruence.
      - intros h x rest [].
      - apply filter_sorted, seq_sorted.
      - reflexivity.
      - now apply split_filter. }
    cbn [app] in H. destruct (find _ _) as [p|] eqn:Ef.
    - apply find_some in Ef as [H1 H2]. apply Nat.eqb_eq in H2. assert (ND : NoDup (map fst (number_groups m None 0 (filter f (seq 0 (length m)))))) by (rewrite number_fst; apply NoDup_filter, seq_NoDup).
      assert (X : p = (g, alike (parent_of m g) (filter f (seq 0 g)))); [|now rewrite X].
      revert ND H1 H2 H. generalize (number_groups m None 0 (filter f (seq 0 (length m)))). generalize (alike (parent_of m g) (filter f (seq 0 g))). clear. intros c l ND H1 H2 H.
      induction l as [|x l IH]; [destruct H|]. cbn [map] in ND. inversion ND as [|? ? Nx ND']; subst. destruct H as [->|H], H1 as [->|H1]; [reflexivity| | |auto].
      + destruct Nx. cbn [fst]. apply in_map_iff. now exists p.
      + destruct Nx. apply in_map_iff. now exists (fst p, c).
    - exfalso. pose proof (find_none _ _ Ef _ H) as X. cbn [fst] in X. rewrite Nat.eqb_refl in X. discriminate X.
  Qed.
End Numbers.

(** ** Siblings *)
Section NamedInd.
  Context (P : list named -> Prop) (Hnil : P []) (Hfld : forall s l n F, P F -> P (NF s l n :: F))
    (Hgrp : forall o r l n cs F, P cs -> P F -> P (NG o r l n cs :: F)).
  Fixpoint named_ind' (i : named) : forall F, P F -> P (i :: F) :=
    match i with
    | NF s l n => Hfld s l n
    | NG o r l n cs => fun F HF => Hgrp o r l n cs F
        ((fix go (cs : list named) : P cs := match cs with [] => Hnil | c :: cs => named_ind' c cs (go cs) end) cs) HF
    end.
  Fixpoint nforest_ind (F : list named) : P F := match F with [] => Hnil | i :: F => named_ind' i F (nforest_ind F) end.
End NamedInd.
Lemma size_pos i : 1 <= size_item i. Proof. destruct i; cbn; lia. Qed.
Lemma kids_ge F : forall s i, In i (kids s F) -> s <= i.
Proof. induction F as [|x F IH]; intros s i; [intros []|]. cbn [kids]. intros [<-|H]; [lia|]. apply IH in H. lia. Qed.
Lemma kids_sorted F : forall s, Sorting.Sorted.StronglySorted lt (kids s F).
Proof.
  induction F as [|x F IH]; intros s; cbn [kids]; constructor; [apply IH|]. apply Forall_forall. intros i H. apply kids_ge in H. pose proof (size_pos x). lia.
Qed.
Lemma sorted_nodup l : Sorting.Sorted.StronglySorted lt l -> NoDup l.
Proof. induction 1 as [|x l _ IH F]; constructor; [|exact IH]. intros H. rewrite Forall_forall in F. specialize (F x H). lia. Qed.
Lemma sorted_app l : forall K1 x K2, Sorting.Sorted.StronglySorted lt l -> l = K1 ++ x :: K2 -> (forall h, In h K1 -> h < x) /\ (forall h, In h K2 -> x < h).
Proof.
  intros K1 x K2 H. revert K1 x K2. induction H as [|y l Hs IH F]; intros K1 x K2 E; [destruct K1; discriminate E|]. rewrite Forall_forall in F. destruct K1 as [|z K1]; injection E as -> E.
  - subst. split; [intros h []|exact F].
  - destruct (IH K1 x K2 E) as [A B]. split; [|exact B]. intros h [<-|Hh]; [|auto]. apply F. rewrite E. apply in_or_app. right. now left.
Qed.
(** all the children [F] of [par] *)
Definition Sib (m : list entry) (s lvl : nat) (F : list item) (par : option nat) : Prop :=
  At m s lvl F /\ children m par true = kids s F /\ forall i, In i (kids s F) -> parent_of m i = par.
Lemma sib_root g : Sib (flatten 0 g) 0 0 g None.
Proof. split; [apply at_root|]. split; [apply root_children|]. intros i H. apply root_parent. now apply (kids_at _ _ _ _ (at_root g)). Qed.
Lemma sib_grp m p lvl r l n cs F : At m p lvl (Grp r l n cs :: F) -> Sib m (S p) (S lvl) cs (Some p).
Proof.
  intros A. split; [now apply at_in_grp in A|]. split; [now rewrite (at_children _ _ _ _ _ _ _ _ _ A)|]. intros i H.
  destruct (kids_at _ _ _ _ (at_in_grp _ _ _ _ _ _ _ _ A) i H) as [B L]. exact (parents_step _ _ _ _ _ _ _ _ A i B L).
Qed.
Lemma rooted_flatten g : rooted (flatten 0 g).
Proof.
  intros i L N. rewrite flatten_length in L. pose proof (at_root g) as A. destruct (some_kid _ _ _ _ A i ltac:(lia)) as [K|(p & lvl & r & l & n & cs & F & A' & K)].
  - destruct (kids_at _ _ _ _ A i K) as [_ X]. congruence.
  - exists p. now apply (sib_grp _ _ _ _ _ _ _ _ A').
Qed.

Lemma nodup_app_l {A} (a b : list A) : NoDup (a ++ b) -> NoDup a.
Proof. induction a as [|x a IH]; intros H; [constructor|]. inversion H; subst. constructor; [intros X; apply H2; apply in_or_app; now left|auto]. Qed.
Section Siblings.
  Variables (g : list item) (ns : list (option str)).
  Let m := flatten 0 g.
  Lemma group_number_sib s lvl F par K1 i K2 : Sib m s lvl F par -> kids s F = K1 ++ i :: K2 -> is_group (ent m i) = true ->
    group_number m i = length (filter (fun h => is_group (ent m h)) K1).
  Proof.
    intros (A & Ch & Pa) E G. assert (Hi : In i (kids s F)) by (rewrite E; apply in_or_app; right; now left).
    destruct (kids_at _ _ _ _ A i Hi) as [Bi Li]. pose proof (at_size _ _ _ _ A) as Sz. rewrite (group_number_count m i (rooted_flatten g)) by (assumption || lia).
    rewrite (Pa i Hi), Li. unfold alike. apply Permutation_length. pose proof (kids_sorted F s) as Srt. destruct (sorted_app _ _ _ _ Srt E) as [Lt Gt]. apply NoDup_Permutation.
    - apply NoDup_filter, NoDup_filter, seq_NoDup.
    - apply NoDup_filter. apply sorted_nodup in Srt. rewrite E in Srt. now apply nodup_app_l in Srt.
    - intros h. rewrite !filter_In, in_seq. unfold at_level. rewrite andb_true_iff, Nat.eqb_eq, same_parent_iff. split.
      + intros (([_ Lh] & Gh & Lv) & Ph). split; [|exact Gh]. assert (Hh : In h (kids s F)). { rewrite <- Ch, <- Ph. apply child_of_parent. fold m. lia. }
        rewrite E in Hh. apply in_app_or in Hh as [Hh|[<-|Hh]]; [exact Hh|lia|]. apply Gt in Hh. lia.
      + intros [Hh Gh]. assert (Hk : In h (kids s F)) by (rewrite E; apply in_or_app; now left). destruct (kids_at _ _ _ _ A h Hk) as [Bh Lh]. specialize (Lt h Hh). repeat split; try assumption; try lia. now apply Pa.
  Qed.
  Definition names_at (s : nat) (F : list named) : Prop := exists pre post, ns = pre ++ label_names F ++ post /\ length pre = s.
  Lemma names_length F : length (label_names F) = size (label_fields F).
  Proof.
    induction F as [|x l n F IH|o r l n cs F IHc IH] using nforest_ind; [reflexivity| |]; unfold label_names, label_fields in *; cbn [flat_map map unnamed names_item].
    - rewrite size_fld. cbn [app length]. now rewrite IH.
    - rewrite size_grp. cbn [app length]. now rewrite app_length, IHc, IH.
  Qed.
  Lemma names_head s i F : names_at s (i :: F) -> nth s ns None = match i with NF x _ _ => Some x | NG o _ _ _ _ => o end.
  Proof. intros (pre & post & -> & <-). rewrite app_nth2, Nat.sub_diag by lia. now destruct i. Qed.
  Lemma names_tail s i F : names_at s (i :: F) -> names_at (s + size_item (unnamed i)) F.
  Proof.
    intros (pre & post & E & <-). exists (pre ++ names_item i), post. rewrite E. unfold label_names. cbn [flat_map]. rewrite <- !app_assoc. split; [reflexivity|]. rewrite app_length. f_equal.
    pose proof (names_length [i]) as H. unfold label_names, label_fields, size in H. cbn [flat_map map list_sum fold_right] in H. rewrite app_nil_r in H. lia.
  Qed.
  Lemma names_in s o r l n cs F : names_at s (NG o r l n cs :: F) -> names_at (S s) cs.
  Proof.
    intros (pre & post & E & <-). exists (pre ++ [o]), (label_names F ++ post). rewrite E. unfold label_names. cbn [flat_map names_item]. rewrite <- !app_assoc. cbn [app]. rewrite <- ?app_assoc. split; [reflexivity|]. rewrite app_length. cbn. lia.
  Qed.
  Definition basis (i : nat) : bool * str := (is_group (ent m i), item_name m ns i).
  Lemma bases_ok s lvl F0 par : Sib m s lvl F0 par -> forall F s2 K1, At m s2 lvl (label_fields F) -> names_at s2 F -> kids s F0 = K1 ++ kids s2 (label_fields F) ->
    map basis (kids s2 (label_fields F)) = bases (length (filter (fun h => is_group (ent m h)) K1)) F.
  Proof.
    intros Sb. induction F as [|i F IH]; intros s2 K1 A N E; [reflexivity|]. unfold label_fields in *. cbn [map kids] in *.
    pose proof (names_head _ _ _ N) as Hn. pose proof (names_tail _ _ _ N) as Nt. destruct i as [x l n|o r l n cs]; cbn [unnamed bases] in *.
    - assert (G : is_group (ent m s2) = false) by (now rewrite (at_ent_fld _ _ _ _ _ _ A)). f_equal.
      + unfold basis, item_name. rewrite G, Hn. reflexivity.
      + replace (length (filter _ K1)) with (length (filter (fun h => is_group (ent m h)) (K1 ++ [s2]))) by (rewrite filter_app; cbn [filter]; rewrite G; now rewrite app_nil_r).
        apply IH; [|exact Nt|rewrite E; now rewrite <- app_assoc]. cbn [size_item]. rewrite Nat.add_1_r. now apply at_tail_fld in A.
    - assert (G : is_group (ent m s2) = true) by (now rewrite (at_ent_grp _ _ _ _ _ _ _ _ A)). f_equal.
      + unfold basis, item_name. rewrite G, Hn. destruct o as [x|]; [reflexivity|]. f_equal. f_equal. f_equal. eapply group_number_sib; [exact Sb|exact E|exact G].
      + replace (S (length (filter _ K1))) with (length (filter (fun h => is_group (ent m h)) (K1 ++ [s2]))) by (rewrite filter_app, app_length; cbn [filter]; rewrite G; cbn; lia).
        apply IH; [|exact Nt|rewrite E; now rewrite <- app_assoc]. apply at_tail_grp in A. cbn [size_item]. now replace (s2 + S (list_sum (map size_item (map unnamed cs)))) with (S s2 + size (map unnamed cs)) by (unfold size; lia).
  Qed.
  Lemma index_filter (f : nat -> bool) K1 i K2 : ~ In i K1 -> f i = true -> index_of i (filter f (K1 ++ i :: K2)) = length (filter f K1).
  Proof.
    intros N F. rewrite filter_app. cbn [filter]. rewrite F. induction K1 as [|x K1 IH]; cbn [filter app index_of]; [now rewrite Nat.eqb_refl|].
    assert (IH' := IH (fun H => N (or_intror H))). destruct (f x); [|exact IH']. cbn [app index_of length]. destruct (Nat.eqb_spec x i) as [->|]; [destruct N; now left|]. now rewrite IH'.
  Qed.
  Lemma filter_map_length {A B} (f : B -> bool) (h : A -> B) l : length (filter f (map h l)) = length (filter (fun x => f (h x)) l).
  Proof. induction l as [|x l IH]; [reflexivity|]. cbn [map filter]. destruct (f (h x)); cbn [length]; now rewrite IH. Qed.
  Lemma label_ok s lvl F par : Sib m s lvl (label_fields F) par -> names_at s F ->
    Forall2 (fun i lab => parent_of m i = par /\ seg_text (own m ns i) = lab) (kids s (label_fields F)) (labels F).
  Proof.
    intros Sb N. pose proof (bases_ok _ _ _ _ Sb F s [] (proj1 Sb) N eq_refl) as Bs. cbn [filter length] in Bs. destruct Sb as (A & Ch & Pa).
    assert (Lk : length (kids s (label_fields F)) = length F). { unfold label_fields. clear. revert s. induction F as [|i F IH]; intros s; [reflexivity|]. cbn [map kids length]. now rewrite IH. }
    unfold labels. rewrite <- Bs, <- Lk. pose proof (sorted_nodup _ (kids_sorted (label_fields F) s)) as ND.
    assert (G : forall K2 K1, kids s (label_fields F) = K1 ++ K2 ->
      Forall2 (fun i lab => parent_of m i = par /\ seg_text (own m ns i) = lab) K2 (map (label_of (map basis (kids s (label_fields F)))) (seq (length K1) (length K2)))); [|exact (G _ [] eq_refl)].
    induction K2 as [|i K2 IH]; intros K1 E; [constructor|]. cbn [length seq map]. constructor.
    - assert (Hi : In i (kids s (label_fields F))) by (rewrite E; apply in_or_app; right; now left). pose proof (Pa i Hi) as Pi. split; [exact Pi|].
      assert (O : overlapping m ns i = filter (fun j => like (basis i) (basis j)) (kids s (label_fields F))).
      { unfold overlapping. rewrite Pi, Ch. apply filter_ext. intros j. unfold like, basis. cbn [fst snd]. rewrite andb_comm. f_equal; [now destruct (is_group (ent m j)), (is_group (ent m i))|].
        destruct (str_eqb (item_name m ns j) (item_name m ns i)) eqn:X; symmetry; [apply str_eqb_eq in X; rewrite X; now apply str_eqb_eq|]. rewrite <- not_true_iff_false in X |- *. intros Y. apply X. apply str_eqb_eq in Y. rewrite Y. now apply str_eqb_eq. }
      assert (Lii : like (basis i) (basis i) = true) by (unfold like; rewrite Bool.eqb_reflx; now apply str_eqb_eq).
      assert (Ni : ~ In i K1). { rewrite E in ND. intros X. apply in_split in X as (u & v & ->). rewrite <- app_assoc in ND. cbn [app] in ND. apply NoDup_remove_2 in ND. apply ND. apply in_or_app. right. apply in_or_app. right. now left. }
      unfold own, seg_text, label_of. cbn [fst snd].
      assert (Ix : index_of i (filter (fun j => like (basis i) (basis j)) (kids s (label_fields F))) = length (filter (fun j => like (basis i) (basis j)) K1)) by (rewrite E; now apply index_filter).
      rewrite O, Ix.
      assert (Hn : nth (length K1) (map basis (kids s (label_fields F))) (false, []) = basis i) by (rewrite E, map_app, app_nth2, map_length, Nat.sub_diag by (rewrite map_length; lia); reflexivity).
      assert (Hf : firstn (length K1) (map basis (kids s (label_fields F))) = map basis K1) by (rewrite E, map_app, firstn_app, map_length, Nat.sub_diag; cbn [firstn]; rewrite app_nil_r; apply firstn_all2; now rewrite map_length).
      rewrite Hn, Hf, !filter_map_length. cbn [basis snd]. destruct (2 <=? _); reflexivity.
    - replace (S (length K1)) with (length (K1 ++ [i])) by (rewrite app_length; cbn; lia). apply IH. rewrite E. now rewrite <- app_assoc.
  Qed.
  Definition prefix_of (par : option nat) : list str := match par with Some p => map seg_text (path_of m ns p) | None => [] end.
  Lemma paths_go F : forall s lvl par labs, At m s lvl (label_fields F) -> names_at s F ->
    Forall2 (fun i lab => parent_of m i = par /\ seg_text (own m ns i) = lab) (kids s (label_fields F)) labs ->
    map (fun i => map seg_text (path_of m ns i)) (fidx s (label_fields F)) = map (fun h => prefix_of par ++ fst h) (heads_go labs F).
  Proof.
    assert (Pe : forall i, map seg_text (path_of m ns i) = prefix_of (parent_of m i) ++ [seg_text (own m ns i)]).
    { intros i. rewrite path_eq, map_app. cbn [map]. f_equal. unfold prefix_of. now destruct (parent_of m i). }
    induction F as [|x l n F IH|o r l n cs F IHc IH] using nforest_ind; intros s lvl par labs A N H; unfold label_fields in *; cbn [map kids unnamed] in *.
    - inversion H; subst. reflexivity.
    - inversion H as [|? lab ? labs' [Hp Hl] Ht]; subst. rewrite fidx_fld. cbn [map heads_go heads_item app fst]. rewrite Pe. f_equal.
      apply names_tail in N. cbn [unnamed size_item] in N, Ht. rewrite Nat.add_1_r in N, Ht. apply (IH (S s) lvl); [now apply at_tail_fld in A|exact N|exact Ht].
    - inversion H as [|? lab ? labs' [Hp Hl] Ht]; subst. rewrite fidx_grp, map_app. cbn [heads_go]. rewrite map_app. f_equal.
      + pose proof (sib_grp _ _ _ _ _ _ _ _ A) as Sb. pose proof (names_in _ _ _ _ _ _ _ N) as Nc.
        rewrite (IHc (S s) (S lvl) (Some s) (labels cs) (proj1 Sb) Nc (label_ok _ _ _ _ Sb Nc)). cbn [heads_item prefix_of]. change ((fix go (labs : list str) (cs0 : list named) {struct cs0} : list (list str * list nat) := match labs with [] => [] | lab0 :: labs0 => match cs0 with [] => [] | c :: cs1 => heads_item lab0 c ++ go labs0 cs1 end end) (labels cs) cs) with (heads_go (labels cs) cs).
        rewrite map_map. apply map_ext. intros h. cbn [fst]. rewrite Pe, <- app_assoc. reflexivity.
      + apply names_tail in N. cbn [unnamed size_item] in N, Ht. replace (s + S (list_sum (map size_item (map unnamed cs)))) with (S s + size (map unnamed cs)) in N, Ht by (unfold size; lia).
        apply (IH _ lvl); [now apply at_tail_grp in A|exact N|exact Ht].
  Qed.
End Siblings.
Lemma names_root ns0 F : ns0 = label_names F -> names_at ns0 0 F.
Proof. intros ->. exists [], []. now rewrite app_nil_r. Qed.
Theorem paths_heads F : map (fun i => map seg_text (path_of (flatten 0 (label_fields F)) (label_names F) i)) (field_indices (flatten 0 (label_fields F))) = map fst (heads F).
Proof.
  rewrite field_indices_ok. pose proof (sib_root (label_fields F)) as Sb. pose proof (names_root _ F eq_refl) as N.
  rewrite (paths_go (label_fields F) (label_names F) F 0 0 None (labels F) (proj1 Sb) N (label_ok _ _ _ _ _ _ Sb N)). reflexivity.
Qed.
Lemma names_heads F : field_names (manifest 0 (label_fields F)) (label_names F) = map head_name (heads F).
Proof.
  change (manifest 0 (label_fields F)) with (flatten 0 (label_fields F)). unfold field_names, head_name. rewrite <- map_map with (f := fst) (g := fun l => map (fun c => if Ascii.eqb c ":"%char then "_"%char else c) (join $", " l)).
  rewrite <- paths_heads, map_map. apply map_ext_in. intros i Hi. apply field_index in Hi as [L _]. rewrite location_path by exact L. rewrite location_join. reflexivity.
Qed.
Lemma shapes_go F : forall s labs, length labs = length F -> map (fun f => map g_rep (path f s (label_fields F))) (fidx s (label_fields F)) = map snd (heads_go labs F).
Proof.
  induction F as [|x l n F IH|o r l n cs F IHc IH] using nforest_ind; intros s labs L; destruct labs as [|lab labs]; try discriminate L; [reflexivity| |]; unfold label_fields in *; cbn [map unnamed heads_go]; rewrite ?map_app.
  - rewrite fidx_fld. cbn [map heads_item app snd]. f_equal; [rewrite path_fld, Nat.eqb_refl by lia; reflexivity|]. rewrite <- (IH (S s) labs) by (injection L; auto).
    apply map_ext_in. intros f Hf. apply fidx_range in Hf. rewrite path_fld by lia. destruct (Nat.eqb_spec f s); [lia|reflexivity].
  - rewrite fidx_grp, map_app. cbn [heads_item]. change ((fix go (labs : list str) (cs0 : list named) {struct cs0} : list (list str * list nat) := match labs with [] => [] | lab0 :: labs0 => match cs0 with [] => [] | c :: cs1 => heads_item lab0 c ++ go labs0 cs1 end end) (labels cs) cs) with (heads_go (labels cs) cs). f_equal.
    + rewrite map_map. cbn [snd]. rewrite <- map_map with (f := snd) (g := cons r). rewrite <- (IHc (S s)) by (unfold labels; now rewrite map_length, seq_length). rewrite map_map.
      apply map_ext_in. intros f Hf. apply fidx_range in Hf. rewrite path_grp, (proj2 (Nat.ltb_lt _ _)) by lia. reflexivity.
    + rewrite <- (IH (S s + size (map unnamed cs)) labs) by (injection L; auto). apply map_ext_in. intros f Hf. apply fidx_range in Hf. rewrite path_grp, (proj2 (Nat.ltb_ge _ _)) by lia. reflexivity.
Qed.
Lemma shapes_heads F : map (group_shape (manifest 0 (label_fields F))) (field_indices (manifest 0 (label_fields F))) = map snd (heads F).
Proof.
  change (manifest 0 (label_fields F)) with (flatten 0 (label_fields F)). rewrite field_indices_ok. unfold heads. rewrite <- (shapes_go F 0) by (unfold labels; now rewrite map_length, seq_length).
  apply map_ext_in. intros f Hf. now apply shape_ok.
Qed.
