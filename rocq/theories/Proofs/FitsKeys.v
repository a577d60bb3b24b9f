(** The keys of a FITS file. *)
From Coq Require Import Permutation.
From Verif.Base Require Import Py Val PyFacts.
From Verif.Model Require Import Scaling Pds4Types Pds4Tables Pds4Values Pds4Frame Data Fits.
From Verif.Spec Require Import Fits.
From Verif.Proofs Require Import Scaling Pds4Frame Fits.
Open Scope nat_scope.

Lemma enum_snoc {A} (l : list A) x : enum (l ++ [x]) = enum l ++ [(length l, x)].
Proof.
  unfold enum. rewrite app_length. cbn [length]. rewrite seq_app, Nat.add_0_l. cbn [seq].
  assert (X : forall (a c : list nat) (b d : list A), length a = length b -> combine (a ++ c) (b ++ d) = combine a b ++ combine c d).
  { induction a as [|u a IH]; intros c [|v b] d L; try discriminate; cbn; [reflexivity|]. rewrite IH; [reflexivity|]. cbn in L. lia. }
  apply X. apply seq_length.
Qed.
Lemma enum_filter (p : nat -> bool) n : enum (filter p (seq 0 n)) = map (fun i => (length (filter p (seq 0 i)), i)) (filter p (seq 0 n)).
Proof.
  induction n as [|n IH]; [reflexivity|]. replace (seq 0 (S n)) with (seq 0 n ++ [n]) by (now rewrite seq_S).
  rewrite filter_app. cbn [filter]. destruct (p n).
  - rewrite enum_snoc, map_app, IH. reflexivity.
  - now rewrite app_nil_r.
Qed.
Definition same_name (hs : list hdu) (n : str) (i : nat) : bool := str_eqb n (h_name (nth i hs no_hdu)).
Lemma nth_names hs i : nth i (map h_name hs) [] = h_name (nth i hs no_hdu).
Proof. change (@nil ascii) with (h_name no_hdu). apply map_nth. Qed.
Lemma count_names hs n i : i <= length hs -> length (filter (str_eqb n) (firstn i (map h_name hs))) = length (filter (same_name hs n) (seq 0 i)).
Proof.
  intros L. rewrite count_firstn by (now rewrite map_length). f_equal. apply filter_ext. intros j. unfold same_name. now rewrite nth_names.
Qed.
Lemma group_keys_eq hs n : group_keys hs n = map (fun i => (hdu_key hs i, i)) (group_of hs n).
Proof.
  unfold group_keys, group_of. fold (same_name hs n).
  assert (T : length (filter (str_eqb n) (map h_name hs)) = length (filter (same_name hs n) (seq 0 (length hs)))).
  { rewrite <- count_names by lia. now rewrite <- (map_length h_name hs), firstn_all. }
  assert (K : forall i, In i (filter (same_name hs n) (seq 0 (length hs))) ->
    hdu_key hs i = if Nat.eqb (length (filter (same_name hs n) (seq 0 (length hs)))) 1 then n
                   else n ++ $"_" ++ str_of_nat (length (filter (same_name hs n) (seq 0 i)))).
  { intros i I. apply filter_In in I as (I & E). apply in_seq in I. apply str_eqb_eq in E.
    unfold hdu_key, numbered. cbv zeta. rewrite nth_names, <- E, T, count_names by lia. reflexivity. }
  destruct (filter (same_name hs n) (seq 0 (length hs))) as [|i [|j l]] eqn:Ef.
  - reflexivity.
  - cbn [map]. rewrite K by (now left). reflexivity.
  - assert (A : map (fun p : nat * nat => (n ++ $"_" ++ str_of_nat (fst p), snd p)) (enum (i :: j :: l)) = map (fun i0 => (hdu_key hs i0, i0)) (i :: j :: l)); [|exact A].
    rewrite <- Ef at 1. rewrite enum_filter, map_map, Ef. apply map_ext_in. intros k Ik. cbn [fst snd]. rewrite K by exact Ik. reflexivity.
Qed.
Lemma distinct_In l x : In x (distinct l) <-> In x l.
Proof.
  induction l as [|y l IH]; [reflexivity|]. cbn [distinct In]. rewrite filter_In, IH. split.
  - intros [E|[H _]]; auto.
  - intros [E|H]; [now left|]. destruct (str_eqb_spec y x) as [->|N]; [now left|]. right. auto.
Qed.
Lemma distinct_NoDup l : NoDup (distinct l).
Proof.
  induction l as [|y l IH]; [constructor|]. cbn [distinct]. constructor; [|now apply NoDup_filter].
  rewrite filter_In. intros [_ X]. rewrite (proj2 (str_eqb_eq y y) eq_refl) in X. discriminate.
Qed.
Lemma NoDup_flat {A B} (f : A -> list B) l : NoDup l -> (forall x, In x l -> NoDup (f x)) ->
  (forall x y b, In x l -> In y l -> In b (f x) -> In b (f y) -> x = y) -> NoDup (flat_map f l).
Proof.
  intros N H D. induction N as [|x l NI N IH]; cbn [flat_map]; [constructor|].
  assert (R : NoDup (flat_map f l)).
  { apply IH; [intros; apply H; now right|]. intros a b c ? ?. apply D; now right. }
  assert (X : NoDup (f x)) by (apply H; now left).
  assert (E : forall b, In b (f x) -> ~ In b (flat_map f l)).
  { intros b I J. apply in_flat_map in J as (y & Iy & J). assert (x = y) by (apply (D x y b); auto; [now left|now right]). subst y. contradiction. }
  clear - R X E. induction (f x) as [|b bs IH]; [exact R|]. cbn [app]. inversion X; subst. constructor.
  - intros I. apply in_app_or in I as [I|I]; [contradiction|]. apply (E b); [now left|exact I].
  - apply IH; [assumption|]. intros c I. apply E. now right.
Qed.
Lemma keys_permutation hs : Permutation (fits_keys hs) (map (fun i => (hdu_key hs i, i)) (seq 0 (length hs))).
Proof.
  unfold fits_keys. rewrite (flat_map_ext _ (fun n => map (fun i => (hdu_key hs i, i)) (group_of hs n))) by apply group_keys_eq.
  assert (E : forall l, flat_map (fun n => map (fun i => (hdu_key hs i, i)) (group_of hs n)) l = map (fun i => (hdu_key hs i, i)) (flat_map (group_of hs) l)).
  { induction l as [|x l IH]; [reflexivity|]. cbn [flat_map]. now rewrite IH, map_app. }
  rewrite E. apply Permutation_map. apply NoDup_Permutation.
  - apply NoDup_flat; [apply distinct_NoDup| |].
    + intros. apply NoDup_filter, seq_NoDup.
    + intros x y i _ _ A B. unfold group_of in A, B. apply filter_In in A as (_ & A), B as (_ & B).
      apply str_eqb_eq in A, B. congruence.
  - apply seq_NoDup.
  - intros i. rewrite in_flat_map. split.
    + intros (n & _ & I). now apply filter_In in I.
    + intros I. exists (h_name (nth i hs no_hdu)). split.
      * apply distinct_In. apply in_map, nth_In. apply in_seq in I. lia.
      * apply filter_In. split; [exact I|]. apply (proj2 (str_eqb_eq _ _) eq_refl).
Qed.
(** all names different: the keys are the names, in order *)
Lemma distinct_id l : NoDup l -> distinct l = l.
Proof.
  induction 1 as [|x l N _ IH]; [reflexivity|]. cbn [distinct]. rewrite IH. f_equal.
  clear IH. induction l as [|y l IH]; [reflexivity|]. cbn [filter]. destruct (str_eqb_spec x y) as [->|]; [exfalso; apply N; now left|].
  cbn [negb]. rewrite IH; [reflexivity|]. intros I. apply N. now right.
Qed.
Lemma keys_NoDup hs : no_clash (map h_name hs) -> NoDup (map fst (fits_keys hs)).
Proof.
  intros C. apply (Permutation_NoDup (l := map fst (map (fun i => (hdu_key hs i, i)) (seq 0 (length hs))))).
  - symmetry. apply Permutation_map, keys_permutation.
  - rewrite map_map. cbn [fst]. replace (length hs) with (length (map h_name hs)) by apply map_length.
    now apply numbered_distinct.
Qed.
Lemma fold_dict_get {A} (l : list (str * A)) : forall d k, NoDup (map fst l) ->
  dict_get (fold_left (fun d p => dict_set d (fst p) (snd p)) l d) k
  = match dict_get l k with Some v => Some v | None => dict_get d k end.
Proof.
  induction l as [|[x v] l IH]; intros d k N; [reflexivity|]. cbn [map fst] in N. inversion N as [|? ? NI N']; subst.
  cbn [fold_left fst snd]. rewrite IH, dict_get_set by exact N'. unfold dict_get at 3. cbn [find fst].
  destruct (str_eqb_spec x k) as [->|].
  - cbn [snd]. replace (dict_get l k) with (@None A); [reflexivity|]. symmetry. unfold dict_get.
    destruct (find _ l) as [e|] eqn:E; [|reflexivity]. apply find_some in E as (I & B). apply str_eqb_eq in B. exfalso. apply NI. subst k. now apply in_map.
  - fold (dict_get l k). reflexivity.
Qed.
Lemma dict_get_in {A} (l : list (str * A)) k v : NoDup (map fst l) -> In (k, v) l -> dict_get l k = Some v.
Proof.
  induction l as [|[x w] l IH]; intros N I; [destruct I|]. cbn [map fst] in N. inversion N as [|? ? NI N']; subst.
  unfold dict_get. cbn [find fst]. destruct I as [[= -> ->]|I].
  - now rewrite (proj2 (str_eqb_eq k k) eq_refl).
  - destruct (str_eqb_spec x k) as [->|]; [exfalso; apply NI; now apply (in_map fst) in I|]. now apply IH.
Qed.
