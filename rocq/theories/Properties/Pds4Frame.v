(** C66 and C67: the DataFrames of PDS4 tables, and the names of their columns. *)
From Coq Require Import ZArith Lia QArith.
From Verif.Base Require Import Py PyFacts Val.
From Verif.Model Require Import Types Scaling Pds4Types Pds4Values.
From Verif.Spec Require Import Scaling Pvl Pds4Types Pds4Values.
From Verif.Proofs Require Import Scaling Pds4Types Pds4Fields.
From Verif.Properties Require Pds4Types Pds4Fields.
From Verif.Model Require Import Pds4Tables Pds4Frame.
From Verif.Spec Require Import Pds4Frame Pds4Tables.
From Verif.Proofs Require Import Pds4Manifest Pds4Tables Pds4Names Pds4Heads Pds4Frame.
From Verif.Properties Require Pds4Tables Pds4Fixed.
Open Scope nat_scope.

(** ** C66: values *)
Definition two_levels (f : tfield) : Prop := length (t_shape f) <= 2.
Lemma frame_imp n fs (P Q : nat -> nat -> dfvalue -> Prop) cols : (forall k i x, P k i x -> Q k i x) -> frame n fs P cols -> frame n fs Q cols.
Proof.
  intros H [L K]. split; [exact L|]. intros k name shape j E Lj. destruct (K k name shape j E Lj) as (col & E1 & E2 & E3). exists col. split; [exact E1|]. split; [exact E2|]. intros r x Hx. apply H. now apply E3.
Qed.
Lemma new_table_plain fs : NoDup (map t_name fs) -> Forall (fun f => t_special f = None) fs \/ Forall (fun f => complete (t_vals f)) fs -> exists b, new_table fs = Ok (b, fs).
Proof.
  intros N H. unfold new_table. rewrite (proj2 (has_dup_iff _) N). destruct H as [H|H].
  - assert (M : rmap mask_field fs = Ok fs). { clear N. induction H as [|f fs Hf _ IH]; [reflexivity|]. cbn [rmap]. unfold mask_field at 1. rewrite Hf. cbn [rbind]. now rewrite IH. }
    rewrite M. destruct (existsb _ fs); eexists; reflexivity.
  - assert (E : existsb (fun f => any_masked (t_vals f)) fs = false); [|rewrite E; eexists; reflexivity].
    clear N. induction H as [|f fs Hf _ IH]; [reflexivity|]. cbn [existsb]. now rewrite IH, (proj1 (complete_masked _) Hf).
Qed.
Lemma table_frame n fs : fs <> [] -> NoDup (map t_name fs) -> Forall (fun f => quiet_name (t_name f)) fs -> Forall two_levels fs -> Forall (of_records n) fs ->
  Forall (fun f => t_special f = None) fs \/ Forall (fun f => complete (t_vals f)) fs ->
  exists cols, table_df fs = Ok cols /\ frame n (map described fs) (cell_of_field fs) cols.
Proof.
  intros Ne N Q T R H. destruct (new_table_plain fs N H) as [b E]. destruct (sdf_frame n fs Ne T R Q) as (d & Ed & Fd).
  eexists. unfold table_df. rewrite E. cbn [rbind snd]. rewrite Ed. cbn [rbind]. split; [reflexivity|exact Fd].
Qed.
(** Without missing values the DataFrame has all values, in the order of the fields and
    records, in columns of the names of the fields. *)
Theorem C66_frame n fs : fs <> [] -> NoDup (map t_name fs) -> Forall (fun f => quiet_name (t_name f)) fs -> Forall two_levels fs ->
  Forall (of_records n) fs -> Forall (fun f => complete (t_vals f)) fs ->
  exists cols, table_df fs = Ok cols /\ frame n (map described fs) (fun k i x => exists f, nth_error fs k = Some f /\ known (t_vals f) i x) cols.
Proof.
  intros Ne N Q T R C. destruct (table_frame n fs Ne N Q T R (or_intror C)) as (cols & E & F). exists cols. split; [exact E|]. eapply frame_imp; [|exact F].
  intros k i x (f & Hf & H). exists f. split; [exact Hf|]. rewrite Forall_forall in C. specialize (C f (nth_error_In _ _ Hf)).
  assert (X : nth_error (raw (t_vals f)) i = Some x) by (destruct H as [[_ H]|[_ H]]; [now rewrite sanitized_complete in H|exact H]).
  apply raw_stored in X as [[|] X]; [destruct (C i); now exists x|exact X].
Qed.
Print Assumptions C66_frame.
(** With missing values: those of a field in a group, and of a field without neighbours
    outside groups, become NaN. *)
Theorem C66_missing n fs : fs <> [] -> NoDup (map t_name fs) -> Forall (fun f => quiet_name (t_name f)) fs -> Forall two_levels fs ->
  Forall (of_records n) fs -> Forall (fun f => t_special f = None) fs ->
  exists cols, table_df fs = Ok cols /\ frame n (map described fs) (fun k i y => exists f, nth_error fs k = Some f /\ shown (lone fs k) (t_vals f) i y) cols.
Proof.
  intros Ne N Q T R C. destruct (table_frame n fs Ne N Q T R (or_introl C)) as (cols & E & F). exists cols. split; [exact E|]. eapply frame_imp; [|exact F].
  intros k i y (f & Hf & H). exists f. split; [exact Hf|]. destruct H as [[K H]|[K H]]; (split; intros K'; try contradiction).
  - assert (X : exists x, nth_error (raw (t_vals f)) i = Some x).
    { destruct (nth_error (raw (t_vals f)) i) as [x|] eqn:X; [eauto|]. apply nth_error_None in X. rewrite raw_length in X. assert (i < length (sanitized (t_vals f))) by (apply nth_error_Some; congruence). rewrite sanitized_length in H0. lia. }
    destruct X as [x X]. apply raw_stored in X as [[|] X].
    + left. split; [now exists x|]. eapply sanitized_missing; [exact H|now exists x].
    + right. exists x. split; [exact X|]. split.
      * intros Cv. rewrite sanitized_complete in H by exact Cv. apply raw_stored in H as [m H]. now destruct (stored_fun _ _ _ _ _ _ X H).
      * intros Cv. eapply sanitized_known; eauto.
  - now apply raw_stored in H.
Qed.
Print Assumptions C66_missing.

(** ** Special constants *)
Definition no_special (f : tfield) : tfield := mkT (t_name f) (t_shape f) None (t_vals f).
Lemma pieces_no_special fs : forall buf, frame_pieces (map no_special buf) (map no_special fs) = frame_pieces buf fs.
Proof.
  assert (P : forall buf, plain_df (map no_special buf) = plain_df buf).
  { intros [|a [|b buf]]; [reflexivity|reflexivity|]. cbn [map plain_df]. do 2 f_equal. rewrite map_map. reflexivity. }
  induction fs as [|f fs IH]; intros buf; cbn [map frame_pieces].
  - destruct buf as [|b buf]; [reflexivity|]. cbn [map]. change (no_special b :: map no_special buf) with (map no_special (b :: buf)). now rewrite P.
  - change (t_shape (no_special f)) with (t_shape f). destruct (t_shape f) eqn:Sh.
    + rewrite <- IH, map_app. reflexivity.
    + change (group_df (no_special f)) with (group_df f). destruct (group_df f); [|reflexivity]. cbn [rbind]. rewrite <- (IH []). cbn [map]. destruct (frame_pieces [] (map no_special fs)); [|reflexivity]. cbn [rbind].
      destruct buf as [|b buf]; [reflexivity|]. cbn [map]. change (no_special b :: map no_special buf) with (map no_special (b :: buf)). now rewrite P.
Qed.
Lemma sdf_no_special fs : structured_array_to_df (map no_special fs) = structured_array_to_df fs.
Proof. unfold structured_array_to_df. change (@nil tfield) with (map no_special []) at 1. now rewrite pieces_no_special. Qed.
Lemma mask_field_ok f : specials_fit f -> exists f1, mask_field f = Ok f1 /\ specials_missing f (no_special f1).
Proof.
  intros Ft. unfold mask_field. destruct (t_special f) as [sc|] eqn:Es.
  2: { exists f. split; [reflexivity|]. unfold specials_missing, no_special. cbn. now rewrite Es. }
  unfold specials_fit in Ft. specialize (Ft sc Es). unfold specials_missing. rewrite Es. destruct (t_vals f) as [t l|l|l|t l|l] eqn:Ev.
  - destruct Ft as (M & F & Sp).
    destruct (Pds4Types.C48_int (mkP t 1 (map (fun p => (EI (fst p), snd p)) l)) sc) as (b & seen & E & T & _ & G).
    { split; [exact M|]. apply Forall_map. eapply Forall_impl; [|exact F]. intros p Hp. cbn. eauto. }
    { exact Sp. }
    rewrite E. cbn [rbind fst]. eexists. split; [reflexivity|]. cbn. repeat (split; [reflexivity|]). cbn [cells] in G. clear -G.
    revert G. generalize (cells b). induction l as [|[z m] l IH]; intros c G; inversion G as [|? y ? c' [H1 H2] G']; subst; cbn [map]; constructor; [|now apply IH].
    cbn [fst snd] in *. rewrite H1. cbn. split; [reflexivity|]. rewrite H2. split; intros [A|A]; auto; [destruct A as (z' & [= <-] & A); auto|eauto].
  - destruct Ft as [F Fc].
    destruct (Pds4Types.C48_float DF64 (mkP (TNum DF64) 1 (map (fun p => (EF (fst p), snd p)) l)) sc) as (b & seen & E & T & _ & G).
    { split; [exact I|]. split; [reflexivity|]. apply Forall_map. eapply Forall_impl; [|exact F]. intros p Hp. cbn. eauto. }
    { exact Fc. }
    rewrite E. cbn [rbind fst]. eexists. split; [reflexivity|]. cbn. repeat (split; [reflexivity|]). cbn [cells] in G. clear -G.
    revert G. generalize (cells b). induction l as [|[z m] l IH]; intros c G; inversion G as [|? y ? c' [H1 H2] G']; subst; cbn [map]; constructor; [|now apply IH].
    cbn [fst snd] in *. rewrite H1. cbn. split; [reflexivity|]. rewrite H2. split; intros [A|A]; auto; [destruct A as (z' & [= <-] & A); auto|eauto].
  - exists f. split; [reflexivity|]. unfold no_special. cbn. now rewrite Ev.
  - exists f. split; [reflexivity|]. unfold no_special. cbn. now rewrite Ev.
  - exists f. split; [reflexivity|]. unfold no_special. cbn. now rewrite Ev.
Qed.
(** If any value of the table is missing, the special constants of the label are missing
    values too. *)
Theorem C66_special fs : (exists f i, In f fs /\ missing (t_vals f) i) -> Forall specials_fit fs ->
  exists fs', Forall2 specials_missing fs fs' /\ table_df fs = table_df fs'.
Proof.
  intros (f & i & Hf & Hm) S. assert (X : exists fs1, rmap mask_field fs = Ok fs1 /\ Forall2 specials_missing fs (map no_special fs1)).
  { clear Hf. induction S as [|g fs Hg _ IH]; [exists []; split; [reflexivity|constructor]|]. destruct (mask_field_ok g Hg) as (g1 & E & H). destruct IH as (fs1 & E1 & H1).
    exists (g1 :: fs1). cbn [rmap]. rewrite E. cbn [rbind]. rewrite E1. split; [reflexivity|]. constructor; assumption. }
  destruct X as (fs1 & E & F2). exists (map no_special fs1). split; [exact F2|].
  assert (Nm : map t_name (map no_special fs1) = map t_name fs). { clear -F2. revert F2. generalize (map no_special fs1). induction fs as [|f fs IH]; intros l H; inversion H as [|? y ? l' [A _] H']; subst; [reflexivity|]. cbn [map]. rewrite A. f_equal. now apply IH. }
  assert (M : existsb (fun f => any_masked (t_vals f)) fs = true). { apply existsb_exists. exists f. split; [exact Hf|]. apply any_masked_iff. eauto. }
  unfold table_df, new_table at 1. rewrite M, E. destruct (has_dup (map t_name fs)) eqn:D.
  - unfold new_table. rewrite Nm, D. reflexivity.
  - destruct (new_table_plain (map no_special fs1)) as [b Eb].
    + rewrite Nm. now apply has_dup_iff.
    + left. apply Forall_map, Forall_forall. reflexivity.
    + rewrite Eb. cbn [rbind snd]. now rewrite sdf_no_special.
Qed.
Print Assumptions C66_special.
(** Without a missing value, they are values like others. *)
Theorem C66_special_refuted fs : Forall (fun f => complete (t_vals f)) fs -> table_df fs = table_df (map no_special fs).
Proof.
  intros C. assert (M : forall g, (forall f, t_vals (g f) = t_vals f) -> existsb (fun f => any_masked (t_vals f)) (map g fs) = false).
  { intros g Hg. clear -C Hg. induction C as [|f fs Hf _ IH]; [reflexivity|]. cbn [map existsb]. rewrite Hg. now rewrite IH, (proj1 (complete_masked _) Hf). }
  unfold table_df, new_table. rewrite map_map. change (map (fun x => t_name (no_special x)) fs) with (map t_name fs). destruct (has_dup _); [reflexivity|].
  rewrite (M no_special) by reflexivity. specialize (M (fun f => f) (fun _ => eq_refl)). rewrite map_id in M. rewrite M. cbn [rbind snd]. now rewrite sdf_no_special.
Qed.
Print Assumptions C66_special_refuted.
Lemma mask_field_err f e : mask_field f = Err e -> e = TypeError.
Proof.
  unfold mask_field. destruct (t_special f) as [sc|]; [|discriminate]. destruct (t_vals f) as [t l|l|l|t l|l]; try discriminate; rewrite mask_constants_eq; destruct (forallb _ sc); cbn [rbind]; congruence.
Qed.
(** A constant outside the range of its field makes the table unreadable, if a value of the
    table is missing. *)
Theorem C66_constant_refuted fs f sc z t l : NoDup (map t_name fs) -> (exists f i, In f fs /\ missing (t_vals f) i) ->
  In f fs -> t_special f = Some sc -> t_vals f = FInts t l -> machine_int t -> special_int sc z -> ~ int_fits t z -> table_df fs = Err TypeError.
Proof.
  intros N (g & i & Hg & Hm) Hf Es Ev M Sp Nf.
  assert (B : existsb (fun f => any_masked (t_vals f)) fs = true). { apply existsb_exists. exists g. split; [exact Hg|]. apply any_masked_iff. eauto. }
  assert (Ef : exists e, mask_field f = Err e).
  { unfold mask_field. rewrite Es, Ev, mask_constants_eq. cbn [ptype_of]. destruct (forallb _ sc) eqn:X; [|eexists; reflexivity]. destruct Nf. now apply (proj1 (fill_int t sc M) X). }
  destruct Ef as [e Ef]. assert (R : rmap mask_field fs = Err TypeError).
  { clear N Hg B. induction fs as [|h fs IH]; [destruct Hf|]. cbn [rmap]. destruct (mask_field h) as [h1|e'] eqn:Eh; cbn [rbind]; [|now rewrite (mask_field_err _ _ Eh)].
    destruct Hf as [->|Hf]; [congruence|]. now rewrite IH. }
  unfold table_df, new_table. now rewrite (proj2 (has_dup_iff _) N), B, R.
Qed.
Print Assumptions C66_constant_refuted.
(** Groups in groups in groups cannot be shown. *)
Theorem C66_deep_refuted fs : NoDup (map t_name fs) -> Forall (fun f => complete (t_vals f)) fs -> Exists (fun f => ~ two_levels f) fs -> table_df fs = Err NotImplementedError_.
Proof.
  intros N C X. destruct (new_table_plain fs N (or_intror C)) as [b E]. unfold table_df. rewrite E. cbn [rbind snd]. unfold structured_array_to_df.
  assert (P : forall buf, frame_pieces buf fs = Err NotImplementedError_); [|now rewrite P].
  clear -X. induction X as [f fs H|f fs X IH]; intros buf; cbn [frame_pieces].
  - unfold two_levels in H. destruct (t_shape f) as [|r sh] eqn:S; [cbn in H; lia|]. unfold group_df. rewrite S, (proj2 (Nat.ltb_lt _ _)) by lia. reflexivity.
  - destruct (t_shape f) as [|r sh] eqn:S; [apply IH|]. unfold group_df. destruct (2 <? _); [reflexivity|]. cbn [rbind]. now rewrite IH.
Qed.
Print Assumptions C66_deep_refuted.
(** Missing values of two or more fields outside groups one after the other are shown as the
    values in store (0 for numbers): DataFrames of tables that differ only in which of these are
    missing are the same. *)
Lemma list_ext {A} (l l' : list A) : (forall i, nth_error l i = nth_error l' i) -> l = l'.
Proof.
  revert l'. induction l as [|x l IH]; intros [|y l'] H; [reflexivity|specialize (H 0); discriminate H|specialize (H 0); discriminate H|].
  pose proof (H 0) as H0. injection H0 as ->. f_equal. apply IH. intros i. exact (H (S i)).
Qed.
Lemma same_raw v v' : (forall i x, (exists m, stored v i m x) <-> exists m, stored v' i m x) -> raw v = raw v'.
Proof.
  intros H. apply list_ext. intros i. destruct (nth_error (raw v) i) as [x|] eqn:E.
  - symmetry. apply raw_stored, H, raw_stored, E.
  - destruct (nth_error (raw v') i) as [x|] eqn:E'; [|reflexivity]. apply raw_stored, H, raw_stored in E'. congruence.
Qed.
Definition if_lone (p a b : Prop) : Prop := (p -> a) /\ (~ p -> b).
Theorem C66_missing_refuted fs fs' : map described fs = map described fs' -> Forall two_levels fs -> Forall (fun f => t_special f = None) (fs ++ fs') ->
  (forall k f f', nth_error fs k = Some f -> nth_error fs' k = Some f' ->
    if_lone (lone fs k) (t_vals f = t_vals f') (forall i x, (exists m, stored (t_vals f) i m x) <-> exists m, stored (t_vals f') i m x)) ->
  table_df fs = table_df fs'.
Proof.
  intros D T S H. apply Forall_app in S as [S S'].
  destruct fs as [|f0 fs0] eqn:E0; [destruct fs'; [reflexivity|discriminate D]|]. assert (Ne : fs <> []) by (subst fs; discriminate). rewrite <- E0 in *. clear E0 f0 fs0.
  assert (T' : Forall two_levels fs').
  { assert (E : Forall (fun p : str * list nat => length (snd p) <= 2) (map described fs')) by (rewrite <- D; apply Forall_map; exact T). rewrite Forall_map in E. exact E. }
  assert (Nm : map t_name fs = map t_name fs'). { pose proof (f_equal (map fst) D) as E. rewrite !map_map in E. exact E. }
  assert (Pl : forall k f, nth_error fs k = Some f -> exists f', nth_error fs' k = Some f' /\ t_name f' = t_name f /\ t_shape f' = t_shape f).
  { intros k f E. pose proof (f_equal (fun l => nth_error l k) D) as X. cbv beta in X. rewrite !nth_error_map, E in X. destruct (nth_error fs' k) as [f'|]; [|discriminate X]. cbn in X. injection X as X1 X2. eexists. split; [reflexivity|]. now split. }
  assert (Pl' : forall k f', nth_error fs' k = Some f' -> exists f, nth_error fs k = Some f /\ t_name f' = t_name f /\ t_shape f' = t_shape f).
  { intros k f' E. pose proof (f_equal (fun l => nth_error l k) D) as X. cbv beta in X. rewrite !nth_error_map, E in X. destruct (nth_error fs k) as [f|]; [|discriminate X]. cbn in X. injection X as X1 X2. eexists. split; [reflexivity|]. now split. }
  assert (G : forall l, Forall (fun f => t_special f = None) l -> table_df l = if has_dup (map t_name l) then Err ValueError else do d <- structured_array_to_df l; Ok (map (fun c => (column_name (fst c), snd c)) d)).
  { intros l Hl. unfold table_df. destruct (has_dup (map t_name l)) eqn:X; [unfold new_table; now rewrite X|]. destruct (new_table_plain l) as [b E]; [now apply has_dup_iff|now left|]. now rewrite E. }
  rewrite !G, Nm by assumption. destruct (has_dup _); [reflexivity|]. f_equal. unfold structured_array_to_df.
  destruct (pieces_ok fs [] (Forall_nil _) T) as (ps & -> & C & N). destruct (pieces_ok fs' [] (Forall_nil _) T') as (ps' & -> & C' & N'). cbn [rbind]. cbn [pending app] in C, C'.
  assert (X : concat ps = concat ps').
  { rewrite C, C', !flat_map_concat_map. f_equal. apply list_ext. intros k. rewrite !nth_error_map.
    assert (None_ : forall l, nth_error l k = None -> nth_error (flag false l) k = None). { intros l E. apply nth_error_None. apply nth_error_None in E. rewrite <- (flag_fst false l) in E. now rewrite map_length in E. }
    destruct (nth_error fs k) as [f|] eqn:Ef.
    2: { destruct (nth_error fs' k) as [f'|] eqn:Ef'; [destruct (Pl' _ _ Ef') as (f & X & _); congruence|]. now rewrite !None_. }
    destruct (Pl _ _ Ef) as (f' & Ef' & En & Es). destruct (flag_nth fs false k f Ef) as (e & -> & De). destruct (flag_nth fs' false k f' Ef') as (e' & -> & De'). cbn [option_map]. f_equal.
    destruct (H k f f' Ef Ef') as [H1 H2].
    assert (Ee : e = e').
    { apply eq_true_iff_eq. rewrite De, De'. unfold plain. split; intros [A B]; (split; [|destruct k; [exact B|]]); intros g Hg.
      - destruct (Pl' _ _ Hg) as (g0 & Hg0 & _ & ->). now apply A.
      - destruct (Pl' _ _ Hg) as (g0 & Hg0 & _ & ->). now apply B.
      - destruct (Pl _ _ Hg) as (g0 & Hg0 & _ & <-). now apply A.
      - destruct (Pl _ _ Hg) as (g0 & Hg0 & _ & <-). now apply B. }
    subst e'. assert (L : e || negb (plainb f) = true <-> lone fs k).
    { rewrite orb_true_iff, negb_true_iff, <- not_true_iff_false, plainb_iff, De. unfold lone. destruct k as [|k]; split.
      + intros [[A _]|A]; [right; split; [exact A|intros k' g X; discriminate X]|left; eauto].
      + intros [(f0 & E1 & E2)|[A B]]; [right; rewrite Ef in E1; injection E1 as <-; exact E2|left; auto].
      + intros [[A B]|A]; [right; split; [exact A|intros k' g [= <-]; apply B]|left; eauto].
      + intros [(f0 & E1 & E2)|[A B]]; [right; rewrite Ef in E1; injection E1 as <-; exact E2|left; split; [exact A|intros g; now apply B]]. }
    unfold colsp, cols, width. cbn [fst snd]. rewrite Es, En. unfold plainb in L. destruct (t_shape f) as [|r sh]; cbn [negb] in L.
    - rewrite orb_false_r in L. destruct e; [rewrite H1 by (now apply L); reflexivity|]. rewrite (same_raw _ _ (H2 ltac:(intros Y; apply (proj2 L) in Y; discriminate Y))). reflexivity.
    - rewrite orb_true_r in L. rewrite H1 by (now apply L). reflexivity. }
  rewrite X. destruct ps as [|p ps], ps' as [|p' ps']; try reflexivity.
  - destruct Ne. now apply N.
  - destruct N' as [_ N1]; [reflexivity|]. rewrite N1 in D. destruct fs; [now destruct Ne|discriminate D].
Qed.
Print Assumptions C66_missing_refuted.

(** ** Examples *)
(** a field without group, one in a group of two, and two without group *)
Definition i64 : ptype := TNum (DInt true 8).
Definition demo (b : bool) (sc : option (list (str * special))) : list tfield :=
  [mkT $"t" [] sc (FInts i64 [(10, b); (20, false)]%Z);
   mkT $"g, x" [2] None (FInts i64 [(1, false); (2, false); (3, b); (4, false)]%Z);
   mkT $"u" [] None (FInts i64 [(0, b); (7, false)]%Z);
   mkT $"s" [] None (FText [$"a"; $"b"])].
Lemma demo_facts b sc : demo b sc <> [] /\ NoDup (map t_name (demo b sc)) /\ Forall (fun f => quiet_name (t_name f)) (demo b sc) /\ Forall two_levels (demo b sc) /\ Forall (of_records 2) (demo b sc).
Proof.
  split; [discriminate|]. split; [repeat constructor; cbn; intuition discriminate|]. split; [repeat (apply Forall_cons; [now apply quiet_easy|]); constructor|].
  split; repeat constructor.
Qed.
Example C66_frame_meets : Forall (fun f => complete (t_vals f)) (demo false None) /\
  table_df (demo false None) = Ok [($"t", [VI 10; VI 20]); ($"g, x_0", [VI 1; VI 3]); ($"g, x_1", [VI 2; VI 4]); ($"u", [VI 0; VI 7]); ($"s", [VT $"a"; VT $"b"])].
Proof. split; [repeat (apply Forall_cons; [now apply complete_masked|]); constructor|]. vm_compute. reflexivity. Qed.
(** the 10 and 3 are missing: NaN, and columns of doubles; the missing 0 is shown as 0 *)
Example C66_missing_meets : missing (t_vals (nth 0 (demo true None) (mkT [] [] None (FText [])))) 0 /\ lone (demo true None) 0 /\ lone (demo true None) 1 /\ ~ lone (demo true None) 2 /\
  exists a b c d, table_df (demo true None) = Ok [($"t", [VR NaN; VR (Fin a)]); ($"g, x_0", [VR (Fin b); VR NaN]); ($"g, x_1", [VR (Fin c); VR (Fin d)]); ($"u", [VI 0; VI 7]); ($"s", [VT $"a"; VT $"b"])] /\
    (a == 20 /\ b == 1 /\ c == 2 /\ d == 4)%Q.
Proof.
  split; [exists (VI 10), 10%Z; split; reflexivity|]. split; [right; split; [intros g [= <-]; discriminate|discriminate]|]. split; [left; eexists; split; [reflexivity|discriminate]|].
  split. { intros [(f & [= <-] & N)|[A _]]; [now apply N|]. now apply (A _ eq_refl). }
  do 4 eexists. split; [vm_compute; reflexivity|]. repeat split; vm_compute; reflexivity.
Qed.
(** a constant 20: a value like others in a table without missing values, else missing *)
Example C66_special_meets : let sc := Some [($"missing_constant", CI 20)] in
  (exists f i, In f (demo true sc) /\ missing (t_vals f) i) /\ Forall specials_fit (demo true sc) /\
  (exists cols, table_df (demo true sc) = Ok (($"t", [VR NaN; VR NaN]) :: cols)) /\ (exists cols, table_df (demo false sc) = Ok (($"t", [VI 10; VI 20]) :: cols)).
Proof.
  cbv zeta. split; [eexists _, 0; split; [now left|]; exists (VI 10), 10%Z; split; reflexivity|]. split.
  - apply Forall_cons; [|repeat (apply Forall_cons; [intros sc E; discriminate E|]); constructor]. intros sc [= <-]. cbn [t_vals].
    assert (M : machine_int i64) by (exists true, 8%Z; split; [reflexivity|unfold numpy_int; auto]).
    split; [exact M|]. split; [repeat constructor; cbn; lia|]. intros z (k & [[= <- <-]|[]] & _). cbn. lia.
  - split; eexists; vm_compute; reflexivity.
Qed.
Example C66_constant_meets : let sc := [($"missing_constant", CI (2 ^ 63))] in
  machine_int i64 /\ special_int sc (2 ^ 63) /\ ~ int_fits i64 (2 ^ 63) /\ table_df (demo true (Some sc)) = Err TypeError /\ exists cols, table_df (demo false (Some sc)) = Ok cols.
Proof.
  cbv zeta. split; [exists true, 8%Z; split; [reflexivity|unfold numpy_int; auto]|]. split; [exists $"missing_constant"; split; [now left|intros (r & X); discriminate X]|].
  split; [cbn; lia|]. split; [reflexivity|]. eexists. vm_compute. reflexivity.
Qed.
Example C66_deep_meets : table_df [mkT $"x" [1; 1; 1] None (FText [$"a"])] = Err NotImplementedError_.
Proof. reflexivity. Qed.
(** two fields of integers, the first of them left out or 0 *)
Example C66_missing_refuted_meets : let table b := [mkT $"u" [] None (FInts i64 [(0, b)]%Z); mkT $"v" [] None (FInts i64 [(5, false)]%Z)] in
  missing (t_vals (hd (mkT [] [] None (FText [])) (table true))) 0 /\ known (t_vals (hd (mkT [] [] None (FText [])) (table false))) 0 (VI 0) /\
  ~ lone (table true) 0 /\ table_df (table true) = Ok [($"u", [VI 0]); ($"v", [VI 5])] /\ table_df (table true) = table_df (table false).
Proof.
  cbv zeta. split; [exists (VI 0), 0%Z; split; reflexivity|]. split; [exists 0%Z; split; reflexivity|]. split; [|split; reflexivity].
  intros [(f & [= <-] & N)|[A _]]; [now apply N|]. now apply (A _ eq_refl).
Qed.
