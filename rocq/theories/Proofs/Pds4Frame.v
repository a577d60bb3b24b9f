(** Proofs about the DataFrames of PDS4 tables (C66). *)
From Coq Require Import Lia QArith.
From Verif.Base Require Import Py PyFacts Val.
From Verif.Model Require Import Types Scaling Pds4Types Pds4Values.
From Verif.Spec Require Import Scaling Pds4Types Pds4Values.
From Verif.Proofs Require Import Scaling Pds4Types Pds4Fields.
From Verif.Model Require Import Pds4Tables Pds4Frame.
From Verif.Spec Require Import Pds4Frame.
From Verif.Proofs Require Import Pds4Names.
Open Scope nat_scope.

(** ** Values *)
Lemma raw_length v : length (raw v) = field_length v.
Proof. destruct v; cbn [raw field_length]; now rewrite map_length. Qed.
Lemma sanitized_length v : length (sanitized v) = field_length v.
Proof. unfold sanitized. destruct (any_masked v); [|apply raw_length]. destruct v as [[d|] l|l|l|t l|l]; cbn [raw field_length]; now rewrite map_length. Qed.
Lemma raw_stored v i x : nth_error (raw v) i = Some x <-> exists m, stored v i m x.
Proof.
  destruct v as [t l|l|l|t l|l]; cbn [raw stored]; rewrite nth_error_map; split.
  all: try (destruct (nth_error l i) as [[z m]|] eqn:E; [|discriminate]; cbn [option_map fst]; intros [= <-]; exists m, z; auto).
  all: try (intros (m & z & -> & ->); reflexivity).
  all: try (destruct (nth_error l i) as [z|] eqn:E; [|discriminate]; cbn [option_map]; intros [= <-]; exists false, z; auto).
  all: intros (m & z & -> & -> & _); reflexivity.
Qed.
Lemma stored_fun v i m m' x x' : stored v i m x -> stored v i m' x' -> m = m' /\ x = x'.
Proof.
  destruct v as [t l|l|l|t l|l]; cbn [stored].
  1-3: intros (z & E & ->) (z' & E' & ->); rewrite E in E'; injection E' as -> ->; auto.
  1-2: intros (z & E & -> & ->) (z' & E' & -> & ->); rewrite E in E'; injection E' as ->; auto.
Qed.
Lemma any_masked_iff v : any_masked v = true <-> exists i, missing v i.
Proof.
  assert (K : forall A (l : list (A * bool)), existsb snd l = true <-> exists i a, nth_error l i = Some (a, true)).
  { intros A l. rewrite existsb_exists. split.
    - intros ([a m] & H & E). cbn in E. subst m. apply In_nth_error in H as [i H]. eauto.
    - intros (i & a & H). exists (a, true). split; [eapply nth_error_In; eauto|reflexivity]. }
  unfold missing. destruct v as [t l|l|l|t l|l]; cbn [any_masked stored].
  1-3: rewrite K; split; [intros (i & a & H); eauto|intros (i & x & a & H & _); eauto].
  1-2: split; [discriminate|intros (i & x & a & _ & _ & H); discriminate H].
Qed.
Lemma complete_masked v : complete v <-> any_masked v = false.
Proof. rewrite <- not_true_iff_false, any_masked_iff. unfold complete. firstorder. Qed.
Lemma sanitized_complete v : complete v -> sanitized v = raw v.
Proof. intros C. apply complete_masked in C. unfold sanitized. now rewrite C. Qed.
Lemma sanitized_missing v i x : nth_error (sanitized v) i = Some x -> missing v i -> x = VR NaN.
Proof.
  intros E [y M]. assert (A : any_masked v = true) by (apply any_masked_iff; exists i, y; exact M). unfold sanitized in E. rewrite A in E.
  destruct v as [[d|] l|l|l|t l|l]; cbn [stored] in M; try discriminate A; destruct M as (z & H & _); rewrite nth_error_map, H in E; cbn [option_map snd] in E; now injection E as <-.
Qed.
Lemma sanitized_known v i x y : nth_error (sanitized v) i = Some x -> known v i y -> ~ complete v -> as_float v y x.
Proof.
  intros E K C. assert (A : any_masked v = true) by (destruct (any_masked v) eqn:A; [reflexivity|]; now apply complete_masked in A). unfold sanitized in E. rewrite A in E. unfold known in K.
  destruct v as [[d|] l|l|l|t l|l]; cbn [stored] in K; try discriminate A; destruct K as (z & H & ->); rewrite nth_error_map, H in E; cbn [option_map snd fst] in E; injection E as <-; cbn [as_float]; try reflexivity.
  eexists. split; [reflexivity|]. apply fconv_double.
Qed.

(** ** Pieces *)
Definition plainb (f : tfield) : bool := match t_shape f with [] => true | _ => false end.
Lemma plainb_iff f : plainb f = true <-> plain f.
Proof. unfold plainb, plain. destruct (t_shape f); split; congruence. Qed.
Definition prodr (l : list nat) : nat := fold_right Nat.mul 1 l.
Lemma prod_n_width l : prod_n l = prodr l.
Proof.
  unfold prod_n. assert (H : forall l a, fold_left Nat.mul l a = a * prodr l); [|rewrite H; lia].
  clear. induction l as [|x l IH]; intros a; cbn [fold_left prodr fold_right]; [lia|]. rewrite IH. fold (prodr l). lia.
Qed.
Definition cols (e : bool) (f : tfield) : list (str * list dfvalue) :=
  match t_shape f with
  | [] => [(t_name f, if e then sanitized (t_vals f) else raw (t_vals f))]
  | _ => map (fun p => (t_name f ++ $"_" ++ str_of_nat (fst p), snd p)) (enum (columns_of (width f) (sanitized (t_vals f))))
  end.
Definition next_plain (fs : list tfield) : bool := match fs with f :: _ => plainb f | [] => false end.
Fixpoint flag (prev : bool) (fs : list tfield) : list (tfield * bool) :=
  match fs with
  | [] => []
  | f :: fs => (f, negb prev && negb (next_plain fs)) :: flag (plainb f) fs
  end.
Definition colsp (p : tfield * bool) := cols (snd p) (fst p).
Definition pending (buf fs : list tfield) : list (str * list dfvalue) :=
  match buf with [] => [] | [b] => cols (negb (next_plain fs)) b | _ => flat_map (cols false) buf end.
Lemma plain_cols e f : plain f -> cols e f = [(t_name f, if e then sanitized (t_vals f) else raw (t_vals f))].
Proof. unfold plain, cols. now intros ->. Qed.
Lemma plain_df_pending buf : buf <> [] -> Forall plain buf -> plain_df buf = pending buf [].
Proof.
  intros Ne F. destruct buf as [|b [|c buf]]; [easy| |].
  - inversion F; subst. cbn [plain_df pending next_plain negb]. now rewrite plain_cols.
  - cbn [plain_df pending]. revert F. generalize (b :: c :: buf). intros l F. induction F as [|x l Hx F IH]; [reflexivity|]. cbn [map flat_map]. rewrite plain_cols by exact Hx. cbn [app]. f_equal. exact IH.
Qed.
Lemma pieces_ok fs : forall buf, Forall plain buf -> Forall (fun f => length (t_shape f) <= 2) fs ->
  exists ps, frame_pieces buf fs = Ok ps /\ concat ps = pending buf fs ++ flat_map colsp (flag (match buf with [] => false | _ => true end) fs) /\ (ps = [] -> buf = [] /\ fs = []).
Proof.
  induction fs as [|f fs IH]; intros buf B F.
  - cbn [frame_pieces flag flat_map]. eexists. split; [reflexivity|]. rewrite app_nil_r. destruct buf as [|b buf'] eqn:Eb; [now cbn|]. rewrite <- Eb in *. split.
    + rewrite plain_df_pending by (subst; easy). cbn [concat]. apply app_nil_r.
    + discriminate.
  - inversion F as [|? ? Hf F']; subst. cbn [frame_pieces]. destruct (plainb f) eqn:P.
    + assert (Pf : plain f) by now apply plainb_iff. unfold plain in Pf. rewrite Pf.
      destruct (IH (buf ++ [f])) as (ps & E & C & N); [apply Forall_app; auto|exact F'|]. exists ps. split; [exact E|]. split.
      * rewrite C. replace (match buf ++ [f] with [] => false | _ :: _ => true end) with true by (now destruct buf). cbn [flag flat_map]. rewrite P.
        assert (X : pending (buf ++ [f]) fs = pending buf (f :: fs) ++ colsp (f, negb (match buf with [] => false | _ :: _ => true end) && negb (next_plain fs))); [|rewrite X, <- app_assoc; reflexivity].
        destruct buf as [|b [|c buf]]; [reflexivity| |].
        -- cbn [app pending flat_map next_plain]. rewrite P. cbn [negb andb]. unfold colsp. cbn [fst snd]. now rewrite app_nil_r.
        -- cbn [app pending]. cbn [negb andb]. unfold colsp. cbn [fst snd]. change (b :: c :: buf ++ [f]) with ((b :: c :: buf) ++ [f]). rewrite flat_map_app. cbn [flat_map]. now rewrite app_nil_r.
      * intros X. destruct (N X) as [Y _]. destruct buf; discriminate Y.
    + destruct (t_shape f) as [|r sh] eqn:Sh; [unfold plainb in P; rewrite Sh in P; discriminate P|].
      assert (G : group_df f = Ok (cols true f)).
      { unfold group_df, cols. rewrite Sh. assert (H2 : (2 <? length (r :: sh)) = false) by (apply Nat.ltb_ge; exact Hf). rewrite H2. do 2 f_equal. f_equal. f_equal. unfold width. rewrite Sh. apply prod_n_width. }
      rewrite G. cbn [rbind]. destruct (IH []) as (ps & -> & C & N); [constructor|exact F'|]. cbn [rbind]. eexists. split; [reflexivity|]. split; [|destruct buf; discriminate].
      rewrite concat_app. cbn [concat]. rewrite C. cbn [flag flat_map pending app]. rewrite P. 
      assert (X : forall e, colsp (f, e) = cols true f) by (intros e; unfold colsp, cols; cbn [fst snd]; now rewrite Sh). rewrite X.
      assert (Y : concat (match buf with [] => [] | _ :: _ => [plain_df buf] end) = pending buf (f :: fs)); [|rewrite Y; reflexivity].
      destruct buf as [|b buf'] eqn:Eb; [reflexivity|]. rewrite <- Eb in *. cbn [concat]. rewrite app_nil_r, plain_df_pending by (subst; easy).
      unfold pending. cbn [next_plain]. now rewrite P.
Qed.

(** ** Columns of the whole *)
Lemma flat_map_at {A B} (g : A -> list B) (w : A -> nat) l : (forall a, In a l -> length (g a) = w a) ->
  length (flat_map g l) = list_sum (map w l) /\
  forall k a j, nth_error l k = Some a -> j < w a -> nth_error (flat_map g l) (list_sum (map w (firstn k l)) + j) = nth_error (g a) j.
Proof.
  induction l as [|x l IH]; intros H; cbn [flat_map map list_sum fold_right].
  - split; [reflexivity|]. intros [|k] a j E; discriminate E.
  - destruct IH as [IH1 IH2]; [intros; apply H; now right|]. rewrite app_length, IH1, (H x) by now left. split; [reflexivity|].
    intros [|k] a j E L; cbn [nth_error] in E.
    + injection E as ->. cbn. rewrite nth_error_app1; [reflexivity|]. rewrite H by now left. exact L.
    + cbn [firstn map list_sum fold_right]. fold (list_sum (map w (firstn k l))). rewrite nth_error_app2; rewrite (H x) by (now left); [|lia]. rewrite <- (IH2 k a j E L). f_equal. lia.
Qed.
Lemma flag_fst prev fs : map fst (flag prev fs) = fs.
Proof. revert prev. induction fs as [|f fs IH]; intros prev; cbn [flag map fst]; [reflexivity|]. now rewrite IH. Qed.
Lemma flag_nth fs : forall prev k f, nth_error fs k = Some f ->
  exists e, nth_error (flag prev fs) k = Some (f, e) /\
    (e = true <-> (forall g, nth_error fs (S k) = Some g -> ~ plain g) /\ match k with 0 => prev = false | S k' => forall g, nth_error fs k' = Some g -> ~ plain g end).
Proof.
  induction fs as [|x fs IH]; intros prev k f E; [destruct k; discriminate E|]. destruct k as [|k]; cbn [nth_error flag] in E |- *.
  - injection E as ->. eexists. split; [reflexivity|]. rewrite andb_true_iff, !negb_true_iff. assert (X : next_plain fs = false <-> forall g, nth_error fs 0 = Some g -> ~ plain g).
    { destruct fs as [|g fs]; cbn [next_plain nth_error]; [split; [intros _ g H; discriminate H|reflexivity]|]. rewrite <- not_true_iff_false, plainb_iff. split; [intros H g' [= <-]; exact H|intros H; now apply H]. }
    rewrite X. tauto.
  - destruct (IH (plainb x) k f E) as (e & He & D). exists e. split; [exact He|]. rewrite D. destruct k as [|k]; [|reflexivity]. cbn [nth_error].
    rewrite <- (not_true_iff_false (plainb x)), plainb_iff. split; intros [A B]; (split; [exact A|]); [intros g [= <-]; exact B|now apply B].
Qed.
Lemma cols_length e f : length (cols e f) = width f.
Proof.
  unfold cols, width. destruct (t_shape f) as [|r sh] eqn:S; [reflexivity|]. unfold enum, columns_of. rewrite map_length, combine_length, seq_length, map_length, seq_length. unfold width. rewrite ?S. cbn [fold_right]. lia.
Qed.
Lemma nth_error_seq s n i : i < n -> nth_error (seq s n) i = Some (s + i).
Proof. revert s i. induction n as [|n IH]; intros s i H; [lia|]. destruct i as [|i]; cbn [seq nth_error]; [f_equal; lia|]. rewrite IH by lia. f_equal. lia. Qed.
Lemma nth_error_combine {A B} (l : list A) (l' : list B) i a b : nth_error l i = Some a -> nth_error l' i = Some b -> nth_error (combine l l') i = Some (a, b).
Proof. revert l' i. induction l as [|x l IH]; intros l' i Ha Hb; [destruct i; discriminate Ha|]. destruct l' as [|y l']; [destruct i; discriminate Hb|]. destruct i as [|i]; cbn in *; [congruence|]. now apply IH. Qed.
Lemma cols_at n e f j : of_records n f -> j < width f ->
  exists col, nth_error (cols e f) j = Some (column_of (t_name f) (t_shape f) j, col) /\ length col = n /\
    forall r x, nth_error col r = Some x -> nth_error (if e || negb (plainb f) then sanitized (t_vals f) else raw (t_vals f)) (r * width f + j) = Some x.
Proof.
  intros R L. unfold of_records in R. unfold cols, column_of, plainb. destruct (t_shape f) as [|s sh] eqn:S.
  - assert (W : width f = 1) by (unfold width; now rewrite S). rewrite W in *. assert (j = 0) as -> by lia. cbn [nth_error orb negb]. rewrite orb_false_r. eexists. split; [reflexivity|]. split.
    + destruct e; [rewrite sanitized_length|rewrite raw_length]; lia.
    + intros r x. now rewrite Nat.mul_1_r, Nat.add_0_r.
  - cbn [negb]. rewrite orb_true_r. set (l := sanitized (t_vals f)). assert (Ll : length l = n * width f) by (unfold l; now rewrite sanitized_length).
    set (w := width f) in *. assert (Lw : length l / w = n) by (rewrite Ll; apply Nat.div_mul; lia).
    exists (map (fun r => nth (r * w + j) l (VI 0)) (seq 0 n)). split.
    + rewrite nth_error_map. unfold enum. rewrite (nth_error_combine _ _ j j (map (fun r => nth (r * w + j) l (VI 0)) (seq 0 n))); [reflexivity| |].
      * unfold columns_of. rewrite map_length, seq_length. now apply nth_error_seq.
      * unfold columns_of. rewrite nth_error_map, nth_error_seq by exact L. cbn [option_map Nat.add]. now rewrite Lw.
    + rewrite map_length, seq_length. split; [reflexivity|]. intros r x. rewrite nth_error_map. destruct (Nat.lt_ge_cases r n) as [Hr|Hr].
      * rewrite nth_error_seq by exact Hr. cbn [option_map Nat.add]. intros [= <-]. rewrite (nth_error_nth' l (VI 0)); [reflexivity|]. rewrite Ll. nia.
      * rewrite (proj2 (nth_error_None (seq 0 n) r)) by (rewrite seq_length; lia). discriminate.
Qed.
(** quiet names stay quiet with a number behind *)
Lemma occurs_before (p s t : str) c : p <> [] -> ~ In c p -> occurs p (s ++ c :: t) -> occurs p s \/ occurs p t.
Proof.
  intros Np Nc (a & b & E). revert a E. induction s as [|x s IH]; intros a E.
  - cbn [app] in E. destruct a as [|y a]; cbn [app] in E.
    + destruct p as [|z p]; [easy|]. injection E as -> _. destruct Nc. now left.
    + injection E as _ ->. right. now exists a, b.
  - destruct a as [|y a]; cbn [app] in E.
    + left. assert (X : exists u, x :: s = p ++ u).
      { clear IH Np. change ((x :: s) ++ c :: t = p ++ b) in E. revert p Nc E. generalize (x :: s). intros l. induction l as [|z l IH]; intros p Nc E; [cbn in E; destruct p as [|z p]; [now exists []|]; injection E as E1 _; exfalso; apply Nc; left; congruence|].
        destruct p as [|z' p]; [now exists (z :: l)|]. injection E as -> E. destruct (IH p) as [u ->]; [intros H; apply Nc; now right|exact E|]. now exists u. }
      destruct X as [u X]. exists [], u. exact X.
    + injection E as -> E. destruct (IH a E) as [(a' & b' & ->)|H]; [left; now exists (y :: a'), b'|now right].
Qed.
Lemma quiet_digits s j : quiet_name s -> quiet_name (s ++ $"_" ++ str_of_nat j).
Proof.
  intros [O T]. split.
  - cbn [app list_ascii_of_string]. intros H. apply occurs_before in H as [H|H]; [easy| |discriminate|cbn; intuition discriminate].
    destruct H as (a & b & H). assert (D : In "G"%char (str_of_nat j)) by (rewrite H; apply in_or_app; right; now left). apply digits_nat_char in D. discriminate D.
  - destruct T as [T1 T2]. split.
    + destruct s as [|c s]; [cbn; split; discriminate|exact T1].
    + intros u c E. assert (X : exists v d, str_of_nat j = v ++ [d]) by (destruct (exists_last (str_of_nat_ne j)) as (v & d & X); eauto). destruct X as (v & d & X). rewrite X in E. rewrite !app_assoc in E. apply app_inj_tail in E as [_ <-].
      assert (D : is_digit d = true) by (apply (digits_nat_char j); rewrite X; apply in_or_app; right; now left). split; intros ->; discriminate D.
Qed.
Lemma quiet_column_of name shape j : quiet_name name -> quiet_name (column_of name shape j).
Proof. unfold column_of. destruct shape; [auto|]. apply quiet_digits. Qed.
Lemma has_dup_iff l : has_dup l = false <-> NoDup l.
Proof.
  induction l as [|x l IH]; cbn [has_dup]; [split; [constructor|reflexivity]|]. rewrite orb_false_iff, IH. split.
  - intros [A B]. constructor; [|exact B]. intros H. apply str_in_iff in H. congruence.
  - intros H. inversion H; subst. split; [|assumption]. rewrite <- not_true_iff_false, str_in_iff. assumption.
Qed.

(** the DataFrame of fields without special constants, or complete ones *)
Definition cell_of_field (fs : list tfield) (k i : nat) (y : dfvalue) : Prop :=
  exists f, nth_error fs k = Some f /\
    ((lone fs k /\ nth_error (sanitized (t_vals f)) i = Some y) \/ (~ lone fs k /\ nth_error (raw (t_vals f)) i = Some y)).
Lemma sdf_frame n fs : fs <> [] -> Forall (fun f => length (t_shape f) <= 2) fs -> Forall (of_records n) fs -> Forall (fun f => quiet_name (t_name f)) fs ->
  exists d, structured_array_to_df fs = Ok d /\ frame n (map described fs) (cell_of_field fs) (map (fun c => (column_name (fst c), snd c)) d).
Proof.
  intros Ne F R Q. destruct (pieces_ok fs [] (Forall_nil _) F) as (ps & E & C & N). unfold structured_array_to_df. rewrite E. cbn [rbind].
  exists (concat ps). split; [destruct ps; [now destruct N|reflexivity]|]. cbn [pending app] in C.
  assert (K : length (concat ps) = list_sum (map width fs) /\ forall k f j, nth_error fs k = Some f -> j < width f ->
    exists e, nth_error (concat ps) (list_sum (map width (firstn k fs)) + j) = nth_error (cols e f) j /\ (e || negb (plainb f) = true <-> lone fs k)).
  { rewrite C. destruct (flat_map_at colsp (fun p => width (fst p)) (flag false fs)) as [A1 A2]; [intros [f e] _; apply cols_length|].
    assert (M : forall l : list (tfield * bool), map (fun p => width (fst p)) l = map width (map fst l)) by (intros l; now rewrite map_map).
    rewrite M, flag_fst in A1. split; [exact A1|]. intros k f j Hk L. destruct (flag_nth fs false k f Hk) as (e & He & D). exists e. split.
    - specialize (A2 k (f, e) j He L). rewrite M, <- firstn_map, flag_fst in A2. exact A2.
    - rewrite orb_true_iff, negb_true_iff, <- not_true_iff_false, plainb_iff, D. unfold lone. destruct k as [|k]; split.
      + intros [[A _]|A]; [right; split; [exact A|intros k' g H; discriminate H]|left; eauto].
      + intros [(f' & E1 & E2)|[A B]]; [right; rewrite Hk in E1; injection E1 as <-; exact E2|left; auto].
      + intros [[A B]|A]; [right; split; [exact A|intros k' g [= <-]; apply B]|left; eauto].
      + intros [(f' & E1 & E2)|[A B]]; [right; rewrite Hk in E1; injection E1 as <-; exact E2|left; split; [exact A|intros g; now apply B]]. }
  assert (Wd : forall l, map (fun p : str * list nat => columns_in (snd p)) (map described l) = map width l) by (intros l; rewrite map_map; reflexivity).
  destruct K as [K1 K2]. unfold frame. rewrite Wd. split; [now rewrite map_length|]. intros k name shape j Hk L.
  rewrite nth_error_map in Hk. destruct (nth_error fs k) as [f|] eqn:Hf; [|discriminate Hk]. injection Hk as <- <-. rename Hf into Hk. rewrite firstn_map, Wd. fold (width f) in *. destruct (K2 k f j Hk L) as (e & Ee & Le).
  pose proof (nth_error_In _ _ Hk) as Hin. rewrite Forall_forall in R, Q. destruct (cols_at n e f j (R f Hin) L) as (col & E1 & E2 & E3). exists col. split.
  - rewrite nth_error_map, Ee, E1. cbn [option_map fst snd]. rewrite quiet_column; [reflexivity|]. apply quiet_column_of. now apply Q.
  - split; [exact E2|]. intros r x H. exists f. split; [exact Hk|]. specialize (E3 r x H). destruct (e || negb (plainb f)); [left; split; [now apply Le|exact E3]|right; split; [|exact E3]].
    intros X. apply Le in X. discriminate X.
Qed.
