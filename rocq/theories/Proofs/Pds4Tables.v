(** Proofs about the fields of PDS4 tables (C44, C45, C63). *)
From Coq Require Import ZArith Lia.
From Verif.Base Require Import Py PyFacts.
From Verif.Model Require Import Types Scaling Pds4Types Pds4Tables.
From Verif.Spec Require Import Pds4Types Pds4Tables.
From Verif.Proofs Require Import Scaling Pds4Types Pds4Manifest.
Open Scope nat_scope.

(** ** Values in quotes *)
Lemma split_app_sep d a s : split_on d (a ++ d :: s) = split_on d a ++ split_on d s.
Proof.
  induction a as [|x a IH]; cbn [split_on app].
  - now rewrite Ascii.eqb_refl.
  - destruct (Ascii.eqb x d); rewrite IH; [reflexivity|].
    destruct (split_on d a) as [|w ws] eqn:E; [now apply split_on_nonempty in E|]. reflexivity.
Qed.
Lemma split_cons d c s w ws : c <> d -> split_on d s = w :: ws -> split_on d (c :: s) = (c :: w) :: ws.
Proof. intros N E. cbn [split_on]. destruct (Ascii.eqb_spec c d); [contradiction|]. now rewrite E. Qed.
Lemma split_snoc d c s : c <> d -> exists M z, split_on d s = M ++ [z] /\ split_on d (s ++ [c]) = M ++ [z ++ [c]].
Proof.
  intros N. induction s as [|x s (M & z & E1 & E2)].
  - exists [], []. split; [reflexivity|]. cbn [split_on app]. destruct (Ascii.eqb_spec c d); [contradiction|reflexivity].
  - cbn [split_on app]. rewrite E1, E2. destruct (Ascii.eqb x d); [exists ([] :: M), z; now split|].
    destruct M as [|w M]; cbn [app]; [exists [], (x :: z)|exists ((x :: w) :: M), z]; now split.
Qed.
Lemma split_in d s w : In w (split_on d s) -> incl w s.
Proof.
  revert w. induction s as [|x s IH]; intros w; cbn [split_on].
  - intros [<-|[]]. intros ? [].
  - destruct (Ascii.eqb x d).
    + intros [<-|H]; [intros ? []|]. apply incl_tl. now apply IH.
    + destruct (split_on d s) as [|v vs] eqn:E; [now apply split_on_nonempty in E|].
      intros [<-|H].
      * intros y [<-|Hy]; [now left|right]. apply (IH v); [now left|exact Hy].
      * apply incl_tl. apply IH. now right.
Qed.
Lemma last_quote z : last_is_quote (z ++ [QUOTE]) = true.
Proof. unfold last_is_quote. rewrite rev_app_distr. cbn [rev app]. apply Ascii.eqb_refl. Qed.
Lemma next_quote_app M v rest : Forall (fun w => ~ In QUOTE w) M -> In QUOTE v -> next_quote (M ++ v :: rest) = Some (length M).
Proof.
  intros F H. induction M as [|w M IH]; cbn [next_quote app length].
  - now rewrite (proj2 (has_char_iff _ _) H).
  - inversion F; subst. rewrite (proj2 (has_char_false QUOTE w)) by assumption. now rewrite IH.
Qed.
Lemma strip_quotes s : firstn (length (QUOTE :: s ++ [QUOTE]) - 2) (skipn 1 (QUOTE :: s ++ [QUOTE])) = s.
Proof.
  cbn [length skipn]. rewrite app_length. cbn [length]. replace (S (length s + 1) - 2) with (length s) by lia.
  rewrite firstn_app, firstn_all, Nat.sub_diag. cbn [firstn]. apply app_nil_r.
Qed.
Definition found_at (v : str) (rest : list str) : option nat :=
  if first_is_quote v
  then if has_char QUOTE (skipn 1 v) then Some 0 else match next_quote rest with Some k => Some (S k) | None => None end
  else None.
Lemma unquote_found fuel d v rest k o : found_at v rest = Some k -> last_is_quote (nth k (v :: rest) []) = true ->
  join [d] (firstn (S k) (v :: rest)) = o ->
  unquote (S fuel) d (v :: rest) = firstn (length o - 2) (skipn 1 o) :: unquote fuel d (skipn (S k) (v :: rest)).
Proof.
  intros F L <-. change (unquote (S fuel) d (v :: rest)) with
    (match found_at v rest with
      | Some k =>
          if last_is_quote (nth k (v :: rest) [])
          then let original := join [d] (firstn (S k) (v :: rest)) in
               firstn (length original - 2) (skipn 1 original) :: unquote fuel d (skipn (S k) (v :: rest))
          else v :: unquote fuel d rest
      | None => v :: unquote fuel d rest
      end).
  rewrite F, L. reflexivity.
Qed.
Lemma unquote_text d c rest fuel : d <> QUOTE -> well_formed d c -> length (split_on d (text c) ++ rest) <= fuel ->
  exists fuel', length rest <= fuel' /\ unquote fuel d (split_on d (text c) ++ rest) = value c :: unquote fuel' d rest.
Proof.
  intros Nd W Lf. destruct c as [s|s]; cbn [text value well_formed] in *.
  - destruct W as [Wd Wq]. rewrite split_on_no in * by exact Wd. cbn [app length] in *. destruct fuel as [|fuel]; [lia|].
    exists fuel. split; [lia|]. cbn [unquote]. destruct (first_is_quote s) eqn:Q; [|reflexivity].
    exfalso. apply Wq. destruct s as [|c s]; [discriminate|]. cbn [first_is_quote] in Q. apply Ascii.eqb_eq in Q. subst c. now exists s.
  - destruct fuel as [|fuel]; [rewrite app_length in Lf; pose proof (split_on_nonempty d (QUOTE :: s ++ [QUOTE])); destruct (split_on d (QUOTE :: s ++ [QUOTE])); cbn [length] in Lf; [contradiction|lia]|].
    pose proof (join_split_on d (QUOTE :: s ++ [QUOTE])) as J.
    assert (Np : forall w, In w (split_on d s) -> ~ In QUOTE w). { intros w Hw Hq. apply W. now apply (split_in d s w Hw). }
    destruct (split_snoc d QUOTE s) as (M & z & E1 & E2); [congruence|].
    destruct M as [|w M]; cbn [app] in *.
    + rewrite (split_cons d QUOTE (s ++ [QUOTE]) _ _ ltac:(congruence) E2) in *. cbn [app length] in *.
      exists fuel. split; [lia|]. cbn [unquote first_is_quote skipn]. rewrite Ascii.eqb_refl.
      assert (H : has_char QUOTE (z ++ [QUOTE]) = true) by (apply has_char_iff, in_or_app; right; now left). rewrite H.
      cbn [nth]. change (QUOTE :: z ++ [QUOTE]) with ((QUOTE :: z) ++ [QUOTE]) at 1. rewrite last_quote. cbv zeta.
      cbn [firstn]. f_equal. cbn [join] in *. injection J as J. apply app_inj_tail in J as [-> _]. apply strip_quotes.
    + rewrite (split_cons d QUOTE (s ++ [QUOTE]) _ _ ltac:(congruence) E2) in *.
      exists fuel. split; [rewrite app_length in Lf; cbn [length] in Lf; lia|].
      assert (Fw : ~ In QUOTE w) by (apply Np; rewrite E1; now left).
      assert (FM : Forall (fun v => ~ In QUOTE v) M) by (apply Forall_forall; intros v Hv; apply Np; rewrite E1; right; apply in_or_app; now left).
      cbn [app]. rewrite <- app_assoc. cbn [app].
      assert (Fd : found_at (QUOTE :: w) (M ++ (z ++ [QUOTE]) :: rest) = Some (S (length M))).
      { unfold found_at. cbn [first_is_quote]. rewrite Ascii.eqb_refl. change (skipn 1 (QUOTE :: w)) with w.
        rewrite (proj2 (has_char_false QUOTE w) Fw). rewrite next_quote_app; [reflexivity|exact FM|apply in_or_app; right; now left]. }
      assert (X : nth (S (length M)) ((QUOTE :: w) :: M ++ (z ++ [QUOTE]) :: rest) [] = z ++ [QUOTE]).
      { cbn [nth]. rewrite app_nth2, Nat.sub_diag by lia. reflexivity. }
      assert (Y : firstn (S (S (length M))) ((QUOTE :: w) :: M ++ (z ++ [QUOTE]) :: rest) = (QUOTE :: w) :: M ++ [z ++ [QUOTE]]).
      { change (firstn (S (S (length M))) ((QUOTE :: w) :: M ++ (z ++ [QUOTE]) :: rest)) with ((QUOTE :: w) :: firstn (S (length M)) (M ++ (z ++ [QUOTE]) :: rest)). f_equal.
        rewrite firstn_app. rewrite firstn_all2 by lia. f_equal. replace (S (length M) - length M) with 1 by lia. reflexivity. }
      assert (Z' : skipn (S (S (length M))) ((QUOTE :: w) :: M ++ (z ++ [QUOTE]) :: rest) = rest).
      { change (skipn (S (length M)) (M ++ (z ++ [QUOTE]) :: rest) = rest). rewrite skipn_app. rewrite skipn_all2 by lia. replace (S (length M) - length M) with 1 by lia. reflexivity. }
      etransitivity; [exact (unquote_found fuel d _ _ _ _ Fd (eq_trans (f_equal _ X) (last_quote z)) (eq_trans (f_equal _ Y) J))|].
      f_equal; [apply strip_quotes|]. f_equal. exact Z'.
Qed.
Lemma unquote_texts d cols : d <> QUOTE -> Forall (well_formed d) cols -> forall fuel, length (flat_map (fun c => split_on d (text c)) cols) <= fuel ->
  unquote fuel d (flat_map (fun c => split_on d (text c)) cols) = map value cols.
Proof.
  intros Nd. induction cols as [|c cols IH]; intros F fuel Lf; cbn [flat_map map].
  - now destruct fuel.
  - inversion F as [|? ? Hc Hcs]; subst. cbn [flat_map] in Lf. destruct (unquote_text d c _ fuel Nd Hc Lf) as (fuel' & L' & E). rewrite E. f_equal. now apply IH.
Qed.
Lemma split_record d cols : cols <> [] -> split_on d (record_text d cols) = flat_map (fun c => split_on d (text c)) cols.
Proof.
  unfold record_text. induction cols as [|c cols IH]; [contradiction|]. intros _. cbn [map flat_map].
  destruct cols as [|c' cols]; [cbn; now rewrite app_nil_r|].
  change (join [d] (text c :: map text (c' :: cols))) with (text c ++ d :: join [d] (map text (c' :: cols))).
  rewrite split_app_sep, IH by discriminate. reflexivity.
Qed.
Lemma in_join d l w : In w l -> incl w (join [d] l).
Proof.
  induction l as [|v l IH]; [intros []|]. intros [<-|H].
  - destruct l; [apply incl_refl|]. apply incl_appl, incl_refl.
  - destruct l as [|v' l]; [destruct H|]. change (join [d] (v :: v' :: l)) with (v ++ d :: join [d] (v' :: l)). apply incl_appr, incl_tl. now apply IH.
Qed.
Lemma record_values_ok d cols : d <> QUOTE -> cols <> [] -> Forall (well_formed d) cols -> record_values d (record_text d cols) = map value cols.
Proof.
  intros Nd Ne F. unfold record_values. cbv zeta. rewrite (split_record d cols Ne). destruct (has_char QUOTE (record_text d cols)) eqn:H.
  - now apply unquote_texts.
  - rewrite has_char_false in H. clear Ne.
    assert (P : forall c, In c cols -> exists s, c = Plain s).
    { intros c Hc. destruct c as [s|s]; [now exists s|]. exfalso. apply H. apply (in_join d (map text cols) (text (Quoted s))); [now apply in_map|now left]. }
    clear H. induction cols as [|c cols IH]; [reflexivity|]. inversion F as [|? ? Hc Hcs]; subst. cbn [flat_map map].
    rewrite IH; [|exact Hcs|intros; apply P; now right]. destruct (P c (or_introl eq_refl)) as [s ->]. cbn [text value well_formed] in *.
    now rewrite split_on_no.
Qed.

(** ** Records *)
Lemma split_seq_skip' sep a s : split_seq sep (length a) (a ++ s) = split_seq sep 0 s.
Proof. induction a as [|x a IH]; [reflexivity|]. exact IH. Qed.
Lemma split_seq_end rd s rest : record_end rd -> ~ occurs_in rd s -> split_seq rd 0 (s ++ rd ++ rest) = s :: split_seq rd 0 rest.
Proof.
  intros R. induction s as [|c s IH]; intros N.
  - destruct R as [-> | ->]; cbn [app split_seq startswith]; rewrite ?Ascii.eqb_refl; reflexivity.
  - assert (N' : ~ occurs_in rd s). { intros (a & b & ->). apply N. now exists (c :: a), b. }
    specialize (IH N'). cbn [app split_seq]. rewrite IH.
    destruct (startswith rd (c :: s ++ rd ++ rest)) eqn:H; [|reflexivity]. exfalso.
    apply startswith_iff in H as [t H]. destruct R as [-> | ->]; cbn [app] in H.
    + injection H as -> H. apply N. exists [], s. reflexivity.
    + destruct s as [|c' s]; cbn [app] in H.
      * injection H as -> H. discriminate.
      * injection H as -> -> H. apply N. exists [], s. reflexivity.
Qed.
Lemma split_table d rd recs rest : record_end rd -> Forall (good_record d rd) recs ->
  split_seq rd 0 (table_text d rd recs rest) = map (record_text d) recs ++ split_seq rd 0 rest.
Proof.
  intros R F. unfold table_text. induction recs as [|cols recs IH]; [reflexivity|]. inversion F as [|? ? Hc Hcs]; subst.
  cbn [map concat app]. rewrite <- !app_assoc. rewrite split_seq_end; [|exact R|apply Hc]. now rewrite IH.
Qed.

(** ** Start bytes *)
Definition pos (vals : list str) (c : nat) : nat := list_sum (map (fun v => S (length v)) (firstn c vals)).
Lemma pos_cons v vals c : pos (v :: vals) (S c) = S (length v) + pos vals c.
Proof. reflexivity. Qed.
Lemma starts_nth vals : forall z c x, c < length vals -> nth c (starts_from z vals) x = (z + Z.of_nat (pos vals c))%Z.
Proof.
  induction vals as [|v vals IH]; intros z c x L; cbn [length] in L; [lia|]. destruct c as [|c]; cbn [starts_from nth].
  - cbn. lia.
  - rewrite IH by lia. rewrite pos_cons. lia.
Qed.
Lemma starts_length vals : forall z, length (starts_from z vals) = length vals.
Proof. induction vals as [|v vals IH]; intros z; cbn [starts_from length]; [reflexivity|]. now rewrite IH. Qed.
Lemma total_pos vals : total vals = Z.of_nat (pos vals (length vals)).
Proof.
  unfold total. enough (H : forall z, fold_left (fun z v => z + Z.of_nat (length v) + 1)%Z vals z = (z + Z.of_nat (pos vals (length vals)))%Z) by (rewrite H; lia).
  induction vals as [|v vals IH]; intros z; cbn [fold_left length]; [cbn; lia|]. rewrite IH, pos_cons. lia.
Qed.
Lemma pos_S vals c v : nth_error vals c = Some v -> pos vals (S c) = pos vals c + S (length v).
Proof.
  revert c. induction vals as [|w vals IH]; intros [|c] H; try discriminate.
  - injection H as ->. cbn. lia.
  - rewrite (pos_cons w vals (S c)), (pos_cons w vals c), (IH c H). lia.
Qed.
Lemma join_skip d vals c : c < length vals -> skipn (pos vals c) (join [d] vals) = join [d] (skipn c vals).
Proof.
  revert c. induction vals as [|v vals IH]; intros c L; cbn [length] in L; [lia|]. destruct c as [|c]; [reflexivity|].
  destruct vals as [|v' vals]; [cbn [length] in L; lia|]. rewrite pos_cons.
  change (join [d] (v :: v' :: vals)) with (v ++ d :: join [d] (v' :: vals)).
  replace (S (length v) + pos (v' :: vals) c) with (length v + S (pos (v' :: vals) c)) by lia.
  rewrite skipn_app, skipn_all2 by lia. replace (length v + S (pos (v' :: vals) c) - length v) with (S (pos (v' :: vals) c)) by lia.
  cbn [skipn app]. apply IH. cbn [length] in L |- *. lia.
Qed.
Lemma join_first d v vals : firstn (length v) (join [d] (v :: vals)) = v.
Proof.
  destruct vals as [|v' vals]; [apply firstn_all|]. change (join [d] (v :: v' :: vals)) with (v ++ d :: join [d] (v' :: vals)).
  rewrite firstn_app, firstn_all, Nat.sub_diag. apply app_nil_r.
Qed.
Lemma skipn_nth {A} (l : list A) c x : nth_error l c = Some x -> skipn c l = x :: skipn (S c) l.
Proof.
  revert c. induction l as [|y l IH]; intros [|c] H; try discriminate; [now injection H as ->|]. exact (IH c H).
Qed.
Lemma column_text d vals c v : nth_error vals c = Some v ->
  zslice (Z.of_nat (pos vals c)) (Z.of_nat (pos vals (S c)) - 1) (join [d] vals) = v.
Proof.
  intros H. rewrite (pos_S _ _ _ H). replace (Z.of_nat (pos vals c + S (length v)) - 1)%Z with (Z.of_nat (pos vals c + length v)) by lia.
  rewrite zslice_nat. replace (pos vals c + length v - pos vals c) with (length v) by lia.
  rewrite join_skip by (apply nth_error_Some; congruence). rewrite (skipn_nth _ _ _ H). apply join_first.
Qed.
Lemma pos_le vals c : pos vals c <= pos vals (length vals).
Proof.
  revert c. induction vals as [|v vals IH]; intros [|c]; cbn [length]; try (cbn; lia). rewrite !pos_cons. specialize (IH c). lia.
Qed.
Lemma pos_join d vals : vals <> [] -> pos vals (length vals) = S (length (join [d] vals)).
Proof.
  induction vals as [|v vals IH]; [contradiction|]. intros _. cbn [length]. rewrite pos_cons. destruct vals as [|v' vals]; [cbn; lia|].
  rewrite IH by discriminate. change (join [d] (v :: v' :: vals)) with (v ++ d :: join [d] (v' :: vals)). rewrite app_length. cbn [length]. lia.
Qed.
Lemma record_starts_ok num junk vals : length vals = num ->
  record_starts num junk vals = Ok (map (fun c => Z.of_nat (pos vals c)) (seq 0 (num + 1))).
Proof.
  intros L. unfold record_starts. rewrite (proj2 (Nat.leb_le _ _)) by lia. f_equal. apply map_ext_in. intros c Hc. apply in_seq in Hc.
  destruct (Nat.eqb_spec c num) as [->|N]; [rewrite total_pos, L; reflexivity|]. rewrite starts_nth by lia. lia.
Qed.
Lemma value_len c : length (value c) <= length (text c).
Proof. destruct c; cbn [value text length]; [lia|rewrite app_length; lia]. Qed.
Lemma values_len d cols : length (join [d] (map value cols)) <= length (record_text d cols).
Proof.
  unfold record_text. induction cols as [|c cols IH]; [cbn; lia|]. pose proof (value_len c). destruct cols as [|c' cols]; [exact H|].
  cbn [map]. change (join [d] (value c :: value c' :: map value cols)) with (value c ++ d :: join [d] (map value (c' :: cols))).
  change (join [d] (text c :: text c' :: map text cols)) with (text c ++ d :: join [d] (map text (c' :: cols))).
  rewrite !app_length. cbn [length]. lia.
Qed.
Lemma longest_ge records r : In r records -> (Z.of_nat (length r) <= longest records)%Z.
Proof.
  unfold longest. assert (G : forall (l : list str) z, (z <= fold_left (fun z (r : str) => Z.max z (Z.of_nat (length r))) l z)%Z) by
    (induction l as [|x l IH]; intros z; cbn [fold_left]; [lia|]; specialize (IH (Z.max z (Z.of_nat (length x)))); lia).
  enough (K : forall z, (Z.of_nat (length r) <= fold_left (fun z (r : str) => Z.max z (Z.of_nat (length r))) records z)%Z \/ ~ In r records) by
    (intros H; destruct (K 0%Z); [assumption|contradiction]).
  induction records as [|x l IH]; intros z; [now right|]. cbn [fold_left].
  destruct (IH (Z.max z (Z.of_nat (length x)))) as [K|K]; [now left|]. destruct (list_eq_dec ascii_dec x r) as [->|N].
  - left. pose proof (G l (Z.max z (Z.of_nat (length r)))). lia.
  - right. intros [H|H]; contradiction.
Qed.
Lemma min_type1 z : exists t, min_type_list [z] = Ok t /\ inside t z.
Proof.
  destruct (min_type_list [z]) as [t|] eqn:E; [|discriminate]. exists t. split; [reflexivity|]. apply (min_list_inside _ _ E). now left.
Qed.
Lemma min_type1_int z t : min_type_list [z] = Ok t -> (exists s b, t = TNum (DInt s b) /\ numpy_int b) \/ t = TObj.
Proof. exact (min_list_int [z] t). Qed.
Lemma wrapped_below t y z : (exists s b, t = TNum (DInt s b) /\ numpy_int b) \/ t = TObj -> inside t z -> (0 <= y <= z)%Z -> wrapped t y = y.
Proof.
  intros T I L. apply wrap_t_id; [exact T|]. apply inside_fits in I. destruct T as [(s & b & -> & B)| ->]; [|exact Logic.I].
  cbn [int_fits] in *. unfold int_holds in *. assert (0 <= 2 ^ (8 * b - 1))%Z by (apply Z.pow_nonneg; lia). destruct s; lia.
Qed.
Lemma map_nth_firstn {A} (x : A) (v : list A) k : k <= length v -> map (fun c => nth c v x) (seq 0 k) = firstn k v.
Proof.
  revert k. induction v as [|y v IH]; intros [|k] L; cbn [length] in L; try reflexivity; [lia|]. cbn [seq map firstn nth]. f_equal. rewrite <- seq_shift, map_map. apply IH. lia.
Qed.
Lemma wrapped_byte (s : bool) y : (0 <= y <= if s then 127 else 255)%Z -> wrapped (TNum (DInt s 1)) y = y.
Proof. intros L. apply wrap_t_id; [left; exists s, 1%Z; split; [reflexivity|now left]|]. cbn [int_fits]. unfold int_holds. destruct s; [change (2 ^ (8 * 1 - 1))%Z with 128%Z|change (2 ^ (8 * 1))%Z with 256%Z]; lia. Qed.

(** ** Extraction *)
Lemma nth_error_set_none c (st : store) i : c < length st -> nth_error (set_none c st) i = if i =? c then Some None else nth_error st i.
Proof.
  unfold set_none. intros L. destruct (nth_error st c) as [x|] eqn:X; [|apply nth_error_None in X; lia]. rewrite (skipn_nth _ _ _ X).
  destruct (Nat.eqb_spec i c) as [->|N].
  - rewrite nth_error_app2 by (rewrite firstn_length; lia). rewrite firstn_length. replace (c - Nat.min c (length st)) with 0 by lia. reflexivity.
  - destruct (Nat.lt_ge_cases i c) as [C|C].
    + rewrite nth_error_app1 by (rewrite firstn_length; lia). rewrite <- (firstn_skipn c st) at 2. rewrite nth_error_app1 by (rewrite firstn_length; lia). reflexivity.
    + rewrite nth_error_app2 by (rewrite firstn_length; lia). rewrite firstn_length. replace (i - Nat.min c (length st)) with (S (i - S c)) by lia. cbn [nth_error].
      rewrite <- (firstn_skipn (S c) st) at 2. rewrite nth_error_app2 by (rewrite firstn_length; lia). rewrite firstn_length. f_equal. lia.
Qed.
Lemma set_none_length c (st : store) : length (set_none c st) = length st.
Proof.
  unfold set_none. rewrite app_length, firstn_length. pose proof (skipn_length c st). destruct (skipn c st); cbn [length] in *; lia.
Qed.
Lemma zindex_nat {A} (l : list A) i x : nth_error l i = Some x -> zindex l (Z.of_nat i) = Ok x.
Proof. intros H. unfold zindex. cbv zeta. destruct (Z.ltb_spec (Z.of_nat i) 0); [lia|]. destruct (Z.ltb_spec (Z.of_nat i) 0); [lia|]. now rewrite Nat2Z.id, H. Qed.

Section Extract.
Context (g : list item) (rows : list (list Z)) (records : list str) (t : ptype).
Let n := length (owners g).
Context (Hlen : length rows = length records).
Definition start (r c : nat) : Z := nth c (nth r rows []) 0%Z.
Definition cellval (c r : nat) : str := zslice (start r c) (wrapped t (start r (S c) - 1)) (nth r records []).
Definition col (c : nat) : column := map (fun row => nth c row 0%Z) rows.
Definition done (j c : nat) : Prop := c < n /\ nth c (owners g) 0 < j /\ (c = 0 \/ nth (c - 1) (owners g) 0 < j).
Definition St (j : nat) (st : store) : Prop :=
  length st = n + 1 /\ forall c, c <= n -> nth_error st c = Some (Some (col c)) \/ nth_error st c = Some None /\ done j c.
Lemma St_mono j st : St j st -> St (S j) st.
Proof. intros [L H]. split; [exact L|]. intros c Hc. destruct (H c Hc) as [E|[E (A & B & C)]]; [now left|right]. split; [exact E|]. repeat split; [exact A|lia|lia]. Qed.
Lemma St_none j c st : St j st -> done j c -> St j (set_none c st).
Proof.
  intros [L H] D. split; [now rewrite set_none_length|]. intros i Hi. rewrite nth_error_set_none by (destruct D; lia).
  destruct (Nat.eqb_spec i c) as [->|]; [right; now split|now apply H].
Qed.
Lemma St_some j st c : St j st -> nth_error (owners g) c = Some j -> nth_error st c = Some (Some (col c)) /\ nth_error st (S c) = Some (Some (col (S c))).
Proof.
  intros [L H] O. assert (Lc : c < n) by (unfold n; apply nth_error_Some; congruence). pose proof (nth_error_nth _ _ 0 O) as No. split.
  - destruct (H c ltac:(lia)) as [E|[_ (_ & B & _)]]; [exact E|lia].
  - destruct (H (S c) ltac:(lia)) as [E|[_ (_ & _ & [C|C])]]; [exact E|discriminate|]. cbn [Nat.sub] in C. rewrite Nat.sub_0_r in C. lia.
Qed.
Lemma cell_ok tc j st c r : St j st -> nth_error (owners g) c = Some j ->
  (match tc with Some tc => wrapped tc (Z.of_nat c + 1) = (Z.of_nat c + 1)%Z | None => True end) -> r < length records ->
  cell_at records t tc st (Z.of_nat c) r = Ok (cellval c r).
Proof.
  intros S0 O W Hr. destruct (St_some _ _ _ S0 O) as [E1 E2].
  unfold cell_at, start_at. rewrite (zindex_nat _ _ _ E1). cbn [rbind].
  assert (C1 : forall c, nth_error (col c) r = Some (start r c)).
  { intros c'. unfold col, start. rewrite nth_error_map, (nth_error_nth' _ []) by lia. reflexivity. }
  rewrite C1. cbn [rbind].
  replace (match tc with Some tc0 => wrapped tc0 (Z.of_nat c + 1) | None => (Z.of_nat c + 1)%Z end) with (Z.of_nat (S c)) by (destruct tc; [rewrite W|]; lia).
  rewrite (zindex_nat _ _ _ E2). cbn [rbind]. rewrite C1. cbn [rbind]. unfold record_at. rewrite (nth_error_nth' records ([] : str)) by lia. reflexivity.
Qed.
Lemma rmap_ok {A B} (f : A -> res B) (h : A -> B) l : (forall a, In a l -> f a = Ok (h a)) -> rmap f l = Ok (map h l).
Proof. induction l as [|a l IH]; intros H; cbn [rmap map]; [reflexivity|]. rewrite (H a (or_introl eq_refl)). cbn [rbind]. rewrite IH; [reflexivity|]. intros; apply H; now right. Qed.
Lemma cells_ok tc j st c : St j st -> nth_error (owners g) c = Some j -> (match tc with Some tc => wrapped tc (Z.of_nat c + 1) = (Z.of_nat c + 1)%Z | None => True end) ->
  forall r, In r (seq 0 (length records)) -> cell_at records t tc st (Z.of_nat c) r = Ok (cellval c r).
Proof. intros S0 O W r Hr. apply in_seq in Hr. apply (cell_ok tc j); [exact S0|exact O|exact W|lia]. Qed.
Lemma release_ok tc k columns : (forall c, In c columns <-> nth_error (owners g) c = Some k) ->
  (forall c, In c columns -> 1 <= c -> wrapped tc (Z.of_nat c - 1) = (Z.of_nat c - 1)%Z) -> (In 0 columns -> wrapped tc (0 - 1) = (-1)%Z \/ exists k, In k columns /\ Z.of_nat k = wrapped tc (0 - 1)) ->
  forall todo st, (forall c, In c todo -> In c columns) -> St (S k) st -> exists st', release tc columns todo st = Ok st' /\ St (S k) st'.
Proof.
  intros Hc W W0. induction todo as [|c todo IH]; intros st Ht' S0; cbn [release]; [now exists st|].
  assert (Ic : In c columns) by (apply Ht'; now left). pose proof (proj1 (Hc c) Ic) as O. assert (Lc : c < n) by (unfold n; apply nth_error_Some; congruence).
  pose proof (nth_error_nth _ _ 0 O) as No. cbv zeta.
  assert (Next : forall b : bool, (b = true -> done (S k) c) -> exists st', release tc columns todo (if b then set_none c st else st) = Ok st' /\ St (S k) st').
  { intros b Hb. apply IH; [intros; apply Ht'; now right|]. destruct b; [apply St_none; [exact S0|now apply Hb]|exact S0]. }
  destruct c as [|c].
  - cbn [Z.of_nat].
    assert (B : existsb (fun k0 => (Z.of_nat k0 =? wrapped tc (0 - 1))%Z) columns || (wrapped tc (0 - 1) <? 0)%Z = true).
    { destruct (W0 Ic) as [-> |(x & Ix & Ex)]; [apply orb_true_r|]. apply orb_true_iff. left. apply existsb_exists. exists x. split; [exact Ix|]. now apply Z.eqb_eq. }
    rewrite B. cbn [rbind]. apply (Next true). intros _. split; [exact Lc|]. split; [lia|now left].
  - rewrite (W (S c) Ic) by lia. replace (Z.of_nat (S c) - 1)%Z with (Z.of_nat c) by lia. destruct (Z.ltb_spec (Z.of_nat c) 0); [lia|]. rewrite orb_false_r.
    destruct (existsb (fun k0 => (Z.of_nat k0 =? Z.of_nat c)%Z) columns) eqn:X.
    + cbn [rbind]. apply (Next true). intros _. apply existsb_exists in X as (x & Ix & Ex). assert (x = c) by lia. subst x. apply Hc in Ix. apply nth_error_nth with (d := 0) in Ix.
      split; [exact Lc|]. split; [lia|]. right. cbn [Nat.sub]. rewrite Nat.sub_0_r. lia.
    + destruct S0 as [Ls Hs]. destruct (Hs c ltac:(lia)) as [E|[E D]]; rewrite (zindex_nat _ _ _ E); cbn [rbind].
      * apply (Next false). discriminate.
      * apply (Next true). intros _. destruct D as (_ & D & _). split; [exact Lc|]. split; [lia|]. right. cbn [Nat.sub]. rewrite Nat.sub_0_r. exact D.
Qed.
Lemma safe_type (mx : nat) tc : min_type_list [Z.of_nat mx] = Ok tc -> safe_last mx -> inside tc (Z.of_nat mx + 1).
Proof.
  intros E S0. replace tc with (min_int_type (Z.of_nat mx + 1) (Z.of_nat mx + 1)).
  - apply (min_list_inside [(Z.of_nat mx + 1)%Z]); [|now left]. unfold min_type_list. cbn [fold1 fold_left rbind]. do 2 f_equal. lia.
  - injection E as <-. unfold min_int_type. unfold safe_last in S0. cbv zeta in S0.
    repeat match goal with |- context [if ?b then _ else _] => destruct b eqn:? end; try reflexivity; rewrite ?andb_true_iff, ?andb_false_iff, ?Z.leb_le, ?Z.leb_gt in *; exfalso; lia.
Qed.
Lemma signed_type (mx : nat) tc : min_type_list [Z.of_nat mx] = Ok tc -> signed_last mx -> (wrapped tc (0 - 1) = -1)%Z.
Proof.
  intros E S0. injection E as <-. unfold signed_last in S0. cbv zeta in S0. unfold min_int_type.
  repeat match goal with |- context [if ?b then _ else _] => destruct b eqn:? end; try reflexivity; rewrite ?andb_true_iff, ?andb_false_iff, ?Z.leb_le, ?Z.leb_gt in *; exfalso; lia.
Qed.
Definition safe_field (k : nat) : Prop := nth_error (grouped g) k = Some true ->
  forall mx, In mx (occ 0 k (owners g)) -> (forall x, In x (occ 0 k (owners g)) -> x <= mx) -> safe_last mx /\ (nth_error (owners g) 0 = Some k -> signed_last mx).
Definition field_cells (k : nat) : list str := flat_map (fun r => map (fun c => cellval c r) (occ 0 k (owners g))) (seq 0 (length records)).
Lemma extract_ok k st : all_repeated g -> k < fields_of g -> safe_field k -> St k st ->
  let m := flatten 0 g in let f := nth k (fidx 0 g) 0 in
  exists st', extract_delimited records t st (field_offset (S (length m)) m f None) (length records) (group_shape m f) (skip_factors m f)
    = Ok (field_cells k, st') /\ St (S k) st'.
Proof.
  intros R Lk Sf S0 m f. pose proof (fidx_in g k Lk : In f (fidx 0 g)) as If. pose proof (occ_owners g k Lk : occ 0 f (cidx 0 g) = _) as Eo.
  pose proof (group_columns_ok g f R If) as Gc. fold m in Gc. rewrite Eo in Gc. pose proof (max_column_ok g f R If) as Mx. cbv zeta in Mx. fold m in Mx. rewrite Eo in Mx.
  destruct (prod_shape g f R If) as [P1 _]. fold m in P1. destruct (shape_ok g f If) as [Sh _]. fold m in Sh.
  assert (In_occ : forall c, In c (occ 0 k (owners g)) <-> nth_error (owners g) c = Some k) by (intros c; rewrite occ_in, Nat.sub_0_r; intuition lia).
  unfold extract_delimited. destruct (prod_n (group_shape m f) =? 0) eqn:Pz; [apply Nat.eqb_eq in Pz; lia|]. rewrite orb_false_r.
  destruct (length (group_shape m f) =? 0) eqn:Lz.
  - apply Nat.eqb_eq, length_zero_iff_nil in Lz. rewrite Lz in Sh. symmetry in Sh. apply map_eq_nil in Sh. set (c := field_offset (S (length m)) m f None) in *.
    assert (Oc : occ 0 k (owners g) = [c]).
    { rewrite <- Gc, Lz. unfold group_columns. cbn. destruct (skip_factors m f); cbn; f_equal; lia. }
    assert (O : nth_error (owners g) c = Some k) by (apply In_occ; rewrite Oc; now left). assert (Lc : c < n) by (unfold n; apply nth_error_Some; congruence).
    rewrite (rmap_ok (fun r => cell_at records t None st (Z.of_nat c) r) _ _ (cells_ok None k st c S0 O Logic.I)). cbn [rbind]. eexists. split; [f_equal; f_equal|].
    + unfold field_cells. rewrite Oc. cbn [map]. generalize (seq 0 (length records)) as l. induction l as [|r l IH]; [reflexivity|]. cbn [map flat_map app]. now rewrite <- IH.
    + apply St_none; [now apply St_mono|]. split; [exact Lc|]. split; [rewrite (nth_error_nth _ _ 0 O); lia|]. destruct (owner_before g k c Lk Sh O) as [|]; [now left|right; lia].
  - assert (Gr : nth_error (grouped g) k = Some true).
    { apply grouped_path; [exact Lk|]. intros E. fold f in E. rewrite E in Sh. rewrite Sh in Lz. discriminate. }
    cbv zeta. rewrite Gc. set (mx := max_column (field_offset (S (length m)) m f None) (group_shape m f) (skip_factors m f)) in *. destruct Mx as [M1 M2].
    destruct (Sf Gr mx M1 M2) as [Sl S1]. destruct (min_type1 (Z.of_nat mx)) as (tc & Etc & Itc). rewrite Etc. cbn [rbind]. pose proof (min_type1_int _ _ Etc) as Tc. pose proof (safe_type _ _ Etc Sl) as I1.
    rewrite (rmap_ok _ (fun r => map (fun c => cellval c r) (occ 0 k (owners g)))).
    2: { intros r Hr. apply rmap_ok. intros c Ic. apply (cells_ok (Some tc) k); [exact S0|now apply In_occ| |exact Hr]. apply (wrapped_below tc _ _ Tc I1). specialize (M2 c Ic). lia. }
    cbn [rbind]. destruct (release_ok tc k (occ 0 k (owners g)) In_occ) with (todo := occ 0 k (owners g)) (st := st) as (st' & Es & Ss).
    + intros c Ic Hc. apply (wrapped_below tc _ _ Tc I1). specialize (M2 c Ic). lia.
    + intros I0. left. apply (signed_type mx); [exact Etc|]. apply S1. now apply In_occ.
    + auto.
    + now apply St_mono.
    + rewrite Es. cbn [rbind]. exists st'. split; [|exact Ss]. unfold field_cells. now rewrite flat_map_concat_map.
Qed.
Lemma extract_fields_ok : all_repeated g -> forall q k st, k + q = fields_of g -> (forall j, k <= j -> safe_field j) -> St k st ->
  extract_fields (flatten 0 g) records t (length records) (skipn k (fidx 0 g)) st = Ok (map field_cells (seq k q)).
Proof.
  intros R. induction q as [|q IH]; intros k st L Sf S0.
  - rewrite skipn_all2 by (rewrite fidx_length; lia). reflexivity.
  - assert (X : nth_error (fidx 0 g) k = Some (nth k (fidx 0 g) 0)) by (apply nth_error_nth'; rewrite fidx_length; lia).
    rewrite (skipn_nth _ _ _ X). cbn [extract_fields seq map]. destruct (extract_ok k st R ltac:(lia) (Sf k ltac:(lia)) S0) as (st' & E & S1). cbv zeta in E. rewrite E. cbn [rbind fst snd].
    fold (extract_fields (flatten 0 g) records t (length records)). rewrite (IH (S k) st'); [reflexivity|lia|intros; apply Sf; lia|exact S1].
Qed.
Lemma St_start : St 0 (map (fun c => Some (map (fun row => nth c row 0%Z) rows)) (seq 0 (n + 1))).
Proof.
  split; [now rewrite map_length, seq_length|]. intros c Hc. left. rewrite nth_error_map, (nth_error_nth' _ 0) by (rewrite seq_length; lia).
  rewrite seq_nth by lia. reflexivity.
Qed.
Lemma St_any j st : St 0 st -> St j st.
Proof. intros H. induction j as [|j IH]; [exact H|now apply St_mono]. Qed.
End Extract.

(** ** Reading *)
Definition ahead (u : nat) (f : list item) : list item := repeat (Fld 0 0) u ++ f.
Lemma manifest_ahead u f : manifest u f = flatten 0 (ahead u f).
Proof. unfold manifest, ahead. induction u as [|u IH]; [reflexivity|]. cbn [repeat app]. rewrite flatten_fld, <- IH. reflexivity. Qed.
Lemma ahead_repeated u f : all_repeated f -> all_repeated (ahead u f).
Proof. intros H. apply Forall_app. split; [|exact H]. apply Forall_forall. intros x Hx. apply repeat_spec in Hx. now subst x. Qed.
Lemma ahead_fields u f : fields_of (ahead u f) = u + fields_of f.
Proof. unfold ahead. induction u as [|u IH]; [reflexivity|]. cbn [repeat app]. rewrite fields_fld, IH. reflexivity. Qed.
Lemma F2_len {A B} {R : A -> B -> Prop} {l l'} : Forall2 R l l' -> length l = length l'.
Proof. induction 1; [reflexivity|]. cbn [length]. now f_equal. Qed.
Lemma read_generic u f d rd num data junk rows t :
  all_repeated f -> (forall j, u <= j -> safe_field (ahead u f) j) ->
  let recs := firstn num (split_seq rd 0 data) in
  length recs = num -> recs <> [] -> min_type_list [(longest recs + 1)%Z] = Ok t ->
  let vss := map (record_values d) recs in
  rmap (fun p => record_starts (length (owners (ahead u f))) (fun c => junk c (fst p)) (snd p)) (enum vss) = Ok rows ->
  read_delimited u f d rd num junk data = Ok (map (field_cells (ahead u f) rows (map (join [d]) vss) t) (seq u (fields_of f))).
Proof.
  intros R Sf recs Ln Ne Et vss Er. unfold read_delimited. cbv zeta. fold recs. rewrite manifest_ahead. pose proof (ahead_repeated u f R) as Ra.
  rewrite num_columns_ok by exact Ra. fold vss. rewrite Et. cbn [rbind]. 
  destruct recs as [|r0 recs0] eqn:E; [contradiction|]. rewrite Er. cbn [rbind]. rewrite field_indices_ok.
  assert (Lr : length rows = length vss).
  { apply rmap_spec in Er. apply F2_len in Er. rewrite <- Er. unfold enum. rewrite combine_length, seq_length. lia. }
  replace num with (length (map (join [d]) vss)) by (unfold vss; rewrite !map_length; exact Ln).
  apply extract_fields_ok; [now rewrite map_length|exact Ra|now rewrite ahead_fields|exact Sf|]. apply (St_any _ _ (map (join [d]) vss)); [now rewrite map_length|]. apply (St_start _ _ (map (join [d]) vss)). now rewrite map_length.
Qed.
Lemma cellval_pos d (vals : list str) n t (records : list str) rows c r : length vals = n -> c < n -> nth r records [] = join [d] vals -> nth r rows [] = map (fun c => Z.of_nat (pos vals c)) (seq 0 (n + 1)) ->
  int_type t -> inside t (Z.of_nat (pos vals n)) -> cellval rows records t c r = nth c vals [].
Proof.
  intros Lv Lc Er Ew T I. unfold cellval, start. rewrite Er, Ew.
  assert (X : forall c, c <= n -> nth c (map (fun c => Z.of_nat (pos vals c)) (seq 0 (n + 1))) 0%Z = Z.of_nat (pos vals c)).
  { intros c' Hc. rewrite (nth_indep _ 0%Z (Z.of_nat (pos vals 0))) by (rewrite map_length, seq_length; lia). rewrite (map_nth (fun c => Z.of_nat (pos vals c))). rewrite seq_nth by lia. reflexivity. }
  rewrite !X by lia. destruct (nth_error vals c) as [v|] eqn:V; [|apply nth_error_None in V; lia]. transitivity v; [|symmetry; exact (nth_error_nth _ _ _ V)].
  rewrite (wrapped_below t _ _ T I); [now apply column_text|]. pose proof (pos_le vals (S c)) as P. rewrite Lv in P. pose proof (pos_S vals c v V). lia.
Qed.

Definition posrow (n : nat) (vals : list str) : list Z := map (fun c => Z.of_nat (pos vals c)) (seq 0 (n + 1)).
(** the values that are read from a record *)
Definition reads_as (d : ascii) (n : nat) (cols : list coltext) (eff : list str) : Prop :=
  length eff = n /\ join [d] (map value cols) = join [d] eff /\ forall junk, record_starts n junk (map value cols) = Ok (posrow n eff).
Lemma reads_exact d n cols : length cols = n -> reads_as d n cols (map value cols).
Proof. intros L. split; [now rewrite map_length|]. split; [reflexivity|]. intros junk. apply record_starts_ok. now rewrite map_length. Qed.
Lemma enum_snd {A} (l : list A) : map snd (enum l) = l.
Proof.
  unfold enum. generalize 0 as k. induction l as [|x l IH]; intros k; [reflexivity|]. cbn [length seq combine map snd]. now rewrite IH.
Qed.
Lemma rows_ok {A} (h : nat * A -> res (list Z)) (q : A -> list Z) l : (forall i a, In a l -> h (i, a) = Ok (q a)) -> rmap h (enum l) = Ok (map q l).
Proof.
  unfold enum. generalize 0 as k. induction l as [|x l IH]; intros k H; [reflexivity|]. cbn [length seq combine rmap map]. rewrite (H k x) by (now left). cbn [rbind].
  rewrite IH; [reflexivity|]. intros; apply H; now right.
Qed.
Lemma firstn_records d rd recs rest : record_end rd -> Forall (good_record d rd) recs ->
  firstn (length recs) (split_seq rd 0 (table_text d rd recs rest)) = map (record_text d) recs.
Proof.
  intros E F. rewrite split_table by assumption. rewrite firstn_app, map_length, Nat.sub_diag. cbn [firstn]. rewrite app_nil_r. rewrite <- (map_length (record_text d) recs). apply firstn_all.
Qed.
Lemma values_recs d rd recs : d <> QUOTE -> Forall (good_record d rd) recs -> map (record_values d) (map (record_text d) recs) = map (map value) recs.
Proof.
  intros Nd F. rewrite map_map. apply map_ext_in. intros cols I. rewrite Forall_forall in F. destruct (F _ I) as (Ne & W & _). now apply record_values_ok.
Qed.
Lemma read_effs u f d rd recs rest junk effs : d <> QUOTE -> record_end rd -> all_repeated f -> (forall j, u <= j -> safe_field (ahead u f) j) ->
  recs <> [] -> Forall (good_record d rd) recs -> Forall2 (reads_as d (length (owners (ahead u f)))) recs effs ->
  read_delimited u f d rd (length recs) junk (table_text d rd recs rest) = Ok (map (fun j => flat_map (fun vals => values_of j (owners (ahead u f)) vals) effs) (seq u (fields_of f))).
Proof.
  intros Nd E R Sf Ne F H2. set (g := ahead u f) in *. set (n := length (owners g)) in *.
  pose proof (firstn_records d rd recs rest E F) as Fr. destruct (min_type1 (longest (map (record_text d) recs) + 1)) as (t & Et & It). pose proof (min_type1_int _ _ Et) as T.
  pose proof (values_recs d rd recs Nd F) as Vr.
  assert (J : map (join [d]) (map (map value) recs) = map (join [d]) effs).
  { clear -H2. induction H2 as [|c e cs es (L & J & _) H2 IH]; [reflexivity|]. cbn [map]. now rewrite J, IH. }
  assert (Er : rmap (fun p => record_starts n (fun c => junk c (fst p)) (snd p)) (enum (map (map value) recs)) = Ok (map (posrow n) effs)).
  { clear -H2. unfold enum. generalize 0 as k. induction H2 as [|c e cs es (L & J & S0) H2 IH]; intros k; [reflexivity|]. cbn [map length seq combine rmap fst snd].
    rewrite S0. cbn [rbind]. specialize (IH (S k)). rewrite map_length in IH. rewrite map_length, IH. reflexivity. }
  rewrite (read_generic u f d rd (length recs) _ junk (map (posrow n) effs) t R Sf).
  - rewrite Fr, Vr, J. f_equal. apply map_ext. intros j. unfold field_cells. rewrite map_length.
    rewrite flat_map_concat_map. fold g.
    assert (X : forall r, r < length effs -> map (fun c => cellval (map (posrow n) effs) (map (join [d]) effs) t c r) (occ 0 j (owners g)) = values_of j (owners g) (nth r effs [])).
    { intros r Lr. assert (Lrec : length recs = length effs) by exact (F2_len H2).
      assert (Q : exists cols, In cols recs /\ reads_as d n cols (nth r effs [])).
      { clear -H2 Lr. revert r Lr. induction H2 as [|c e cs es Hc H2 IH]; intros r Lr; cbn [length] in Lr; [lia|]. destruct r as [|r]; [exists c; split; [now left|exact Hc]|].
        destruct (IH r ltac:(lia)) as (cols & I & Q). exists cols. split; [now right|exact Q]. }
      destruct Q as (cols & Icols & Le & Je & _). rewrite (values_of_occ j (owners g) (nth r effs []) []) by (now rewrite Le). apply map_ext_in. intros c Ic.
      assert (Lc : c < n). { apply occ_in in Ic as [_ Ic]. rewrite Nat.sub_0_r in Ic. unfold n. apply nth_error_Some. congruence. }
      apply (cellval_pos d _ n).
      - exact Le.
      - exact Lc.
      - change (@nil ascii) with (join [d] []). apply (map_nth (join [d])).
      - rewrite (nth_indep _ [] (posrow n [])) by (rewrite map_length; exact Lr). rewrite map_nth. reflexivity.
      - exact T.
      - assert (Nn : nth r effs [] <> []) by (intros Z0; rewrite Z0 in Le; cbn in Le; lia). pose proof (pos_join d _ Nn) as Pj. rewrite Le, <- Je in Pj. rewrite Pj.
        pose proof (values_len d cols) as Vl. assert (Lg : (Z.of_nat (length (record_text d cols)) <= longest (map (record_text d) recs))%Z) by (apply longest_ge; now apply in_map).
        clear - It T Vl Lg. destruct T as [(s & b & -> & B)| ->]; [|exact Logic.I]. cbn [inside] in *. destruct It as (B' & A & C). split; [exact B|]. split; [lia|intros; lia]. }
    rewrite flat_map_concat_map. f_equal. 
    transitivity (map (fun r => values_of j (owners g) (nth r effs [])) (seq 0 (length effs))); [apply map_ext_in; intros r Hr; apply in_seq in Hr; apply X; lia|].
    clear. induction effs as [|e effs IH]; [reflexivity|]. cbn [length seq map nth]. f_equal. rewrite <- seq_shift, map_map. exact IH.
  - rewrite Fr. now rewrite map_length.
  - rewrite Fr. intros X. apply map_eq_nil in X. contradiction.
  - now rewrite Fr.
  - rewrite Fr, Vr. exact Er.
Qed.

(** ** Records with one column too many *)
Lemma join_app d (a b : list str) : b <> [] -> join [d] (a ++ [join [d] b]) = join [d] (a ++ b).
Proof.
  intros Nb. induction a as [|x a IH]; cbn [app]; [reflexivity|].
  destruct (a ++ [join [d] b]) as [|y l] eqn:E; [now apply app_eq_nil in E as [_ E]|]. destruct (a ++ b) as [|z l'] eqn:E'; [apply app_eq_nil in E' as [_ E']; contradiction|].
  change (join [d] (x :: y :: l)) with (x ++ d :: join [d] (y :: l)). change (join [d] (x :: z :: l')) with (x ++ d :: join [d] (z :: l')). now rewrite IH.
Qed.
Definition merged (d : ascii) (n : nat) (vals : list str) : list str := firstn (n - 1) vals ++ [join [d] (skipn (n - 1) vals)].
Lemma pos_firstn vals vals' c : firstn c vals = firstn c vals' -> pos vals c = pos vals' c.
Proof. unfold pos. now intros ->. Qed.
Lemma reads_merged d n cols : 1 <= n -> length cols = S n -> reads_as d n cols (merged d n (map value cols)).
Proof.
  intros Hn L. set (vals := map value cols). assert (Lv : length vals = S n) by (unfold vals; now rewrite map_length).
  assert (Lm : length (merged d n vals) = n) by (unfold merged; rewrite app_length, firstn_length; cbn [length]; lia).
  assert (J : join [d] (merged d n vals) = join [d] vals).
  { unfold merged. rewrite join_app; [now rewrite firstn_skipn|]. intros E. apply (f_equal (@length str)) in E. rewrite skipn_length in E. cbn [length] in E. lia. }
  split; [exact Lm|]. split; [now symmetry|]. intros junk. unfold record_starts. rewrite (proj2 (Nat.leb_le _ _)) by (fold vals; lia). f_equal. apply map_ext_in. intros c Hc. apply in_seq in Hc. fold vals.
  destruct (Nat.eqb_spec c n) as [->|N].
  - rewrite total_pos, (pos_join d) by (intros E; rewrite E in Lv; discriminate). rewrite <- J. assert (Nm : merged d n vals <> []) by (intros E; rewrite E in Lm; cbn in Lm; lia). rewrite <- (pos_join d _ Nm), Lm. reflexivity.
  - rewrite starts_nth by lia. rewrite (pos_firstn vals (merged d n vals)); [lia|]. unfold merged. rewrite firstn_app, firstn_firstn, firstn_length.
    replace (Nat.min c (n - 1)) with c by lia. replace (c - Nat.min (n - 1) (length vals)) with 0 by lia. cbn [firstn]. now rewrite app_nil_r.
Qed.
(** ** Tables without groups *)
Lemma owners_plain f : plain_fields f -> forall k, owners_from k f = seq k (length f).
Proof.
  induction f as [|i f IH]; intros P k; [reflexivity|]. destruct (P i (or_introl eq_refl)) as (l & n & ->). rewrite owners_fld. cbn [length seq]. f_equal. apply IH. intros j Hj. apply P. now right.
Qed.
Lemma fields_plain f : plain_fields f -> fields_of f = length f.
Proof.
  induction f as [|i f IH]; intros P; [reflexivity|]. destruct (P i (or_introl eq_refl)) as (l & n & ->). rewrite fields_fld. cbn [length]. f_equal. apply IH. intros j Hj. apply P. now right.
Qed.
Lemma plain_repeated f : plain_fields f -> all_repeated f.
Proof. intros P. apply Forall_forall. intros i Hi. destruct (P i Hi) as (l & n & ->). exact Logic.I. Qed.
Lemma plain_safe f : plain_fields f -> forall j, safe_field f j.
Proof.
  intros P j H. exfalso. revert j H. induction f as [|i f IH]; intros [|j] H; try discriminate.
  - destruct (P i (or_introl eq_refl)) as (l & n & ->). discriminate.
  - destruct (P i (or_introl eq_refl)) as (l & n & ->). apply (IH (fun x Hx => P x (or_intror Hx)) j). exact H.
Qed.
Lemma values_plain {A} k n (vals : list A) x : length vals = n -> k < n -> values_of k (seq 0 n) vals = [nth k vals x].
Proof.
  intros L Lk. rewrite (values_of_occ k (seq 0 n) vals x) by (now rewrite seq_length). assert (E : occ 0 k (seq 0 n) = [k]); [|now rewrite E].
  replace n with (k + S (n - S k)) by lia. rewrite seq_app, occ_app, seq_length. cbn [seq occ Nat.add]. rewrite Nat.eqb_refl. rewrite !occ_notin; [reflexivity| |]; intros I; apply in_seq in I; lia.
Qed.
Lemma plain_columns (f : list item) (effs : list (list str)) : plain_fields f -> Forall (fun e => length e = length f) effs ->
  map (fun j => flat_map (fun vals => values_of j (owners f) vals) effs) (seq 0 (fields_of f)) = map (fun k => map (fun e => nth k e []) effs) (seq 0 (length f)).
Proof.
  intros P F. rewrite (fields_plain f P). unfold owners. rewrite (owners_plain f P). apply map_ext_in. intros k Hk. apply in_seq in Hk.
  induction F as [|e effs Le F IH]; [reflexivity|]. cbn [flat_map map]. rewrite IH, (values_plain k (length f) e []) by lia. reflexivity.
Qed.
Lemma delimiter_quote d : delimiter d -> d <> QUOTE.
Proof. intros [-> |[-> |[-> | ->]]]; discriminate. Qed.

(** ** Records with missing columns *)
Definition short_row (n : nat) (junk : nat -> Z) (vals : list str) : list Z :=
  map (fun c => if c =? n then total vals else nth c (starts_from 0 vals) (junk c)) (seq 0 (n + 1)).
Lemma short_nth n junk vals c : c <= n -> nth c (short_row n junk vals) 0%Z = if c =? n then total vals else nth c (starts_from 0 vals) (junk c).
Proof.
  intros L. unfold short_row. rewrite (nth_indep _ 0%Z ((fun c => if c =? n then total vals else nth c (starts_from 0 vals) (junk c)) 0)) by (rewrite map_length, seq_length; lia).
  rewrite (map_nth (fun c => if c =? n then total vals else nth c (starts_from 0 vals) (junk c))). rewrite seq_nth by lia. reflexivity.
Qed.
Lemma enum_map {A B} (h : A -> B) (l : list A) : enum (map h l) = map (fun p => (fst p, h (snd p))) (enum l).
Proof. unfold enum. rewrite map_length. generalize 0 as k. induction l as [|x l IH]; intros k; [reflexivity|]. cbn [length seq combine map fst snd]. now rewrite IH. Qed.
Lemma read_short u f d rd recs rest junk : d <> QUOTE -> record_end rd -> all_repeated f -> (forall j, u <= j -> safe_field (ahead u f) j) ->
  recs <> [] -> Forall (good_record d rd) recs -> let n := length (owners (ahead u f)) in Forall (fun cols => length cols <= n) recs ->
  exists t, min_type_list [(longest (map (record_text d) recs) + 1)%Z] = Ok t /\
  read_delimited u f d rd (length recs) junk (table_text d rd recs rest) =
    Ok (map (field_cells (ahead u f) (map (fun p => short_row n (fun c => junk c (fst p)) (snd p)) (enum (map (map value) recs))) (map (join [d]) (map (map value) recs)) t) (seq u (fields_of f))).
Proof.
  intros Nd E R Sf Ne F n Fl. destruct (min_type1 (longest (map (record_text d) recs) + 1)) as (t & Et & _). exists t. split; [exact Et|].
  pose proof (firstn_records d rd recs rest E F) as Fr. pose proof (values_recs d rd recs Nd F) as Vr.
  rewrite (read_generic u f d rd (length recs) _ junk (map (fun p => short_row n (fun c => junk c (fst p)) (snd p)) (enum (map (map value) recs))) t R Sf).
  - rewrite Fr, Vr. reflexivity.
  - rewrite Fr. now rewrite map_length.
  - rewrite Fr. intros X. apply map_eq_nil in X. contradiction.
  - now rewrite Fr.
  - rewrite Fr, Vr. apply rmap_ok. intros [i vals] Hi. cbn [fst snd]. unfold record_starts, short_row. fold n. rewrite (proj2 (Nat.leb_le _ _)); [reflexivity|].
    assert (I : In vals (map (map value) recs)). { rewrite <- (enum_snd (map (map value) recs)). change vals with (snd (i, vals)). now apply in_map. }
    apply in_map_iff in I as (cols & <- & I). rewrite Forall_forall in Fl. specialize (Fl _ I). rewrite map_length. lia.
Qed.
(** a column that is followed by another one *)
Lemma cellval_short d (vals : list str) n t (records : list str) rows c r junk : length vals <= n -> S c < length vals -> nth r records [] = join [d] vals -> nth r rows [] = short_row n junk vals ->
  int_type t -> inside t (Z.of_nat (pos vals (length vals))) -> cellval rows records t c r = nth c vals [].
Proof.
  intros Lv Lc Er Ew T I. unfold cellval, start. rewrite Er, Ew. rewrite !short_nth by lia.
  destruct (Nat.eqb_spec c n); [lia|]. destruct (Nat.eqb_spec (S c) n); [lia|]. rewrite !starts_nth by lia. rewrite !Z.add_0_l.
  destruct (nth_error vals c) as [v|] eqn:V; [|apply nth_error_None in V; lia]. transitivity v; [|symmetry; exact (nth_error_nth _ _ _ V)].
  rewrite (wrapped_below t _ _ T I); [now apply column_text|]. pose proof (pos_le vals (S c)) as P. pose proof (pos_S vals c v V). lia.
Qed.
Lemma record_inside d recs cols t : min_type_list [(longest (map (record_text d) recs) + 1)%Z] = Ok t -> In cols recs -> cols <> [] ->
  inside t (Z.of_nat (pos (map value cols) (length (map value cols)))).
Proof.
  intros Et I Ne. pose proof (min_type1_int _ _ Et) as T. assert (It : inside t (longest (map (record_text d) recs) + 1)) by (apply (min_list_inside _ _ Et); now left).
  rewrite (pos_join d) by (intros X; apply map_eq_nil in X; contradiction).
  pose proof (values_len d cols) as Vl. assert (Lg : (Z.of_nat (length (record_text d cols)) <= longest (map (record_text d) recs))%Z) by (apply longest_ge; now apply in_map).
  clear - It T Vl Lg. destruct T as [(s & b & -> & B)| ->]; [|exact Logic.I]. cbn [inside] in *. destruct It as (B' & A & C). split; [exact B|]. split; [lia|intros; lia].
Qed.

(** ** A group of one field, at the start *)
Lemma repeat_concat {A} (x : A) r : concat (repeat [x] r) = repeat x r.
Proof. induction r as [|r IH]; [reflexivity|]. cbn [repeat concat app]. now rewrite IH. Qed.
Lemma occ_all n f r : occ n f (repeat f r) = seq n r.
Proof. revert n. induction r as [|r IH]; intros n; cbn [repeat occ seq]; [reflexivity|]. rewrite Nat.eqb_refl. now rewrite IH. Qed.
Section FirstGroup.
Context (r : nat) (l n l' n' : Z) (F : list item).
Let g := Grp r l n [Fld l' n'] :: F.
Context (Hr : 1 <= r) (RF : all_repeated F).
Lemma first_repeated : all_repeated g.
Proof. constructor; [cbn [repeated]; auto|exact RF]. Qed.
Lemma first_owners : owners g = repeat 0 r ++ owners_from 1 F.
Proof. unfold owners, g. rewrite owners_grp, owners_fld. cbn [owners_from]. rewrite repeat_concat. reflexivity. Qed.
Lemma first_columns : occ 0 0 (owners g) = seq 0 r.
Proof.
  rewrite first_owners, occ_app, occ_all, occ_notin, app_nil_r; [reflexivity|]. intros I. apply owners_lt in I. lia.
Qed.
Lemma first_fidx : nth 0 (fidx 0 g) 0 = 1 /\ skipn 0 (fidx 0 g) = 1 :: skipn 1 (fidx 0 g).
Proof. unfold g. rewrite fidx_grp, fidx_fld. split; reflexivity. Qed.
Lemma first_extract records t st num : let m := flatten 0 g in
  extract_delimited records t st (field_offset (S (length m)) m 1 None) num (group_shape m 1) (skip_factors m 1) =
    do tc <- min_type_list [Z.of_nat (r - 1)];
    do q <- rmap (fun i => rmap (fun c => cell_at records t (Some tc) st (Z.of_nat c) i) (seq 0 r)) (seq 0 num);
    do st' <- release tc (seq 0 r) (seq 0 r) st;
    Ok (concat q, st').
Proof.
  intros m. assert (Lk : 0 < fields_of g) by (unfold g; rewrite fields_grp, fields_fld; lia). destruct first_fidx as [E1 _]. pose proof (fidx_in g 0 Lk) as If. rewrite E1 in If.
  pose proof (occ_owners g 0 Lk) as Eo. rewrite E1, first_columns in Eo.
  pose proof (group_columns_ok g 1 first_repeated If) as Gc. fold m in Gc. rewrite Eo in Gc.
  pose proof (max_column_ok g 1 first_repeated If) as Mx. cbv zeta in Mx. fold m in Mx. rewrite Eo in Mx. destruct Mx as [M1 M2].
  assert (Em : max_column (field_offset (S (length m)) m 1 None) (group_shape m 1) (skip_factors m 1) = r - 1).
  { apply in_seq in M1. specialize (M2 (r - 1) ltac:(apply in_seq; lia)). lia. }
  destruct (prod_shape g 1 first_repeated If) as [P1 _]. fold m in P1. destruct (shape_ok g 1 If) as [Sh _]. fold m in Sh.
  unfold extract_delimited. destruct (prod_n (group_shape m 1) =? 0) eqn:Pz; [apply Nat.eqb_eq in Pz; lia|]. rewrite orb_false_r.
  assert (Ls : length (group_shape m 1) =? 0 = false).
  { rewrite Sh. unfold g. rewrite path_grp. rewrite (proj2 (Nat.ltb_lt _ _)) by (cbn; lia). reflexivity. }
  rewrite Ls. cbv zeta. rewrite Gc, Em. reflexivity.
Qed.
(** reading the first field *)
Lemma first_read d rd recs rest junk : d <> QUOTE -> record_end rd -> recs <> [] -> Forall (good_record d rd) recs -> Forall (fun cols => length cols = length (owners g)) recs ->
  exists t st, min_type_list [(longest (map (record_text d) recs) + 1)%Z] = Ok t /\ St g (map (fun cols => posrow (length (owners g)) (map value cols)) recs) 0 st /\
  read_delimited 0 g d rd (length recs) junk (table_text d rd recs rest) =
    do tc <- min_type_list [Z.of_nat (r - 1)];
    do q <- rmap (fun i => rmap (fun c => cell_at (map (join [d]) (map (map value) recs)) t (Some tc) st (Z.of_nat c) i) (seq 0 r)) (seq 0 (length recs));
    do st' <- release tc (seq 0 r) (seq 0 r) st;
    do rest <- extract_fields (flatten 0 g) (map (join [d]) (map (map value) recs)) t (length recs) (skipn 1 (fidx 0 g)) st';
    Ok (concat q :: rest).
Proof.
  intros Nd E Ne G L. destruct (min_type1 (longest (map (record_text d) recs) + 1)) as (t & Et & _). exists t.
  set (N := length (owners g)) in *. set (rows := map (fun cols => posrow N (map value cols)) recs).
  exists (map (fun c => Some (map (fun row => nth c row 0%Z) rows)) (seq 0 (N + 1))). split; [exact Et|].
  split; [apply (St_start g rows (map (fun _ => []) recs)); unfold rows; now rewrite !map_length|].
  unfold read_delimited. cbv zeta. rewrite (firstn_records d rd recs rest E G). destruct (map (record_text d) recs) as [|r0 l0] eqn:Er; [apply map_eq_nil in Er; contradiction|]. rewrite <- Er.
  rewrite <- Er in Et. rewrite Et. cbn [rbind]. rewrite (values_recs d rd recs Nd G). rewrite manifest_ahead. change (ahead 0 g) with g. rewrite num_columns_ok by exact first_repeated. fold N.
  rewrite (rows_ok _ (posrow N)).
  2: { intros i a Ia. cbn [fst snd]. apply in_map_iff in Ia as (cols & <- & Ic). apply record_starts_ok. rewrite map_length. rewrite Forall_forall in L. now apply L. }
  cbn [rbind]. rewrite field_indices_ok. destruct first_fidx as [_ ->]. cbn [extract_fields].
  fold (extract_fields (flatten 0 g) (map (join [d]) (map (map value) recs)) t (length recs)). rewrite first_extract. rewrite (map_map (map value) (posrow N)). fold rows.
  destruct (min_type_list [Z.of_nat (r - 1)]) as [tc|]; cbn [rbind]; [|reflexivity].
  destruct (rmap _ (seq 0 (length recs))) as [q|]; cbn [rbind]; [|reflexivity]. destruct (release tc (seq 0 r) (seq 0 r) _) as [st'|]; cbn [rbind fst snd]; reflexivity.
Qed.
End FirstGroup.

Lemma pos_mono vals : forall a b, a <= b -> pos vals a <= pos vals b.
Proof.
  induction vals as [|v vals IH]; intros a b L; [unfold pos; now rewrite !firstn_nil|]. destruct a as [|a]; [cbn; lia|]. destruct b as [|b]; [lia|]. rewrite !pos_cons. specialize (IH a b). lia.
Qed.
Lemma pos_ge vals : forall c, c <= length vals -> c <= pos vals c.
Proof. induction vals as [|v vals IH]; intros c L; cbn [length] in L; [lia|]. destruct c as [|c]; [lia|]. rewrite pos_cons. specialize (IH c). lia. Qed.
Lemma posrow_nth n vals c : c <= n -> nth c (posrow n vals) 0%Z = Z.of_nat (pos vals c).
Proof.
  intros Hc. unfold posrow. rewrite (nth_indep _ 0%Z (Z.of_nat (pos vals 0))) by (rewrite map_length, seq_length; lia). rewrite (map_nth (fun c => Z.of_nat (pos vals c))). rewrite seq_nth by lia. reflexivity.
Qed.
(** the start bytes while nothing has been released *)
Lemma St0_start g recs n st c i cols : n = length (owners g) -> St g (map (fun cols => posrow n (map value cols)) recs) 0 st -> c <= n -> nth_error recs i = Some cols ->
  start_at st (Z.of_nat c) i = Ok (Z.of_nat (pos (map value cols) c)).
Proof.
  intros -> [L H] Hc Hi. destruct (H c Hc) as [E|[_ (_ & B & _)]]; [|lia]. unfold start_at. rewrite (zindex_nat _ _ _ E). cbn [rbind]. unfold col.
  rewrite map_map, nth_error_map, Hi. cbn [option_map]. now rewrite posrow_nth.
Qed.
Lemma cell0 g d recs t tc n st c i cols : n = length (owners g) -> St g (map (fun cols => posrow n (map value cols)) recs) 0 st -> c < n -> nth_error recs i = Some cols -> cols <> [] ->
  length cols = n -> min_type_list [(longest (map (record_text d) recs) + 1)%Z] = Ok t -> wrapped tc (Z.of_nat c + 1) = (Z.of_nat c + 1)%Z ->
  cell_at (map (join [d]) (map (map value) recs)) t (Some tc) st (Z.of_nat c) i = Ok (nth c (map value cols) []).
Proof.
  intros En S0 Hc Hi Nc Lc Et W. unfold cell_at. rewrite (St0_start g recs n st c i cols En S0 ltac:(lia) Hi). cbn [rbind]. rewrite W. replace (Z.of_nat c + 1)%Z with (Z.of_nat (S c)) by lia.
  rewrite (St0_start g recs n st (S c) i cols En S0 ltac:(lia) Hi). cbn [rbind]. unfold record_at. rewrite !nth_error_map, Hi. cbn [option_map rbind]. f_equal.
  set (vals := map value cols). assert (Lv : length vals = n) by (unfold vals; now rewrite map_length).
  destruct (nth_error vals c) as [v|] eqn:V; [|apply nth_error_None in V; lia]. transitivity v; [|symmetry; exact (nth_error_nth _ _ _ V)].
  pose proof (record_inside d recs cols t Et (nth_error_In _ _ Hi) Nc) as I. fold vals in I. rewrite (wrapped_below t _ _ (min_type1_int _ _ Et) I); [now apply column_text|].
  pose proof (pos_le vals (S c)). pose proof (pos_S vals c v V). lia.
Qed.
Lemma record_long d cols : cols <> [] -> length cols <= length (record_text d cols) + 1.
Proof.
  intros Ne. pose proof (values_len d cols) as V. assert (Nv : map value cols <> []) by (intros X; apply map_eq_nil in X; contradiction). pose proof (pos_join d _ Nv) as P.
  pose proof (pos_ge (map value cols) (length (map value cols)) ltac:(lia)) as Q. rewrite map_length in *. lia.
Qed.
