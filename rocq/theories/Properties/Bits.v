(** Properties C19, C20 and C21: bit columns. *)
From Verif.Base Require Import Py PyFacts Val.
From Verif.Model Require Import Types Bits.
From Verif.Spec Require Import Bits.
Open Scope nat_scope.

(** ** Binary digits *)
Lemma bits_of_S w n : bits_of (S w) n = bits_of w (n / 2) ++ [bit_char n 0].
Proof.
  unfold bits_of. cbn [seq]. rewrite <- seq_shift. cbn [rev]. rewrite <- map_rev, map_app, map_map. f_equal.
  apply map_ext. intros i. unfold bit_char. rewrite Nat2N.inj_succ, N.testbit_succ_r_div2, N.div2_div by apply N.le_0_l. reflexivity.
Qed.
Lemma bits_of_length w n : List.length (bits_of w n) = w.
Proof. unfold bits_of. now rewrite map_length, rev_length, seq_length. Qed.
Lemma bit0 n : bit_char n 0 = digit_char (n mod 2).
Proof.
  unfold bit_char. change (N.of_nat 0) with 0%N. rewrite N.bit0_odd.
  destruct (N.odd n) eqn:E.
  - replace (n mod 2)%N with 1%N; [reflexivity|]. symmetry. rewrite <- N.bit0_mod, N.bit0_odd, E. reflexivity.
  - replace (n mod 2)%N with 0%N; [reflexivity|]. symmetry. rewrite <- N.bit0_mod, N.bit0_odd, E. reflexivity.
Qed.
Lemma bits_of_0 w : bits_of w 0 = repeat "0"%char w.
Proof.
  induction w as [|w IH]; [reflexivity|]. rewrite bits_of_S. change (0 / 2)%N with 0%N. rewrite IH.
  change (bit_char 0 0) with "0"%char. clear. induction w; [reflexivity|]. cbn [repeat app]. now rewrite IHw.
Qed.
Lemma zfill_bin f : forall w n, (n < 2 ^ N.of_nat w)%N -> (n < 2 ^ N.of_nat f)%N ->
  zfill (S w) (to_base_fuel f 2 n) = bits_of (S w) n.
Proof.
  induction f as [|f IH]; intros w n Hw Hf.
  - change (2 ^ N.of_nat 0)%N with 1%N in Hf. assert (n = 0)%N by lia. subst n.
    cbn [to_base_fuel]. change (digit_char (0 mod 2)) with "0"%char. rewrite bits_of_0.
    unfold zfill. cbn [List.length]. replace (S w - 1) with w by lia.
    clear. induction w; [reflexivity|]. cbn [repeat app] in *. now rewrite IHw.
  - cbn [to_base_fuel]. rewrite bits_of_S, bit0. destruct (N.ltb_spec n 2).
    + replace (n / 2)%N with 0%N by (symmetry; now apply N.div_small). rewrite N.mod_small by assumption.
      rewrite bits_of_0. unfold zfill. cbn [List.length]. now replace (S w - 1) with w by lia.
    + destruct w as [|w]; [change (2 ^ N.of_nat 0)%N with 1%N in Hw; lia|].
      rewrite Nat2N.inj_succ, N.pow_succ_r' in Hw, Hf.
      assert (D : forall k, (n < 2 * k -> n / 2 < k)%N) by (intros k Hk; apply N.div_lt_upper_bound; lia).
      specialize (IH w (n / 2)%N (D _ Hw) (D _ Hf)). rewrite <- IH.
      unfold zfill. rewrite app_length. cbn [List.length].
      rewrite app_assoc. do 2 f_equal. f_equal. lia.
Qed.
Lemma zfill_bits w n : (n < 2 ^ N.of_nat w)%N -> 0 < w -> zfill w (bin_ n) = bits_of w n.
Proof.
  intros H Hw. destruct w as [|w]; [lia|].
  destruct (N.ltb_spec n (2 ^ N.of_nat w)).
  - apply zfill_bin; [assumption|]. rewrite N2Nat.id. apply N.size_gt.
  - (* n has exactly S w digits *)
    unfold bin_, to_base.
    assert (G : forall f w n, (2 ^ N.of_nat w <= n < 2 ^ N.of_nat (S w))%N -> (n < 2 ^ N.of_nat f)%N -> to_base_fuel f 2 n = bits_of (S w) n).
    { clear. induction f as [|f IH]; intros w n Hw Hf.
      - change (2 ^ N.of_nat 0)%N with 1%N in Hf. assert (0 < 2 ^ N.of_nat w)%N by (apply N.neq_0_lt_0, N.pow_nonzero; lia). lia.
      - cbn [to_base_fuel]. rewrite bits_of_S, bit0. destruct (N.ltb_spec n 2).
        + destruct w as [|w].
          * rewrite N.mod_small by assumption. reflexivity.
          * exfalso. rewrite Nat2N.inj_succ, N.pow_succ_r' in Hw.
            assert (0 < 2 ^ N.of_nat w)%N by (apply N.neq_0_lt_0, N.pow_nonzero; lia). lia.
        + destruct w as [|w]; [change (2 ^ N.of_nat 1)%N with 2%N in Hw; lia|].
          rewrite !Nat2N.inj_succ, !N.pow_succ_r' in Hw. rewrite Nat2N.inj_succ, N.pow_succ_r' in Hf.
          rewrite (IH w); [reflexivity| |apply N.div_lt_upper_bound; lia].
          rewrite Nat2N.inj_succ, N.pow_succ_r'. split; [apply N.div_le_lower_bound; lia|apply N.div_lt_upper_bound; lia]. }
    rewrite (G _ w) by (split; [assumption|assumption] || (rewrite N2Nat.id; apply N.size_gt)).
    unfold zfill. rewrite bits_of_length, Nat.sub_diag. reflexivity.
Qed.
Lemma bits_of_app w k x b : (b < 2 ^ N.of_nat k)%N -> bits_of (w + k) (x * 2 ^ N.of_nat k + b) = bits_of w x ++ bits_of k b.
Proof.
  revert b. induction k as [|k IH]; intros b Hb.
  - change (2 ^ N.of_nat 0)%N with 1%N in *. rewrite Nat.add_0_r. unfold bits_of at 3. cbn [seq rev map].
    rewrite app_nil_r. f_equal. lia.
  - rewrite Nat.add_succ_r, bits_of_S, (bits_of_S k). rewrite Nat2N.inj_succ, N.pow_succ_r' in *.
    replace ((x * (2 * 2 ^ N.of_nat k) + b) / 2)%N with (x * 2 ^ N.of_nat k + b / 2)%N.
    2:{ replace (x * (2 * 2 ^ N.of_nat k) + b)%N with (b + (x * 2 ^ N.of_nat k) * 2)%N by lia. rewrite N.div_add by lia. lia. }
    rewrite IH by (apply N.div_lt_upper_bound; lia). rewrite <- app_assoc. do 2 f_equal. f_equal.
    rewrite !bit0. f_equal. replace (x * (2 * 2 ^ N.of_nat k) + b)%N with (b + (x * 2 ^ N.of_nat k) * 2)%N by lia.
    now rewrite N.mod_add by lia.
Qed.
Lemma big_value_snoc bs b : big_value (bs ++ [b]) = (big_value bs * 256 + b)%N.
Proof. unfold big_value. now rewrite fold_left_app. Qed.
Lemma big_value_bound bs : Forall is_byte bs -> (big_value bs < 2 ^ N.of_nat (8 * List.length bs))%N.
Proof.
  induction bs as [|b bs IH] using rev_ind; intros H; [reflexivity|].
  apply Forall_app in H as [H1 H2]. inversion H2; subst. unfold is_byte in *. specialize (IH H1).
  rewrite big_value_snoc, app_length. cbn [List.length].
  replace (8 * (List.length bs + 1)) with (8 * List.length bs + 8) by lia.
  rewrite Nat2N.inj_add, N.pow_add_r. change (2 ^ N.of_nat 8)%N with 256%N. nia.
Qed.
Lemma bits_big bs : Forall is_byte bs -> bits_of (8 * List.length bs) (big_value bs) = bits_of_bytes bs.
Proof.
  induction bs as [|b bs IH] using rev_ind; intros H; [reflexivity|].
  apply Forall_app in H as [H1 H2]. inversion H2; subst.
  rewrite big_value_snoc, app_length. cbn [List.length].
  replace (8 * (List.length bs + 1)) with (8 * List.length bs + 8) by lia.
  change 256%N with (2 ^ N.of_nat 8)%N. rewrite bits_of_app by assumption. rewrite IH by assumption.
  unfold bits_of_bytes. rewrite flat_map_app. cbn [flat_map]. now rewrite app_nil_r.
Qed.
Lemma field_bits little bs : Forall is_byte bs -> bs <> [] ->
  zfill (8 * List.length bs) (bin_ (word_value little bs)) = bits_of_bytes (if little then rev bs else bs).
Proof.
  intros H Hn. unfold word_value. set (cs := if little then rev bs else bs).
  assert (Hc : Forall is_byte cs) by (unfold cs; destruct little; [now apply Forall_rev|assumption]).
  assert (Hl : List.length bs = List.length cs) by (unfold cs; destruct little; [now rewrite rev_length|reflexivity]).
  rewrite Hl, zfill_bits; [now apply bits_big|now apply big_value_bound|].
  destruct bs; [contradiction|]. cbn [List.length] in Hl. lia.
Qed.

(** ** C21 *)
Lemma factor_loop_spec : forall fuel ls n,
  (exists k, ls = skipn k [8; 4; 2; 1] /\ k <= 3) -> n + List.length ls + 1 < fuel ->
  exists l, factor_loop fuel ls n = Ok l /\ total l = n /\ Forall (fun x => In x ls) l /\
    (forall x y i j, i < j -> nth_error l i = Some x -> nth_error l j = Some y -> y <= x).
Proof.
  induction fuel as [|fuel IH]; intros ls n (k & Hk & Hk3) Hf; [lia|]. cbn [factor_loop].
  destruct (Nat.eqb_spec n 0) as [->|Hn].
  { exists []. split; [reflexivity|]. split; [reflexivity|]. split; [constructor|]. intros x y [|i]; discriminate. }
  destruct ls as [|l ls]; [exfalso; do 4 (destruct k as [|k]; [discriminate|]); lia|].
  assert (Hl : Forall (fun x => x <= l) ls).
  { do 4 (destruct k as [|k]; [cbn in Hk; injection Hk as -> ->; repeat constructor; lia|]). lia. }
  destruct (Nat.ltb_spec n l).
  - destruct (IH ls n) as (r & Hr & Ht & Ha & Hd).
    + destruct k as [|[|[|[|k]]]]; cbn in Hk; try (injection Hk as -> ->); try lia.
      * exists 1. split; [reflexivity|lia]. * exists 2. split; [reflexivity|lia]. * exists 3. split; [reflexivity|lia].
    + cbn [List.length] in Hf. lia.
    + exists r. split; [exact Hr|]. split; [exact Ht|]. split; [|exact Hd].
      eapply Forall_impl; [|exact Ha]. intros x Hx. now right.
  - assert (0 < l). { do 4 (destruct k as [|k]; [cbn in Hk; injection Hk as -> ->; lia|]). lia. }
    destruct (IH (l :: ls) (n - l)) as (r & Hr & Ht & Ha & Hd).
    + now exists k. + lia.
    + rewrite Hr. cbn [rbind]. exists (l :: r). split; [reflexivity|]. split; [cbn; unfold total in Ht; lia|].
      split; [constructor; [now left|exact Ha]|].
      intros x y i j Hij Hx Hy. destruct j as [|j]; [lia|]. cbn [nth_error] in Hy. destruct i as [|i].
      * injection Hx as <-. apply nth_error_In in Hy. rewrite Forall_forall in Ha. specialize (Ha _ Hy).
        destruct Ha as [->|Ha]; [lia|]. rewrite Forall_forall in Hl. now apply Hl.
      * apply (Hd x y i j); [lia|exact Hx|exact Hy].
Qed.
(** the fewest words that make up [n] bytes *)
Definition fewest (n : nat) : nat := n / 8 + nth (n mod 8) [0; 1; 1; 2; 1; 2; 2; 3] 0.
Lemma fewest_add n k : In k word_sizes -> fewest (k + n) <= 1 + fewest n.
Proof.
  intros H. unfold fewest.
  assert (E : exists r, n = 8 * (n / 8) + r /\ n mod 8 = r /\ r < 8).
  { exists (n mod 8). split; [apply Nat.div_mod; lia|]. split; [reflexivity|]. apply Nat.mod_upper_bound. lia. }
  destruct E as (r & E & Er & Hr). rewrite Er. set (q := n / 8) in *. clearbody q.
  assert (G : forall d m, d < 8 -> m = 8 * q + d -> m / 8 = q /\ m mod 8 = d).
  { intros d m Hd ->. split; [symmetry; apply (Nat.div_unique _ _ _ d); lia|symmetry; apply (Nat.mod_unique _ _ q); lia]. }
  assert (G' : forall d m, d < 8 -> m = 8 * (q + 1) + d -> m / 8 = q + 1 /\ m mod 8 = d).
  { intros d m Hd ->. split; [symmetry; apply (Nat.div_unique _ _ _ d); lia|symmetry; apply (Nat.mod_unique _ _ (q + 1)); lia]. }
  destruct (Nat.ltb_spec (k + r) 8).
  - destruct (G (k + r) (k + n)) as [-> ->]; [lia|lia|].
    cbn [word_sizes In] in H. do 8 (destruct r as [|r]; [decompose [or] H; subst; try contradiction; try lia; cbn; lia|]). lia.
  - destruct (G' (k + r - 8) (k + n)) as [-> ->]; [cbn [word_sizes In] in H; lia|lia|].
    cbn [word_sizes In] in H. do 8 (destruct r as [|r]; [decompose [or] H; subst; try contradiction; try lia; cbn; lia|]). lia.
Qed.
Lemma fewest_lower l : Forall (fun x => In x word_sizes) l -> fewest (total l) <= List.length l.
Proof.
  induction 1 as [|x l Hx Hl IH]; [reflexivity|]. cbn [total fold_right List.length]. fold (total l).
  transitivity (1 + fewest (total l)); [now apply fewest_add|]. lia.
Qed.
Lemma greedy_count : forall fuel ls n l, (exists k, ls = skipn k [8; 4; 2; 1] /\ k <= 3 /\ (k = 0 \/ n < 2 * nth 0 ls 0)) ->
  factor_loop fuel ls n = Ok l -> List.length l = fewest n.
Proof.
  induction fuel as [|fuel IH]; intros ls n l (k & Hk & Hk3 & Hb) H; [discriminate|]. cbn [factor_loop] in H.
  destruct (Nat.eqb_spec n 0) as [->|Hn]; [injection H as <-; reflexivity|].
  destruct ls as [|w ls]; [discriminate|]. destruct (Nat.ltb_spec n w).
  - apply (IH ls n l); [|exact H]. cbn [nth] in *.
    destruct k as [|[|[|[|k]]]]; try lia; cbn in Hk; injection Hk as -> ->.
    + exists 1. split; [reflexivity|]. cbn. lia. + exists 2. split; [reflexivity|]. cbn. lia. + exists 3. split; [reflexivity|]. cbn. lia. + lia.
  - destruct (factor_loop fuel (w :: ls) (n - w)) as [r|] eqn:E; [|discriminate]. cbn [rbind] in H. injection H as <-.
    cbn [List.length]. rewrite (IH (w :: ls) (n - w) r); [|cbn [nth] in *; exists k; repeat split; try assumption; lia|exact E].
    destruct k as [|k].
    + cbn in Hk. injection Hk as -> ->. unfold fewest. replace n with (n - 8 + 1 * 8) at 3 4 by lia.
      rewrite Nat.div_add, Nat.mod_add by lia. lia.
    + destruct Hb as [Hb|Hb]; [lia|]. cbn [nth] in Hb. destruct k as [|[|[|k]]]; try lia; cbn in Hk; injection Hk as -> ->.
      * do 8 (destruct n as [|n]; [try lia; reflexivity|]). lia.
      * do 8 (destruct n as [|n]; [try lia; reflexivity|]). lia.
      * do 8 (destruct n as [|n]; [try lia; reflexivity|]). lia.
Qed.
(** Any length is cut into words of 1, 2, 4 or 8 bytes that add up to it, and no
    such cut has fewer words. *)
Theorem C21_words : forall n, exists l, factor_to_dtype n = Ok l /\
  total l = n /\ Forall (fun w => In w word_sizes) l /\
  forall l', total l' = n -> Forall (fun w => In w word_sizes) l' -> List.length l <= List.length l'.
Proof.
  intros n. unfold factor_to_dtype.
  destruct (existsb (Nat.eqb n) [1; 2; 4; 8]) eqn:E.
  - apply existsb_exists in E as (x & Hx & E). apply Nat.eqb_eq in E. subst x.
    exists [n]. split; [reflexivity|]. split; [cbn; lia|]. split; [constructor; [exact Hx|constructor]|].
    intros [|y l'] Ht _; [|cbn; lia]. cbn in Ht. subst n. cbn in Hx. lia.
  - destruct (factor_loop_spec (n + 6) [8; 4; 2; 1] n) as (l & Hl & Ht & Ha & _).
    { exists 0. split; [reflexivity|lia]. } { cbn. lia. }
    exists l. split; [exact Hl|]. split; [exact Ht|]. split.
    + eapply Forall_impl; [|exact Ha]. intros x Hx. unfold word_sizes. cbn [In] in *. lia.
    + intros l' Ht' Hl'. rewrite (greedy_count _ _ _ _ (ex_intro _ 0 (conj eq_refl (conj (Nat.le_0_l 3) (or_introl eq_refl)))) Hl).
      rewrite <- Ht'. now apply fewest_lower.
Qed.
Print Assumptions C21_words.
Example C21_meets : factor_to_dtype 23 = Ok [8; 8; 4; 2; 1] /\ factor_to_dtype 4 = Ok [4].
Proof. split; reflexivity. Qed.

(** ** C19 *)
Lemma chunks_same n (col : list (list N)) : 0 < n -> Forall (fun r => List.length r = n) col ->
  forall fuel, List.length col <= fuel -> chunks fuel n (List.concat col) = col.
Proof.
  intros Hn. induction 1 as [|r col Hr Hc IH]; intros fuel Hf; [destruct fuel; reflexivity|].
  cbn [List.length] in Hf. destruct fuel as [|fuel]; [lia|]. cbn [List.concat chunks].
  assert (E : r ++ List.concat col <> []) by (destruct r; [cbn in Hr; lia|discriminate]).
  destruct (r ++ List.concat col) eqn:E2; [contradiction|]. rewrite <- E2.
  rewrite firstn_app, Hr, Nat.sub_diag, firstn_O, app_nil_r. rewrite <- Hr, firstn_all. f_equal.
  rewrite skipn_app, skipn_all, Nat.sub_diag. cbn [app skipn]. rewrite Hr. apply IH. lia.
Qed.
Lemma concat_length_same {A} n (col : list (list A)) : Forall (fun r => List.length r = n) col -> List.length (List.concat col) = List.length col * n.
Proof. induction 1 as [|r col Hr Hc IH]; [reflexivity|]. cbn [List.concat List.length]. rewrite app_length, IH. lia. Qed.
Lemma cut_concat sizes : forall bs, total sizes = List.length bs -> List.concat (cut sizes bs) = bs.
Proof.
  induction sizes as [|n sizes IH]; intros bs H; cbn [cut List.concat].
  - destruct bs; [reflexivity|discriminate].
  - cbn [total fold_right] in H. rewrite IH; [apply firstn_skipn|]. rewrite skipn_length. unfold total. lia.
Qed.
Lemma cut_sizes sizes : forall bs, total sizes = List.length bs -> map (@List.length N) (cut sizes bs) = sizes.
Proof.
  induction sizes as [|n sizes IH]; intros bs H; cbn [cut map]; [reflexivity|]. cbn [total fold_right] in H.
  rewrite firstn_length. f_equal; [lia|]. apply IH. rewrite skipn_length. unfold total. lia.
Qed.
(** the words of a field of [n] bytes *)
Definition words (n : nat) (bs : list N) : list (list N) :=
  match factor_to_dtype n with Ok l => cut l bs | Err _ => [] end.
Lemma convert_spec col little n : 0 < n -> col <> [] -> Forall (fun r => List.length r = n) col -> Forall (Forall is_byte) col ->
  convert_byte_column_to_bits col little =
    Ok (map (fun r => List.concat (map (fun w => bits_of_bytes (if little then rev w else w)) (words n r))) col).
Proof.
  intros Hn Hc Hl Hb. unfold convert_byte_column_to_bits. destruct col as [|first rest] eqn:Ec; [contradiction|].
  rewrite <- Ec in *. assert (Hf : List.length first = n) by (rewrite Ec in Hl; now inversion Hl). rewrite Hf.
  unfold words. destruct (C21_words n) as (l & -> & Ht & Ha & _). cbn [rbind].
  unfold frombuffer. fold (total l). rewrite Ht.
  destruct (Nat.eqb_spec n 0); [lia|]. rewrite (concat_length_same n) by exact Hl.
  rewrite Nat.mod_mul by lia. cbn [Nat.eqb negb rbind]. rewrite chunks_same; [|exact Hn|exact Hl|nia].
  rewrite map_map. f_equal. apply map_ext_in. intros r Hr. f_equal. apply map_ext_in. intros w Hw.
  rewrite Forall_forall in Hl, Hb. specialize (Hl r Hr). specialize (Hb r Hr).
  apply field_bits.
  - rewrite <- (cut_concat l r) in Hb by lia. clear -Hb Hw. induction (cut l r) as [|x xs IH]; [destruct Hw|].
    cbn [List.concat] in Hb. apply Forall_app in Hb as [H1 H2]. destruct Hw as [->|Hw]; [exact H1|now apply IH].
  - intros ->. apply (in_map (@List.length N)) in Hw. rewrite cut_sizes in Hw by lia. cbn in Hw.
    rewrite Forall_forall in Ha. specialize (Ha _ Hw). cbn in Ha. lia.
Qed.
Lemma bits_of_bytes_concat ws : List.concat (map bits_of_bytes ws) = bits_of_bytes (List.concat ws).
Proof. unfold bits_of_bytes. induction ws as [|w ws IH]; [reflexivity|]. cbn. now rewrite flat_map_app, IH. Qed.
Lemma bits_of_bytes_length bs : List.length (bits_of_bytes bs) = 8 * List.length bs.
Proof.
  unfold bits_of_bytes. induction bs as [|b bs IH]; [reflexivity|]. cbn [flat_map List.length].
  rewrite app_length, IH, bits_of_length. lia.
Qed.
Lemma words_concat n bs : List.length bs = n -> List.concat (words n bs) = bs.
Proof. intros H. unfold words. destruct (C21_words n) as (l & -> & Ht & _). apply cut_concat. lia. Qed.
(** Big-endian columns: each row is its bytes, eight digits each. *)
Theorem C19_big : forall col n, 0 < n -> col <> [] ->
  Forall (fun r => List.length r = n) col -> Forall (Forall is_byte) col ->
  convert_byte_column_to_bits col false = Ok (map bits_of_bytes col).
Proof.
  intros col n Hn Hc Hl Hb. rewrite (convert_spec col false n) by assumption. f_equal.
  apply map_ext_in. intros r Hr. rewrite Forall_forall in Hl.
  rewrite bits_of_bytes_concat. now rewrite words_concat by now apply Hl.
Qed.
Print Assumptions C19_big.
(** Little-endian columns of 1, 2, 4 or 8 bytes: the digits of the stored integer. *)
Lemma little_value_big bs : little_value bs = big_value (rev bs).
Proof. induction bs as [|b bs IH]; [reflexivity|]. cbn [little_value rev]. rewrite big_value_snoc, <- IH. lia. Qed.
Theorem C19_little : forall col n, In n word_sizes -> col <> [] ->
  Forall (fun r => List.length r = n) col -> Forall (Forall is_byte) col ->
  convert_byte_column_to_bits col true = Ok (map (fun r => bits_of (8 * n) (little_value r)) col).
Proof.
  intros col n Hn Hc Hl Hb. assert (0 < n) by (cbn in Hn; lia).
  rewrite (convert_spec col true n) by assumption. f_equal.
  apply map_ext_in. intros r Hr. rewrite Forall_forall in Hl, Hb. specialize (Hl r Hr). specialize (Hb r Hr).
  rewrite little_value_big, <- Hl, <- (rev_length r), bits_big by now apply Forall_rev.
  unfold words, factor_to_dtype. rewrite rev_length, Hl.
  assert (E : existsb (Nat.eqb n) [1; 2; 4; 8] = true).
  { apply existsb_exists. exists n. split; [exact Hn|apply Nat.eqb_refl]. }
  rewrite E. cbn [cut map List.concat]. rewrite app_nil_r, firstn_all2 by lia. reflexivity.
Qed.
Print Assumptions C19_little.
(** The length is always eight digits per byte. *)
Theorem C19_length : forall col n little rows, 0 < n -> col <> [] ->
  Forall (fun r => List.length r = n) col -> Forall (Forall is_byte) col ->
  convert_byte_column_to_bits col little = Ok rows ->
  List.length rows = List.length col /\ Forall (fun s => List.length s = 8 * n) rows.
Proof.
  intros col n little rows Hn Hc Hl Hb H. rewrite (convert_spec col little n) in H by assumption. injection H as <-.
  split; [apply map_length|]. rewrite Forall_forall in *. intros s Hs. apply in_map_iff in Hs as (r & <- & Hr).
  transitivity (8 * List.length (List.concat (words n r))); [|rewrite words_concat by (now apply Hl); now rewrite (Hl r Hr)].
  induction (words n r) as [|w ws IH]; [reflexivity|]. cbn [map List.concat].
  rewrite !app_length, IH, bits_of_bytes_length. destruct little; rewrite ?rev_length; lia.
Qed.
Print Assumptions C19_length.
Example C19_meets :
  convert_byte_column_to_bits [[1; 2; 255]%N; [128; 0; 7]%N] false =
    Ok [$"000000010000001011111111"; $"100000000000000000000111"] /\
  convert_byte_column_to_bits [[1; 2]%N] true = Ok [$"0000001000000001"].
Proof. split; reflexivity. Qed.
(** Little-endian columns of every other width are scrambled: the words are
    reversed one by one, so no width outside 1, 2, 4, 8 is right for all contents. *)
Theorem C19_little_refuted : forall n, 0 < n -> ~ In n word_sizes ->
  exists row rows, List.length row = n /\ Forall is_byte row /\
    convert_byte_column_to_bits [row] true = Ok rows /\ rows <> [bits_of (8 * n) (little_value row)].
Proof.
  intros n Hn Hw. set (row := 1%N :: repeat 0%N (n - 1)).
  assert (Hl : List.length row = n) by (cbn [row List.length]; rewrite repeat_length; lia).
  assert (Hb : Forall is_byte row).
  { constructor; [reflexivity|]. apply Forall_forall. intros x Hx. apply repeat_spec in Hx. exact Hx || (rewrite Hx; reflexivity). }
  exists row. eexists. split; [exact Hl|]. split; [exact Hb|].
  split; [apply (convert_spec [row] true n); auto; discriminate|]. cbn [map].
  match goal with |- [?a] <> [?b] => cut (a <> b); [intros HH E; apply HH; congruence|] end.
  intros E. rewrite little_value_big in E. replace (8 * n) with (8 * List.length (rev row)) in E by (rewrite rev_length; lia).
  rewrite bits_big in E by now apply Forall_rev.
  unfold words in E. destruct (C21_words n) as (l & Hf & Ht & Ha & _). rewrite Hf in E.
  assert (Hll : exists w1 w2 l', l = w1 :: w2 :: l' /\ 0 < w1 /\ 0 < w2).
  { destruct l as [|w1 [|w2 l']].
    - cbn in Ht. lia.
    - exfalso. apply Hw. cbn in Ht. inversion Ha as [|? ? H1 H2]. rewrite <- Ht, Nat.add_0_r. exact H1.
    - exists w1, w2, l'. inversion Ha as [|? ? H1 H2]. inversion H2 as [|? ? H3 H4]. cbn in H1, H3.
      repeat split; lia. }
  destruct Hll as (w1 & w2 & l' & -> & Hw1 & Hw2).
  (* last digit: 1 on the right, 0 on the left *)
  assert (R : last (bits_of_bytes (rev row)) "x"%char = "1"%char).
  { unfold row. cbn [rev]. unfold bits_of_bytes. rewrite flat_map_app. cbn [flat_map]. rewrite app_nil_r.
    change (bits_of 8 1) with ($"0000000" ++ $"1"). rewrite app_assoc. apply last_last. }
  assert (L : forall m z, Forall (fun b => b = 0%N) z -> z <> [] -> last (m ++ bits_of_bytes z) "x"%char = "0"%char).
  { clear. intros m z Hz Hne. destruct z as [|b z _] using rev_ind; [contradiction|].
    apply Forall_app in Hz as [_ Hz]. inversion Hz; subst. unfold bits_of_bytes. rewrite flat_map_app. cbn [flat_map].
    rewrite app_nil_r. change (bits_of 8 0) with ($"0000000" ++ $"0"). rewrite !app_assoc. apply last_last. }
  assert (G : forall sizes z m, sizes <> [] -> Forall (fun x => 0 < x) sizes -> total sizes = List.length z -> Forall (fun b => b = 0%N) z ->
    last (m ++ List.concat (map (fun w => bits_of_bytes (rev w)) (cut sizes z))) "x"%char = "0"%char).
  { clear -L. induction sizes as [|s sizes IH]; intros z m Hne Hp Ht Hz; [contradiction|].
    cbn [cut map List.concat]. inversion Hp; subst. cbn [total fold_right] in Ht. destruct sizes as [|s2 sizes].
    - cbn [cut map List.concat]. rewrite app_nil_r. apply L.
      + apply Forall_rev. rewrite <- (firstn_skipn s z) in Hz. now apply Forall_app in Hz.
      + intros E. apply (f_equal (@List.length N)) in E. rewrite rev_length, firstn_length in E. cbn in E, Ht. lia.
    - rewrite app_assoc. apply IH; [discriminate|assumption| |].
      + rewrite skipn_length. unfold total. lia.
      + rewrite <- (firstn_skipn s z) in Hz. now apply Forall_app in Hz. }
  cbn [cut map List.concat] in E.
  assert (Hsk : Forall (fun b => b = 0%N) (skipn w1 row)).
  { destruct w1 as [|w1]; [lia|]. unfold row. cbn [skipn]. apply Forall_forall. intros x Hx.
    assert (In x (repeat 0%N (n - 1))) by (rewrite <- (firstn_skipn w1); apply in_or_app; now right). now apply repeat_spec in H. }
  assert (F : last (bits_of_bytes (rev (firstn w1 row)) ++
    List.concat (map (fun w => bits_of_bytes (rev w)) (cut (w2 :: l') (skipn w1 row)))) "x"%char = "0"%char).
  { apply G; [discriminate| | |exact Hsk].
    - inversion Ha as [|? ? H1 H2]. eapply Forall_impl; [|exact H2]. intros a Ha'. cbn in Ha'. lia.
    - rewrite skipn_length. cbn [total fold_right] in Ht |- *. lia. }
  cbn [cut map List.concat] in F. rewrite E in F. congruence.
Qed.
Print Assumptions C19_little_refuted.

(** ** C20 *)
Lemma zslice_piece {A} (bits : list A) s n : (1 <= s)%Z -> (0 <= n)%Z -> (s - 1 + n <= Z.of_nat (List.length bits))%Z ->
  zslice (s - 1) (s - 1 + n) bits = firstn (Z.to_nat n) (skipn (Z.to_nat (s - 1)) bits).
Proof.
  intros H1 H2 H3. unfold zslice, norm_index.
  destruct (Z.ltb_spec (s - 1) 0); [lia|]. destruct (Z.ltb_spec (s - 1 + n) 0); [lia|].
  rewrite !Z.min_l by lia. f_equal. lia.
Qed.
Lemma nth_error_skipn' {A} (l : list A) a j : nth_error (skipn a l) j = nth_error l (a + j).
Proof. revert l; induction a as [|a IH]; intros l; [reflexivity|]. destruct l; cbn; [now destruct j|apply IH]. Qed.
Lemma nth_error_firstn' {A} (l : list A) n j : j < n -> nth_error (firstn n l) j = nth_error l j.
Proof. revert l j; induction n as [|n IH]; intros l j H; [lia|]. destruct l, j; try reflexivity. cbn. apply IH. lia. Qed.
Lemma piece_spec {A} (bits : list A) s n : (1 <= s)%Z -> (0 <= n)%Z -> (s - 1 + n <= Z.of_nat (List.length bits))%Z ->
  piece_is bits s n (zslice (s - 1) (s - 1 + n) bits).
Proof.
  intros H1 H2 H3. rewrite zslice_piece by assumption. split.
  - rewrite firstn_length, skipn_length. lia.
  - intros j Hj. rewrite nth_error_firstn' by lia. rewrite nth_error_skipn'. f_equal. lia.
Qed.
Lemma split_bits_map {A} (bits : list A) defs :
  split_bits bits (map (fun v => v - 1)%Z (map fst defs)) (map snd defs) =
  map (fun d => zslice (fst d - 1) (fst d - 1 + snd d) bits) defs.
Proof. unfold split_bits. induction defs as [|d defs IH]; [reflexivity|]. cbn [map combine fst snd]. now rewrite IH. Qed.
(** Each definition gives the bits it names. *)
Theorem C20_pieces : forall (A : Type) (bits : list A) defs,
  Forall (fun d => 1 <= fst d /\ 0 <= snd d /\ fst d - 1 + snd d <= Z.of_nat (List.length bits))%Z defs ->
  Forall2 (fun d p => piece_is bits (fst d) (snd d) p) defs
    (split_bits bits (map (fun v => v - 1)%Z (map fst defs)) (map snd defs)).
Proof.
  intros A bits defs H. rewrite split_bits_map. induction H as [|d defs (H1 & H2 & H3) _ IH]; cbn [map]; constructor; [|exact IH].
  now apply piece_spec.
Qed.
Print Assumptions C20_pieces.
(** Definitions that tile the column give back the whole bit string. *)
Lemma tiles_le z defs e : tiles z defs e -> (z <= e)%Z.
Proof. induction 1; lia. Qed.
Theorem C20_tiling : forall (A : Type) (bits : list A) defs, tiles 1 defs (1 + Z.of_nat (List.length bits)) ->
  List.concat (split_bits bits (map (fun v => v - 1)%Z (map fst defs)) (map snd defs)) = bits.
Proof.
  intros A bits defs H. rewrite split_bits_map.
  assert (G : forall z e, (1 <= z)%Z -> e = (1 + Z.of_nat (List.length bits))%Z -> tiles z defs e ->
    List.concat (map (fun d => zslice (fst d - 1) (fst d - 1 + snd d) bits) defs) = skipn (Z.to_nat (z - 1)) bits).
  { clear H. intros z e Hz He H. revert Hz He. induction H as [z|z n l e Hn Ht IH]; intros Hz He.
    - cbn. rewrite skipn_all2; [reflexivity|lia].
    - cbn [map List.concat fst snd]. rewrite IH by lia. apply tiles_le in Ht.
      rewrite zslice_piece by lia. replace (Z.to_nat (z + n - 1)) with (Z.to_nat (z - 1) + Z.to_nat n) by lia.
      transitivity (firstn (Z.to_nat n) (skipn (Z.to_nat (z - 1)) bits) ++ skipn (Z.to_nat n) (skipn (Z.to_nat (z - 1)) bits)); [|apply firstn_skipn].
      f_equal. clear. generalize (Z.to_nat (z - 1)) (Z.to_nat n). intros a b. revert bits.
      induction a as [|a IH]; intros bits; [reflexivity|]. destruct bits; [now rewrite !skipn_nil|]. cbn. apply IH. }
  rewrite (G 1%Z (1 + Z.of_nat (List.length bits))%Z); [reflexivity|lia|reflexivity|exact H].
Qed.
Print Assumptions C20_tiling.
(** Reading the label: every BIT_COLUMN contributes its piece, or its ITEMS pieces
    at consecutive positions, in order. *)
Theorem C20_label : forall instrument cols defs,
  cols <> [] -> instrument <> [] -> (forall a b, $"JOVIAN INFRARED AURORAL MAPPER" <> a ++ instrument ++ b) ->
  Forall2 bit_column cols defs ->
  get_bit_start_and_size instrument cols =
    Ok (map (fun d => PInt (fst d)) (List.concat defs), map (fun d => PInt (snd d)) (List.concat defs)).
Proof.
  intros instrument cols defs Hc Hi Hj H. unfold get_bit_start_and_size.
  assert (E : rmap bit_column_positions cols =
    Ok (map (fun ds => (map (fun d => PInt (fst d)) ds, map (fun d => PInt (snd d)) ds)) defs)).
  { clear -H. induction H as [|m ds cols defs Hm _ IH]; [reflexivity|]. cbn [rmap map].
    assert (Em : bit_column_positions m = Ok (map (fun d => PInt (fst d)) ds, map (fun d => PInt (snd d)) ds)).
    { unfold bit_column_positions, get_. inversion Hm as [s n H1 H2 H3|k s n Hk H1 H2 H3]; subst.
      - destruct H1 as [-> | ->]; cbn [truthy_ Z.eqb negb]; now rewrite H2, H3.
      - rewrite H1, H2, H3. cbn [truthy_]. destruct (Z.eqb_spec k 0); [lia|]. cbn [negb].
        unfold zrange. rewrite !map_map. reflexivity. }
    rewrite Em. cbn [rbind]. rewrite IH. reflexivity. }
  destruct cols as [|c cols]; [contradiction|]. rewrite E. cbn [rbind]. unfold check_special_bit_start_case.
  destruct (contains instrument $"JOVIAN INFRARED AURORAL MAPPER") eqn:Ec.
  { apply contains_iff in Ec as (a & b & Ec). now destruct (Hj a b). }
  cbn [rbind]. do 2 f_equal; rewrite map_map; cbn [fst snd]; clear; induction defs as [|d defs IH]; cbn [map List.concat]; try reflexivity;
    now rewrite map_app, IH.
Qed.
Print Assumptions C20_label.
(** The whole workflow: the bit column's cells become the pieces of its bytes,
    every other column stays. *)
Definition other_rows (fmt : list fmtrow) : Prop := Forall (fun r => f_bits r = None) fmt.
Lemma convert_others fmt t : other_rows fmt -> convert_to_full_bit_string fmt t = Ok t.
Proof. induction 1 as [|r fmt Hr _ IH]; [reflexivity|]. cbn. now rewrite Hr. Qed.
Lemma splice_others fmt t : other_rows fmt -> splice_bit_string fmt t = Ok t.
Proof. induction 1 as [|r fmt Hr _ IH]; [reflexivity|]. cbn. now rewrite Hr. Qed.
Lemma convert_app a b t : other_rows a -> convert_to_full_bit_string (a ++ b) t = convert_to_full_bit_string b t.
Proof. induction 1 as [|r fmt Hr _ IH]; [reflexivity|]. cbn. now rewrite Hr. Qed.
Lemma splice_app a b t : other_rows a -> splice_bit_string (a ++ b) t = splice_bit_string b t.
Proof. induction 1 as [|r fmt Hr _ IH]; [reflexivity|]. cbn. now rewrite Hr. Qed.
Lemma get_set (t : table) k v : get_column (dict_set t k v) k = Ok v.
Proof.
  unfold get_column. induction t as [|[k' v'] t IH]; cbn [dict_set find fst].
  - now rewrite str_eqb_refl.
  - destruct (str_eqb k' k) eqn:E; cbn [find fst]; [now rewrite str_eqb_refl|now rewrite E].
Qed.
Lemma get_set_other (t : table) k k' v : k <> k' -> get_column (dict_set t k v) k' = get_column t k'.
Proof.
  intros H. unfold get_column. induction t as [|[a b] t IH]; cbn [dict_set find fst].
  - now rewrite (proj2 (str_eqb_neq k k') H).
  - destruct (str_eqb_spec a k) as [->|Ha]; cbn [find fst].
    + rewrite (proj2 (str_eqb_neq k k') H). reflexivity.
    + destruct (str_eqb a k'); [reflexivity|exact IH].
Qed.
Lemma rmap_id {A B} (f : A -> res B) (g : B -> A) : (forall b, f (g b) = Ok b) -> forall l, rmap f (map g l) = Ok l.
Proof. intros H. induction l as [|x l IH]; [reflexivity|]. cbn. now rewrite H, IH. Qed.
Theorem C20_workflow : forall before name type defs after t rows n,
  other_rows before -> other_rows after -> get_column t name = Ok (map CBytes rows) ->
  0 < n -> rows <> [] -> Forall (fun r => List.length r = n) rows -> Forall (Forall is_byte) rows ->
  determine_byte_order type = $">" ->
  exists t', expand_bit_strings (before ++ mkRow name type (Some (map fst defs, map snd defs)) :: after) t = Ok t' /\
    get_column t' name = Ok (map (fun r => CList (split_bits (bits_of_bytes r) (map (fun v => v - 1)%Z (map fst defs)) (map snd defs))) rows) /\
    (forall other, other <> name -> get_column t' other = get_column t other) /\ map fst t' = map fst t.
Proof.
  intros before name type defs after t rows n Hb Ha Hg Hn Hne Hl Hby Ho. unfold expand_bit_strings.
  rewrite forallb_app. cbn [forallb f_bits]. rewrite andb_false_r. rewrite convert_app by exact Hb.
  cbn [convert_to_full_bit_string f_bits f_name f_type]. rewrite Hg. cbn [rbind].
  rewrite rmap_id by reflexivity. cbn [rbind]. rewrite Ho. change (str_eqb $">" $"<") with false.
  rewrite (C19_big rows n) by assumption. cbn [rbind]. rewrite convert_others by exact Ha. cbn [rbind].
  rewrite splice_app by exact Hb. cbn [splice_bit_string f_bits f_name]. rewrite get_set. cbn [rbind].
  rewrite rmap_id by reflexivity. cbn [rbind]. rewrite splice_others by exact Ha.
  eexists. split; [reflexivity|]. rewrite get_set. split; [now rewrite map_map|]. split.
  - intros other H. rewrite !get_set_other by congruence. reflexivity.
  - assert (K : forall (v : list cell) (t : table), In name (map fst t) -> map fst (dict_set t name v) = map fst t).
    { clear. intros v t. induction t as [|[a b] t IH]; intros H; [destruct H|]. cbn [dict_set map fst].
      destruct (str_eqb_spec a name) as [->|Hx]; [reflexivity|]. cbn [map fst]. f_equal. apply IH. destruct H; [contradiction|assumption]. }
    assert (Hin : In name (map fst t)).
    { clear -Hg. unfold get_column in Hg. destruct (find _ t) as [kv|] eqn:E; [|discriminate].
      apply find_some in E as [E1 E2]. apply str_eqb_eq in E2. subst name. now apply in_map. }
    rewrite K; rewrite K; auto.
Qed.
Print Assumptions C20_workflow.
Example C20_meets :
  tiles 1 [(1, 3); (4, 5)]%Z 9%Z /\
  expand_bit_strings [mkRow $"B" $"MSB_BIT_STRING" (Some ([1; 4], [3; 5])%Z); mkRow $"X" $"CHARACTER" None]
    [($"B", [CBytes [165]%N]); ($"X", [COther])] =
  Ok [($"B", [CList [$"101"; $"00101"]]); ($"X", [COther])] /\
  get_bit_start_and_size $"CRS" [[($"ITEMS", PInt 3); ($"ITEM_BITS", PInt 2); ($"START_BIT", PInt 1)];
      [($"START_BIT", PInt 7); ($"BITS", PInt 2)]] =
    Ok ([PInt 1; PInt 3; PInt 5; PInt 7], [PInt 2; PInt 2; PInt 2; PInt 2]).
Proof. split; [|split; reflexivity]. repeat constructor; lia. Qed.
(** The JIRAM correction applies to other instruments, and to products without an
    instrument name: the test is "is a substring of", so the start bit of a column
    named NADIR_OFFSET_SIGN is overwritten there too. *)
Theorem C20_special_refuted : exists cols starts sizes,
  get_bit_start_and_size [] cols = Ok (starts, sizes) /\
  Forall2 bit_column cols [[(1, 4)]%Z] /\ starts = [PInt 16].
Proof.
  exists [[($"NAME", PStr $"NADIR_OFFSET_SIGN"); ($"START_BIT", PInt 1); ($"BITS", PInt 4)]]. do 2 eexists.
  split; [reflexivity|]. split; [|reflexivity]. repeat constructor.
Qed.
Print Assumptions C20_special_refuted.
(** The byte order given to a bit column that is not declared as a bit string is
    that of its BIT_DATA_TYPE, but for the instruments known to write MSB first. *)
Theorem C20_data_type : forall instrument data_type bit_type,
  (In instrument msb_instruments -> set_bit_string_data_type instrument data_type bit_type = Ok $"MSB_BIT_STRING") /\
  (~ In instrument msb_instruments ->
    (bit_type = None -> set_bit_string_data_type instrument data_type bit_type = Err ValueError) /\
    forall bt, bit_type = Some bt -> contains $"INTEGER" (underscored bt) = true -> contains $"ASCII" (underscored bt) = false ->
      set_bit_string_data_type instrument data_type bit_type =
        Ok (if str_eqb (determine_byte_order (underscored bt)) $"<" then $"LSB_BIT_STRING" else $"MSB_BIT_STRING")).
Proof.
  intros instrument data_type bit_type. unfold set_bit_string_data_type. fold msb_instruments. split; intros H.
  - now rewrite (proj2 (str_in_iff _ _) H).
  - rewrite (proj2 (str_in_false _ _) H). split; [now intros ->|]. intros bt -> H1 H2.
    unfold sample_types. rewrite H1, H2. cbn [orb andb negb].
    unfold determine_byte_order. destruct (existsb _ _); reflexivity.
Qed.
Print Assumptions C20_data_type.
Example C20_data_type_meets : set_bit_string_data_type $"CRS" $"CHARACTER" (Some $"LSB_UNSIGNED_INTEGER") = Ok $"LSB_BIT_STRING".
Proof. reflexivity. Qed.
