(** Facts about the Python built-ins of [Base/Py.v]. *)
From Verif.Base Require Import Py.
From Coq Require Import ZifyBool ZifyNat ZifyN.

(** ** strip *)
Lemma lstrip_by_spec f s :
  exists w, s = w ++ lstrip_by f s /\ Forall (fun c => f c = true) w /\
            match lstrip_by f s with [] => True | c :: _ => f c = false end.
Proof.
  induction s as [|c s (w & E & Hw & Hh)]; cbn [lstrip_by].
  - exists []; repeat split; constructor.
  - destruct (f c) eqn:Ec.
    + exists (c :: w). cbn. rewrite <- E. repeat split; auto.
    + exists []; repeat split; auto.
Qed.

Lemma lstrip_by_app_blank f w s :
  Forall (fun c => f c = true) w -> lstrip_by f (w ++ s) = lstrip_by f s.
Proof.
  induction w as [|c w IH]; intros H; [reflexivity|].
  inversion H as [|? ? Hc Hw]; subst. cbn. rewrite Hc. auto.
Qed.

Lemma lstrip_by_head f c s : f c = false -> lstrip_by f (c :: s) = c :: s.
Proof. intros H; cbn; now rewrite H. Qed.

Lemma lstrip_by_all f w : Forall (fun c => f c = true) w -> lstrip_by f w = [].
Proof.
  intros H. rewrite <- (app_nil_r w), lstrip_by_app_blank by exact H.
  reflexivity.
Qed.

Lemma rstrip_by_app_blank f s w :
  Forall (fun c => f c = true) w -> rstrip_by f (s ++ w) = rstrip_by f s.
Proof.
  intros H. unfold rstrip_by. rewrite rev_app_distr, lstrip_by_app_blank; auto.
  apply Forall_rev in H. exact H.
Qed.

Lemma rstrip_by_last f s c : f c = false -> rstrip_by f (s ++ [c]) = s ++ [c].
Proof.
  intros H. unfold rstrip_by. rewrite rev_app_distr. cbn [rev app].
  rewrite lstrip_by_head by exact H. cbn [rev]. now rewrite rev_involutive.
Qed.

(** a string is its own strip iff it is empty or both ends are kept *)
Lemma strip_by_fixed f s c d t u :
  s = c :: t -> s = u ++ [d] -> f c = false -> f d = false -> strip_by f s = s.
Proof.
  intros E1 E2 H1 H2. unfold strip_by. rewrite E1, lstrip_by_head by exact H1.
  rewrite <- E1, E2. now apply rstrip_by_last.
Qed.

Lemma strip_by_ends f s :
  strip_by f s = [] \/
  exists c t u d, strip_by f s = c :: t /\ strip_by f s = u ++ [d] /\
                  f c = false /\ f d = false.
Proof.
  unfold strip_by.
  destruct (lstrip_by_spec f s) as (w & E & Hw & Hh).
  destruct (lstrip_by f s) as [|c t] eqn:El.
  - left. reflexivity.
  - right. unfold rstrip_by.
    destruct (lstrip_by_spec f (rev (c :: t))) as (w' & E' & Hw' & Hh').
    destruct (lstrip_by f (rev (c :: t))) as [|d u'] eqn:Er.
    + (* everything stripped: contradiction with c *)
      exfalso. rewrite app_nil_r in E'.
      assert (Hin : In c w') by (rewrite <- E'; apply in_rev; rewrite rev_involutive; now left).
      rewrite Forall_forall in Hw'. apply Hw' in Hin. congruence.
    + cbn [rev].
      assert (Ec : c :: t = rev u' ++ [d] ++ rev w').
      { rewrite <- (rev_involutive (c :: t)), E', rev_app_distr. cbn [rev].
        now rewrite <- app_assoc. }
      destruct (rev u') as [|x xs] eqn:Eu.
      * cbn in Ec. injection Ec as Ec1 Ec2. subst d.
        exists c, [], [], c. cbn. auto.
      * cbn in Ec. injection Ec as Ec1 Ec2. subst x.
        exists c, (xs ++ [d]), (c :: xs), d. cbn. auto.
Qed.

Lemma strip_by_idem f s : strip_by f (strip_by f s) = strip_by f s.
Proof.
  destruct (strip_by_ends f s) as [E | (c & t & u & d & E1 & E2 & H1 & H2)].
  - rewrite E. reflexivity.
  - eapply strip_by_fixed; eauto.
Qed.

Lemma trimmed_ends f s : strip_by f s = s ->
  s = [] \/ exists c t u d, s = c :: t /\ s = u ++ [d] /\ f c = false /\ f d = false.
Proof.
  intros H. destruct (strip_by_ends f s) as [E | (c & t & u & d & E1 & E2 & H1 & H2)].
  - left; congruence.
  - right. rewrite H in E1, E2. exists c, t, u, d. auto.
Qed.

Lemma strip_by_blank_around f w1 s w2 :
  Forall (fun c => f c = true) w1 -> Forall (fun c => f c = true) w2 ->
  strip_by f (w1 ++ s ++ w2) = strip_by f s.
Proof.
  intros H1 H2. unfold strip_by. rewrite lstrip_by_app_blank by exact H1.
  destruct (lstrip_by_spec f s) as (w & E & Hw & Hh).
  destruct (lstrip_by f s) as [|c t] eqn:El.
  - rewrite E, app_nil_r, <- (app_nil_r (w ++ w2)), lstrip_by_app_blank.
    + reflexivity.
    + apply Forall_app; auto.
  - rewrite E, <- app_assoc, lstrip_by_app_blank by exact Hw.
    cbn [app]. rewrite lstrip_by_head by exact Hh.
    rewrite app_comm_cons. now apply rstrip_by_app_blank.
Qed.

Lemma strip_by_blank f w : Forall (fun c => f c = true) w -> strip_by f w = [].
Proof. intros H. unfold strip_by. now rewrite lstrip_by_all. Qed.

(** ** split / join *)
Lemma split_on_nonempty c s : split_on c s <> [].
Proof.
  destruct s as [|x s]; cbn; [discriminate|].
  destruct (Ascii.eqb x c); [discriminate|].
  destruct (split_on c s); discriminate.
Qed.

Lemma split_on_no c s : ~ In c s -> split_on c s = [s].
Proof.
  induction s as [|x s IH]; intros H; [reflexivity|]. cbn.
  destruct (Ascii.eqb_spec x c) as [->|Hne].
  - exfalso; apply H; now left.
  - rewrite IH; [reflexivity|]. intros Hin; apply H; now right.
Qed.

Lemma split_on_app c a s : ~ In c a ->
  split_on c (a ++ c :: s) = a :: split_on c s.
Proof.
  induction a as [|x a IH]; intros H; cbn.
  - now rewrite Ascii.eqb_refl.
  - destruct (Ascii.eqb_spec x c) as [->|Hne].
    + exfalso; apply H; now left.
    + rewrite IH; [reflexivity|]. intros Hin; apply H; now right.
Qed.

Lemma split_on_join c l : l <> [] -> Forall (fun w => ~ In c w) l ->
  split_on c (join [c] l) = l.
Proof.
  induction l as [|w l IH]; intros Hne H; [contradiction|].
  inversion H as [|? ? Hw Hl]; subst.
  destruct l as [|w' l].
  - cbn. now apply split_on_no.
  - change (join [c] (w :: w' :: l)) with (w ++ c :: join [c] (w' :: l)).
    rewrite split_on_app by exact Hw. f_equal. apply IH; [discriminate|exact Hl].
Qed.

Lemma join_split_on c s : join [c] (split_on c s) = s.
Proof.
  induction s as [|x s IH]; [reflexivity|]. cbn [split_on].
  pose proof (split_on_nonempty c s) as Hne.
  destruct (Ascii.eqb_spec x c) as [->|Hx].
  - destruct (split_on c s) as [|w ws] eqn:E; [contradiction|].
    change (join [c] ([] :: w :: ws)) with (c :: join [c] (w :: ws)).
    now rewrite IH.
  - destruct (split_on c s) as [|w ws] eqn:E; [contradiction|].
    destruct ws as [|w' ws]; cbn in *; now rewrite IH.
Qed.

(** ** Numerals *)
Lemma digit_val_char d : (d < 36)%N -> digit_val (digit_char d) = Some d.
Proof.
  intros H.
  assert (HF : forallb (fun d => match digit_val (digit_char d) with
                                 | Some e => N.eqb e d | None => false end)
                 (map N.of_nat (seq 0 36)) = true) by (vm_compute; reflexivity).
  rewrite forallb_forall in HF. specialize (HF d).
  assert (Hin : In d (map N.of_nat (seq 0 36))).
  { apply in_map_iff. exists (N.to_nat d). split; [lia|]. apply in_seq. lia. }
  apply HF in Hin. destruct (digit_val (digit_char d)) as [e|]; [|discriminate].
  apply N.eqb_eq in Hin. congruence.
Qed.

Lemma parse_digits_app b acc s t :
  parse_digits b acc (s ++ t) =
  match parse_digits b acc s with Some a => parse_digits b a t | None => None end.
Proof.
  revert acc; induction s as [|c s IH]; intros acc; cbn; [reflexivity|].
  destruct (digit_val c) as [d|]; [|reflexivity].
  destruct (d <? b)%N; [apply IH|reflexivity].
Qed.

Lemma parse_to_base_fuel fuel b n :
  (2 <= b <= 36)%N -> (n < 2 ^ N.of_nat (S fuel))%N ->
  parse_digits b 0 (to_base_fuel fuel b n) = Some n.
Proof.
  intros Hb. revert n; induction fuel as [|f IH]; intros n Hn; cbn [to_base_fuel].
  - replace (N.of_nat 1) with 1%N in Hn by reflexivity.
    rewrite N.mod_small by lia. cbn [parse_digits].
    rewrite digit_val_char by lia.
    destruct (N.ltb_spec n b); [f_equal; lia | lia].
  - destruct (N.ltb_spec n b) as [Hlt|Hge].
    + cbn [parse_digits]. rewrite digit_val_char by lia.
      destruct (N.ltb_spec n b); [f_equal; lia | lia].
    + rewrite parse_digits_app, IH.
      * cbn [parse_digits].
        assert (Hm : (n mod b < b)%N) by (apply N.mod_lt; lia).
        rewrite digit_val_char by lia.
        destruct (N.ltb_spec (n mod b) b); [|lia]. f_equal.
        rewrite (N.div_mod n b) at 3 by lia. lia.
      * apply N.div_lt_upper_bound; [lia|].
        replace (N.of_nat (S (S f))) with (N.succ (N.of_nat (S f))) in Hn by lia.
        rewrite N.pow_succ_r' in Hn. nia.
Qed.

Lemma N_lt_size n : (n < 2 ^ N.size n)%N.
Proof. apply N.size_gt. Qed.

Lemma parse_to_base b n : (2 <= b <= 36)%N ->
  parse_digits b 0 (to_base b n) = Some n.
Proof.
  intros Hb. apply parse_to_base_fuel; [exact Hb|].
  eapply N.lt_le_trans; [apply N_lt_size|].
  apply N.pow_le_mono_r; lia.
Qed.

Lemma to_base_inj b n m : (2 <= b <= 36)%N -> to_base b n = to_base b m -> n = m.
Proof.
  intros Hb H. pose proof (parse_to_base b n Hb) as H1.
  rewrite H, parse_to_base in H1 by exact Hb. congruence.
Qed.

Lemma str_of_nat_inj n m : str_of_nat n = str_of_nat m -> n = m.
Proof.
  unfold str_of_nat, str_of_N. intros H. apply to_base_inj in H; lia.
Qed.

Lemma to_base_fuel_nonempty f b n : to_base_fuel f b n <> [].
Proof.
  destruct f; cbn; [discriminate|]. destruct (n <? b)%N; [discriminate|].
  destruct (to_base_fuel f b (n / b)); discriminate.
Qed.
Lemma to_base_nonempty b n : to_base b n <> [].
Proof. apply to_base_fuel_nonempty. Qed.

(** characters of a numeral *)
Lemma to_base_fuel_chars f b n c : (2 <= b)%N ->
  In c (to_base_fuel f b n) -> exists d, (d < b)%N /\ c = digit_char d.
Proof.
  intros Hb. revert n; induction f as [|f IH]; intros n; cbn [to_base_fuel].
  - intros [<-|[]]. exists (n mod b)%N. split; [apply N.mod_lt; lia|reflexivity].
  - destruct (N.ltb_spec n b) as [Hlt|Hge].
    + intros [<-|[]]. exists n; auto.
    + intros Hin. apply in_app_or in Hin as [Hin|[<-|[]]].
      * eapply IH; eauto.
      * exists (n mod b)%N. split; [apply N.mod_lt; lia|reflexivity].
Qed.
Lemma to_base_chars b n c : (2 <= b)%N ->
  In c (to_base b n) -> exists d, (d < b)%N /\ c = digit_char d.
Proof. apply to_base_fuel_chars. Qed.

(** a digit character is none of the given characters *)
Lemma digit_char_facts d : (d < 36)%N ->
  is_space (digit_char d) = false /\ is_lower (digit_char d) = false /\
  digit_char d <> "#"%char /\ digit_char d <> ","%char /\
  digit_char d <> "+"%char /\ digit_char d <> "-"%char /\
  digit_char d <> "_"%char /\ digit_char d <> "("%char /\
  digit_char d <> ")"%char /\ digit_char d <> "{"%char /\
  digit_char d <> "}"%char /\ digit_char d <> """"%char /\
  digit_char d <> "<"%char /\ digit_char d <> ">"%char /\
  digit_char d <> " "%char.
Proof.
  intros H.
  assert (HF : forallb (fun d => negb (is_space (digit_char d)) &&
            negb (is_lower (digit_char d)) &&
            negb (has_char (digit_char d) $"#,+-_(){}""<> "))
                 (map N.of_nat (seq 0 36)) = true) by (vm_compute; reflexivity).
  rewrite forallb_forall in HF. specialize (HF d).
  assert (Hin : In d (map N.of_nat (seq 0 36))).
  { apply in_map_iff. exists (N.to_nat d). split; [lia|]. apply in_seq. lia. }
  apply HF in Hin. rewrite !andb_true_iff, !negb_true_iff in Hin.
  destruct Hin as [[H1 H2] H3]. rewrite has_char_false in H3.
  repeat split; auto; intros E; apply H3; rewrite E; vm_compute; tauto.
Qed.

(** ** Python slices on naturals *)
Lemma zslice_nat {A} (l : list A) (a b : nat) :
  zslice (Z.of_nat a) (Z.of_nat b) l = firstn (b - a) (skipn a l).
Proof.
  unfold zslice, norm_index.
  destruct (Z.ltb_spec (Z.of_nat a) 0); [lia|].
  destruct (Z.ltb_spec (Z.of_nat b) 0); [lia|].
  destruct (Nat.le_gt_cases a (List.length l)) as [Ha|Ha].
  - replace (Z.to_nat (Z.min (Z.of_nat a) (Z.of_nat (List.length l)))) with a by lia.
    destruct (Nat.le_gt_cases b (List.length l)) as [Hb|Hb].
    + f_equal. lia.
    + rewrite !firstn_all2; auto; rewrite skipn_length; lia.
  - replace (Z.to_nat (Z.min (Z.of_nat a) (Z.of_nat (List.length l)))) with (List.length l) by lia.
    rewrite !skipn_all2 by lia. now rewrite !firstn_nil.
Qed.

(** [l[:-n]] and [l[-n:]] *)
Lemma zslice_neg_end {A} (l : list A) (n : nat) : (0 < n)%nat ->
  zslice 0 (- Z.of_nat n) l = firstn (List.length l - n) l.
Proof.
  intros Hn. unfold zslice, norm_index.
  destruct (Z.ltb_spec 0 0); [lia|].
  destruct (Z.ltb_spec (- Z.of_nat n) 0); [|lia].
  replace (Z.to_nat (Z.min 0 (Z.of_nat (List.length l)))) with 0%nat by lia.
  cbn [skipn]. f_equal. lia.
Qed.

Lemma zslice_length {A} lo hi (l : list A) :
  (List.length (zslice lo hi l) <= List.length l)%nat.
Proof.
  unfold zslice. rewrite firstn_length, skipn_length. lia.
Qed.
