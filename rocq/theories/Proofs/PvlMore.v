(** Based integers in full, and lists of words. *)
From Coq Require Import ZifyBool ZifyNat ZifyN.
From Verif.Base Require Import Py Val PyFacts.
From Verif.Model Require Import Pvl PvlLiteral.
From Verif.Spec Require Import Pvl.
From Verif.Proofs Require Import PvlText PvlLiteral PvlQuantity.

Lemma int_digits_app b s : forall acc us n t, int_digits b acc us s = Some n ->
  int_digits b acc us (s ++ t) = int_digits b n false t.
Proof.
  induction s as [|c s IH]; intros acc us n t; cbn [int_digits app].
  - destruct us; [discriminate|]. now injection 1 as ->.
  - destruct (Ascii.eqb c "_"); [destruct us; [discriminate|]; apply IH|].
    destruct (digit_val c) as [d|]; [|discriminate]. destruct (d <? b)%N; [|discriminate]. apply IH.
Qed.
Lemma digit_not_us c d : digit_val c = Some d -> Ascii.eqb c "_"%char = false.
Proof. intros H. apply digit_val_facts in H. destruct (Ascii.eqb_spec c "_"%char); [tauto|reflexivity]. Qed.
Lemma grouped_digits b s n : grouped b s n -> int_digits b 0 false s = Some n.
Proof.
  induction 1 as [c d Hd Hl|s n c d _ IH Hd Hl|s n c d _ IH Hd Hl].
  - cbn [int_digits]. rewrite (digit_not_us _ _ Hd), Hd. apply N.ltb_lt in Hl. rewrite Hl. f_equal; lia.
  - rewrite (int_digits_app _ _ _ _ _ _ IH). cbn [int_digits]. rewrite (digit_not_us _ _ Hd), Hd. apply N.ltb_lt in Hl. rewrite Hl. f_equal; lia.
  - rewrite (int_digits_app _ _ _ _ _ _ IH). cbn [int_digits]. change (Ascii.eqb "_" "_") with true. cbn iota.
    rewrite (digit_not_us _ _ Hd), Hd. apply N.ltb_lt in Hl. rewrite Hl. f_equal; lia.
Qed.
Lemma digits_grouped_from b s : forall pre acc us n, grouped b pre acc ->
  int_digits b acc us s = Some n -> grouped b (pre ++ (if us then ["_"%char] else []) ++ s) n.
Proof.
  induction s as [|c s IH]; intros pre acc us n G; cbn [int_digits].
  - destruct us; [discriminate|]. injection 1 as <-. now rewrite app_nil_r.
  - destruct (Ascii.eqb_spec c "_"%char) as [->|Ne].
    + destruct us; [discriminate|]. intros H. apply (IH _ _ _ _ G H).
    + destruct (digit_val c) as [d|] eqn:Ed; [|discriminate]. destruct (N.ltb_spec d b) as [L|_]; [|discriminate]. intros H.
      assert (G' : grouped b (pre ++ (if us then ["_"%char] else []) ++ [c]) (acc * b + d)).
      { rewrite N.mul_comm. destruct us; cbn [app]; [now apply G_sep|now apply G_next]. }
      specialize (IH _ _ false n G' H). cbn [app] in IH. rewrite <- !app_assoc in IH. exact IH.
Qed.
Lemma digits_grouped b c s n : c <> "_"%char -> int_digits b 0 false (c :: s) = Some n -> grouped b (c :: s) n.
Proof.
  intros Ne. cbn [int_digits]. destruct (Ascii.eqb_spec c "_"%char) as [->|_]; [contradiction|].
  destruct (digit_val c) as [d|] eqn:Ed; [|discriminate]. destruct (N.ltb_spec d b) as [L|_]; [|discriminate]. intros H.
  apply (digits_grouped_from b s [c] (0 * b + d) false n); [|exact H]. replace (0 * b + d)%N with d by lia. now apply G_digit.
Qed.
Lemma grouped_head b s n : grouped b s n -> exists c t d, s = c :: t /\ digit_val c = Some d.
Proof.
  induction 1 as [c d Hd Hl|s n c d _ IH Hd Hl|s n c d _ IH Hd Hl]; [exists c, [], d; auto| |];
    destruct IH as (c' & t & d' & -> & Hc); exists c'; eexists; exists d'; (split; [reflexivity|exact Hc]).
Qed.
Definition zero_prefixed (s : str) : Prop := exists c t, In c $"xXoObB" /\ s = "0"%char :: c :: t.
Lemma no_prefix s : ~ zero_prefixed s -> prefix_base s = None.
Proof.
  intros N. destruct s as [|z [|x s]]; try reflexivity. unfold prefix_base.
  destruct (Ascii.eqb_spec z "0"%char) as [->|_]; [|reflexivity].
  destruct (Ascii.eqb (to_lower x) "x" || Ascii.eqb (to_lower x) "o" || Ascii.eqb (to_lower x) "b")%char eqn:E.
  - exfalso. apply N. exists x, s. split; [|reflexivity]. clear N. destruct x as [[] [] [] [] [] [] [] []]; vm_compute in E |- *; try discriminate E; auto 10.
  - apply orb_false_iff in E as [E E3]. apply orb_false_iff in E as [E1 E2]. now rewrite E1, E2, E3.
Qed.
Lemma int_unsigned_iff b s : (2 <= b)%N -> ~ zero_prefixed s ->
  (forall n, int_unsigned b s = Ok n <-> grouped b s n) /\ ((exists n, int_unsigned b s = Ok n) \/ int_unsigned b s = Err ValueError).
Proof.
  intros Hb N. unfold int_unsigned. rewrite (no_prefix _ N). destruct (N.eqb_spec b 0) as [?|_]; [lia|].
  destruct s as [|c s]; [split; [|now right]; intros n; split; [discriminate|]; intros G; now destruct (grouped_head _ _ _ G) as (? & ? & ? & ? & ?)|].
  destruct (Ascii.eqb_spec c "_"%char) as [->|Ne].
  { split; [|now right]. intros n; split; [discriminate|]. intros G. destruct (grouped_head _ _ _ G) as (? & ? & ? & E & H). injection E as <- <-. discriminate H. }
  destruct (int_digits b 0 false (c :: s)) as [m|] eqn:E.
  - split; [|left; now exists m]. intros n. split.
    + injection 1 as <-. now apply digits_grouped.
    + intros G. apply grouped_digits in G. congruence.
  - split; [|now right]. intros n. split; [discriminate|]. intros G. apply grouped_digits in G. congruence.
Qed.
Lemma digit_no_sign c d : digit_val c = Some d -> c <> "-"%char /\ c <> "+"%char.
Proof. intros H. apply digit_val_facts in H. tauto. Qed.
Lemma py_int_iff b s : (2 <= b <= 36)%N -> strip s = s -> ~ prefixed s ->
  (forall z, py_int (Z.of_N b) s = Ok z <-> signed_numeral b s z) /\ ((exists z, py_int (Z.of_N b) s = Ok z) \/ py_int (Z.of_N b) s = Err ValueError).
Proof.
  intros Hb Hs Np. unfold py_int.
  destruct ((Z.of_N b =? 0) || ((2 <=? Z.of_N b) && (Z.of_N b <=? 36)))%Z eqn:E; [|lia]. clear E.
  rewrite N2Z.id, Hs. destruct s as [|c s].
  { split; [|now right]. intros z. split; [discriminate|]. intros H. inversion H as [s' n G| |]; subst.
    now destruct (grouped_head _ _ _ G) as (? & ? & ? & ? & ?). }
  destruct (Ascii.eqb_spec c "-"%char) as [->|N1].
  { destruct (int_unsigned_iff b s) as [I1 I2]; [lia|intros (x & t & Hx & ->); apply Np; exists x, t; auto|]. split.
    - intros z. split.
      + destruct (int_unsigned b s) as [n|e] eqn:En; cbn [rbind]; [|discriminate]. injection 1 as <-. apply SN_minus. now apply I1.
      + intros H. inversion H as [s' n G|s' n G|s' n G]; subst.
        * destruct (grouped_head _ _ _ G) as (? & ? & ? & E & H'). injection E as <- <-. discriminate H'.
        * apply I1 in G. now rewrite G.
    - destruct I2 as [(n & ->)| ->]; [left; eexists; reflexivity|now right]. }
  destruct (Ascii.eqb_spec c "+"%char) as [->|N2].
  { destruct (int_unsigned_iff b s) as [I1 I2]; [lia|intros (x & t & Hx & ->); apply Np; exists x, t; auto|]. split.
    - intros z. split.
      + destruct (int_unsigned b s) as [n|e] eqn:En; cbn [rbind]; [|discriminate]. injection 1 as <-. apply SN_plus. now apply I1.
      + intros H. inversion H as [s' n G|s' n G|s' n G]; subst.
        * destruct (grouped_head _ _ _ G) as (? & ? & ? & E & H'). injection E as <- <-. discriminate H'.
        * apply I1 in G. now rewrite G.
    - destruct I2 as [(n & ->)| ->]; [left; eexists; reflexivity|now right]. }
  destruct (int_unsigned_iff b (c :: s)) as [I1 I2]; [lia|intros (x & t & Hx & H); apply Np; exists x, t; auto|]. split.
  - intros z. split.
    + destruct (int_unsigned b (c :: s)) as [n|e] eqn:En; cbn [rbind]; [|discriminate]. injection 1 as <-. apply SN_plain. now apply I1.
    + intros H. inversion H as [s' n G|s' n G|s' n G]; subst; [apply I1 in G; now rewrite G|now destruct N2|now destruct N1].
  - destruct I2 as [(n & ->)| ->]; [left; eexists; reflexivity|now right].
Qed.
Lemma based_reading lit b s : (2 <= b <= 36)%N -> strip s = s -> ~ prefixed s -> ~ In "#"%char s -> ~ In "<"%char s ->
  (forall z, literalize lit (based b s) = Ok (PInt z) <-> signed_numeral b s z) /\
  ((~ exists z, signed_numeral b s z) -> literalize lit (based b s) = Ok (PStr (based b s))).
Proof.
  intros Hb Hs Np Nh Nl. destruct (based_hash b s Hb) as [H1 H2]. destruct (py_int_iff b s Hb Hs Np) as [I1 I2].
  assert (P : parse_non_base_10 (based b s) = match py_int (Z.of_N b) s with Ok z => Ok z | Err ValueError => Err SyntaxError | Err e => Err e end).
  { unfold parse_non_base_10, based.
    replace (removelast (str_of_N b ++ $"#" ++ s ++ $"#")) with (str_of_N b ++ "#"%char :: s).
    2:{ replace (str_of_N b ++ $"#" ++ s ++ $"#") with ((str_of_N b ++ "#"%char :: s) ++ ["#"%char])
          by (now rewrite <- app_assoc). now rewrite removelast_last. }
    rewrite split_on_app by (eapply numeral_no; [apply str_of_N_numeral|reflexivity]). rewrite split_on_no by exact Nh.
    change 10%Z with (Z.of_N 10). rewrite (py_int_numeral 10 _ b); [|lia|apply str_of_N_numeral]. reflexivity. }
  assert (F : py_int (Z.of_N b) s = Err ValueError -> literalize lit (based b s) = Ok (PStr (based b s))).
  { intros E. rewrite E in P. unfold literalize. cbn [literalize_fuel]. rewrite H1, H2, P. cbn [negb andb rbind].
    replace (has_char "<"%char (based b s)) with false.
    2:{ symmetry. apply has_char_false. unfold based. intros Hin. apply in_app_or in Hin as [Hin|Hin].
        - revert Hin. eapply numeral_no; [apply str_of_N_numeral|reflexivity].
        - apply in_app_or in Hin as [[Hin|[]]|Hin]; [discriminate Hin|]. apply in_app_or in Hin as [Hin|[Hin|[]]]; [contradiction|discriminate Hin]. }
    cbn [andb]. unfold based. pose proof (str_of_N_numeral b) as Hn. apply numeral_chars in Hn as [Hne Hf].
    destruct (str_of_N b) as [|c t]; [contradiction|]. inversion Hf as [|? ? (d & Hd & _) _]; subst. apply digit_val_facts in Hd. cbn [app].
    destruct (Ascii.eqb_spec c "("%char) as [->|_]; [tauto|]. destruct (Ascii.eqb_spec c "{"%char) as [->|_]; [tauto|]. reflexivity. }
  split.
  - intros z. rewrite <- I1. split.
    + intros H. destruct I2 as [(z' & E)|E].
      * unfold literalize in H. cbn [literalize_fuel] in H. rewrite H1, H2, P, E in H. cbn [negb andb rbind] in H. congruence.
      * rewrite (F E) in H. discriminate.
    + intros E. unfold literalize. cbn [literalize_fuel]. rewrite H1, H2, P, E. reflexivity.
  - intros No. apply F. destruct I2 as [(z & E)|E]; [|exact E]. exfalso. apply No. exists z. now apply I1.
Qed.

(** ** lists of words *)
Lemma strip_spaces_word i : wf_word i -> strip_chars $" " (word_text i) = word_of i.
Proof.
  destruct i as [[l w] r]. intros (_ & Hf & Hl). unfold word_text, word_of. unfold strip_chars.
  assert (L : forall k s, lstrip_by (fun c => has_char c $" ") (spaces k ++ s) = lstrip_by (fun c => has_char c $" ") s).
  { induction k as [|k IH]; intros s; [reflexivity|]. cbn [spaces repeat app lstrip_by]. change (has_char " " $" ") with true. apply IH. }
  unfold strip_by, rstrip_by. rewrite L. destruct w as [|c w].
  - cbn [app]. replace (lstrip_by (fun c => has_char c $" ") (spaces r)) with (@nil ascii); [reflexivity|].
    specialize (L r []). rewrite app_nil_r in L. now rewrite L.
  - assert (F : has_char c $" " = false) by (apply has_char_false; intros [E|[]]; now apply (Hf w); rewrite E).
    cbn [app lstrip_by]. rewrite F. destruct (exists_last (l := c :: w) ltac:(discriminate)) as (u & d & E).
    change (c :: w ++ spaces r) with ((c :: w) ++ spaces r). rewrite rev_app_distr.
    assert (Rs : rev (spaces r) = spaces r).
    { clear. induction r as [|r IH]; [reflexivity|]. change (rev (spaces (S r))) with (rev (spaces r) ++ [" "%char]). rewrite IH. symmetry. apply (repeat_cons r " "%char). }
    rewrite Rs, L, E, rev_app_distr. cbn [rev app lstrip_by].
    assert (Fd : has_char d $" " = false) by (apply has_char_false; intros [Ed|[]]; apply (Hl u); now rewrite E, Ed).
    rewrite Fd. cbn [rev]. now rewrite rev_involutive.
Qed.
Lemma words_read lit items o c : items <> [] -> Forall wf_word items ->
  (o = "("%char /\ c = ")"%char \/ o = "{"%char /\ c = "}"%char) ->
  let text := o :: join $"," (map word_text items) ++ [c] in
  (lit text = Err SyntaxError \/ lit text = Err ValueError) ->
  literalize lit text = Ok (if Ascii.eqb o "{"%char then PSet (map PStr (map word_of items)) else PTuple (map PStr (map word_of items))).
Proof.
  intros Hne Hf Hoc text Hlit.
  assert (Hin : forall x, In x (join $"," (map word_text items)) -> ~ In x $"(){}<>#").
  { intros x Hx Hbad. assert (G : forall l, Forall wf_word l -> In x (join $"," (map word_text l)) -> False).
    { assert (W : forall i, wf_word i -> In x (word_text i) -> False).
      { intros [[l w] r] (H & _) I. unfold word_text in I. apply in_app_or in I as [I|I]; [|apply in_app_or in I as [I|I]].
        - apply repeat_spec in I. subst x. cbn in Hbad. repeat destruct Hbad as [Hbad|Hbad]; discriminate Hbad || exact Hbad.
        - apply (H x I). now right.
        - apply repeat_spec in I. subst x. cbn in Hbad. repeat destruct Hbad as [Hbad|Hbad]; discriminate Hbad || exact Hbad. }
      intros l Hl. induction Hl as [|i l Hi Hl IH]; [intros []|]. cbn [map]. destruct l as [|j l].
      - cbn [map join]. now apply W.
      - intros I. change (join $"," (word_text i :: map word_text (j :: l))) with (word_text i ++ $"," ++ join $"," (map word_text (j :: l))) in I.
        apply in_app_or in I as [I|I]; [now apply (W i)|]. apply in_app_or in I as [[I|[]]|I]; [|now apply IH].
        subst x. cbn in Hbad. repeat destruct Hbad as [Hbad|Hbad]; discriminate Hbad || exact Hbad. }
    now apply (G items). }
  assert (Nt : forall x, In x $"<>#" -> ~ In x text).
  { intros x Hx [I|I].
    - subst x. destruct Hoc as [[-> _]|[-> _]]; cbn in Hx; repeat destruct Hx as [Hx|Hx]; discriminate Hx || exact Hx.
    - apply in_app_or in I as [I|[I|[]]].
      + apply (Hin x I). cbn in Hx |- *. intuition.
      + subst x. destruct Hoc as [[_ ->]|[_ ->]]; cbn in Hx; repeat destruct Hx as [Hx|Hx]; discriminate Hx || exact Hx. }
  assert (H1 : has_char "#"%char (zslice 1 3 text) = false).
  { apply has_char_false. intros I. apply (Nt "#"%char); [cbn; auto|]. change 1%Z with (Z.of_nat 1) in I. change 3%Z with (Z.of_nat 3) in I.
    rewrite zslice_nat in I. revert I. clear. intros I.
    assert (F : forall (l : str) n x, In x (firstn n l) -> In x l).
    { induction l as [|y l IH]; intros n x Hx; [now rewrite firstn_nil in Hx|]. destruct n; [destruct Hx|]. destruct Hx as [->|Hx]; [now left|right; eauto]. }
    assert (S : forall n (l : str) x, In x (skipn n l) -> In x l).
    { induction n as [|n IH]; intros l x Hx; [exact Hx|]. destruct l; [destruct Hx|]. right. apply IH, Hx. }
    first [apply F in I; apply S in I|apply S in I; apply F in I]; exact I. }
  assert (H2 : has_char "<"%char text = false) by (apply has_char_false, Nt; cbn; auto).
  assert (H3 : digit_hash text = false).
  { assert (G : forall s, ~ In "#"%char s -> digit_hash s = false).
    { clear. induction s as [|x s IH]; intros N; [reflexivity|]. cbn [digit_hash]. destruct (Ascii.eqb x NL); [reflexivity|].
      rewrite IH by (intros I; apply N; now right). rewrite orb_false_r. destruct s as [|y s]; [apply andb_false_r|].
      replace (startswith $"#" (y :: s)) with false; [apply andb_false_r|]. symmetry. apply not_true_iff_false. rewrite startswith_iff.
      intros (t & E). injection E as -> _. apply N. right. now left. }
    apply G, Nt. cbn; auto. }
  assert (H4 : split_on ","%char (strip_chars brackets text) = map word_text items).
  { unfold text. rewrite strip_chars_around.
    - apply split_on_join; [now destruct items|]. apply Forall_forall. intros w Hw. apply in_map_iff in Hw as (i & <- & Hi).
      rewrite Forall_forall in Hf. specialize (Hf i Hi). destruct i as [[l w] r]. destruct Hf as (H & _). unfold word_text. intros I.
      apply in_app_or in I as [I|I]; [|apply in_app_or in I as [I|I]]; [apply repeat_spec in I; discriminate I|apply (H _ I); now left|apply repeat_spec in I; discriminate I].
    - destruct Hoc as [[-> _]|[-> _]]; reflexivity.
    - destruct Hoc as [[_ ->]|[_ ->]]; reflexivity.
    - intros x Hx. apply has_char_false. intros I. apply (Hin x Hx). cbn in I |- *. intuition. }
  assert (H5 : map (fun s => PStr (strip_chars $" " s)) (map word_text items) = map PStr (map word_of items)).
  { rewrite !map_map. apply map_ext_in. intros i Hi. rewrite Forall_forall in Hf. now rewrite strip_spaces_word by auto. }
  assert (H6 : parse_unusual_collection text = Ok (if Ascii.eqb o "{"%char then PSet (map PStr (map word_of items)) else PTuple (map PStr (map word_of items)))).
  { unfold parse_unusual_collection. rewrite H3, H4, H5. unfold text. destruct Hoc as [[-> _]|[-> _]]; reflexivity. }
  assert (H7 : literalize lit text = match lit text with Ok v => Ok v | Err _ => parse_unusual_collection text end).
  { unfold literalize. cbn [literalize_fuel]. rewrite H1, andb_false_r, H2. cbn [andb]. rewrite H6.
    destruct Hlit as [-> | ->]; unfold text; destruct Hoc as [[-> _]|[-> _]]; reflexivity. }
  rewrite H7, H6. destruct Hlit as [-> | ->]; reflexivity.
Qed.
