(** Proofs about value interpretation (model: Model/PvlLiteral.v). *)
From Coq Require Import ZifyBool ZifyNat ZifyN.
From Verif.Base Require Import Py Val PyFacts.
From Verif.Model Require Import Pvl PvlLiteral.
From Verif.Spec Require Import Pvl.
From Verif.Proofs Require Import PvlText.

(** ** digits *)
Lemma digit_val_facts c d : digit_val c = Some d ->
  is_space c = false /\ c <> "#"%char /\ c <> ","%char /\ c <> "+"%char /\ c <> "-"%char /\
  c <> "_"%char /\ c <> "("%char /\ c <> ")"%char /\ c <> "{"%char /\ c <> "}"%char /\
  c <> """"%char /\ c <> "<"%char /\ c <> ">"%char /\ c <> " "%char /\ c <> NL.
Proof.
  destruct c as [b0 b1 b2 b3 b4 b5 b6 b7].
  destruct b0, b1, b2, b3, b4, b5, b6, b7; vm_compute; intros H;
    try discriminate; repeat split; discriminate.
Qed.

Lemma numeral_from_chars b acc s n : numeral_value_from b acc s = Some n ->
  Forall (fun c => exists d, digit_val c = Some d /\ (d < b)%N) s.
Proof.
  revert acc; induction s as [|c s IH]; intros acc H; [constructor|]. cbn in H.
  destruct (digit_val c) as [d|] eqn:E; [|discriminate].
  destruct (N.ltb_spec d b) as [Hd|Hd]; [|discriminate].
  constructor; [exists d; auto|]. eapply IH; eauto.
Qed.
Lemma numeral_chars b s n : numeral_value b s = Some n ->
  s <> [] /\ Forall (fun c => exists d, digit_val c = Some d /\ (d < b)%N) s.
Proof.
  destruct s as [|c s]; [discriminate|]. intros H. split; [discriminate|].
  eapply numeral_from_chars. exact H.
Qed.

Lemma int_digits_numeral b acc s n : numeral_value_from b acc s = Some n ->
  int_digits b acc false s = Some n.
Proof.
  revert acc; induction s as [|c s IH]; intros acc H; [exact H|]. cbn in H |- *.
  destruct (digit_val c) as [d|] eqn:E; [|discriminate].
  apply digit_val_facts in E as E'.
  destruct (Ascii.eqb_spec c "_"%char) as [->|_]; [tauto|].
  destruct (d <? b)%N; [|discriminate]. apply IH. now rewrite N.mul_comm.
Qed.

Lemma prefix_not_digit s pb b n : prefix_base s = Some pb -> (b = pb) ->
  numeral_value b s = Some n -> False.
Proof.
  intros Hp -> Hn. apply numeral_chars in Hn as [_ Hf].
  destruct s as [|z [|x s]]; try discriminate. cbn in Hp.
  destruct (Ascii.eqb z "0"); [|discriminate].
  inversion Hf as [|? ? _ Hf']; subst. inversion Hf' as [|? ? (d & Hd & Hlt) _]; subst. clear Hf Hf'.
  destruct x as [b0 b1 b2 b3 b4 b5 b6 b7].
  destruct b0, b1, b2, b3, b4, b5, b6, b7; vm_compute in Hp; try discriminate;
    injection Hp as <-; vm_compute in Hd; injection Hd as <-; vm_compute in Hlt; discriminate.
Qed.

Lemma numeral_strip b s n : numeral_value b s = Some n -> strip s = s.
Proof.
  intros H. apply numeral_chars in H as [Hne Hf].
  destruct s as [|c t]; [contradiction|].
  destruct (exists_last (l := c :: t) ltac:(discriminate)) as (u & d & E).
  inversion Hf as [|? ? (dc & Hc & _) _]; subst.
  assert (Hd : exists v, digit_val d = Some v).
  { rewrite Forall_forall in Hf. destruct (Hf d) as (v & Hv & _).
    - rewrite E. apply in_or_app; right; now left.
    - now exists v. }
  destruct Hd as [v Hv].
  apply digit_val_facts in Hc. apply digit_val_facts in Hv.
  eapply strip_by_fixed; [reflexivity|exact E|tauto|tauto].
Qed.

Lemma py_int_numeral b s n : (2 <= b <= 36)%N -> numeral_value b s = Some n ->
  py_int (Z.of_N b) s = Ok (Z.of_N n).
Proof.
  intros Hb Hn. unfold py_int.
  destruct ((Z.of_N b =? 0) || ((2 <=? Z.of_N b) && (Z.of_N b <=? 36)))%Z eqn:E; [|lia].
  rewrite N2Z.id. rewrite (numeral_strip b s n Hn).
  pose proof (numeral_chars b s n Hn) as [Hne Hf].
  destruct s as [|c s]; [contradiction|].
  inversion Hf as [|? ? (d & Hd & Hlt) _]; subst. apply digit_val_facts in Hd as Hc.
  destruct (Ascii.eqb_spec c "-"%char) as [->|_]; [tauto|].
  destruct (Ascii.eqb_spec c "+"%char) as [->|_]; [tauto|].
  assert (Hdig : int_digits b 0 false (c :: s) = Some n) by (apply int_digits_numeral; exact Hn).
  unfold int_unsigned.
  destruct (prefix_base (c :: s)) as [pb|] eqn:Ep.
  - destruct (N.eqb_spec b 0) as [?|_]; [lia|].
    destruct (N.eqb_spec b pb) as [Eb|_].
    + exfalso. eapply prefix_not_digit; eauto.
    + cbn [orb]. destruct (Ascii.eqb_spec c "_"%char) as [->|_]; [tauto|].
      rewrite Hdig. reflexivity.
  - destruct (N.eqb_spec b 0) as [?|_]; [lia|].
    destruct (Ascii.eqb_spec c "_"%char) as [->|_]; [tauto|].
    rewrite Hdig. reflexivity.
Qed.

Lemma numeral_from_parse b acc s : numeral_value_from b acc s = parse_digits b acc s.
Proof.
  revert acc; induction s as [|c s IH]; intros acc; [reflexivity|]. cbn.
  destruct (digit_val c) as [d|]; [|reflexivity].
  destruct (d <? b)%N; [|reflexivity]. rewrite IH. f_equal. lia.
Qed.
Lemma numeral_to_base b n : (2 <= b <= 36)%N -> numeral_value b (to_base b n) = Some n.
Proof.
  intros Hb. unfold numeral_value. pose proof (to_base_nonempty b n).
  destruct (to_base b n) eqn:E; [contradiction|]. rewrite <- E, numeral_from_parse.
  now apply parse_to_base.
Qed.

Lemma numeral_no c b s n : numeral_value b s = Some n ->
  (digit_val c = None) -> ~ In c s.
Proof.
  intros H Hc Hin. apply numeral_chars in H as [_ Hf]. rewrite Forall_forall in Hf.
  destruct (Hf c Hin) as (d & Hd & _). congruence.
Qed.

Lemma str_of_N_numeral b : numeral_value 10 (str_of_N b) = Some b.
Proof. apply numeral_to_base. lia. Qed.

Lemma parse_based b s n : (2 <= b <= 36)%N -> numeral_value b s = Some n ->
  parse_non_base_10 (based b s) = Ok (Z.of_N n).
Proof.
  intros Hb Hn. unfold parse_non_base_10, based.
  replace (removelast (str_of_N b ++ $"#" ++ s ++ $"#")) with (str_of_N b ++ "#"%char :: s).
  2:{ replace (str_of_N b ++ $"#" ++ s ++ $"#") with ((str_of_N b ++ "#"%char :: s) ++ ["#"%char])
        by (now rewrite <- app_assoc). now rewrite removelast_last. }
  rewrite split_on_app.
  2:{ eapply numeral_no; [apply str_of_N_numeral|reflexivity]. }
  rewrite split_on_no.
  2:{ eapply numeral_no; [exact Hn|reflexivity]. }
  change 10%Z with (Z.of_N 10). rewrite (py_int_numeral 10 _ b); [|lia|apply str_of_N_numeral].
  rewrite (py_int_numeral b s n Hb Hn). reflexivity.
Qed.

Lemma base_len b : (2 <= b <= 36)%N -> length (str_of_N b) = 1%nat \/ length (str_of_N b) = 2%nat.
Proof.
  intros H.
  assert (HF : forallb (fun d => (length (str_of_N d) =? 1)%nat || (length (str_of_N d) =? 2)%nat)
                 (map N.of_nat (seq 2 35)) = true) by (vm_compute; reflexivity).
  rewrite forallb_forall in HF. specialize (HF b).
  assert (Hin : In b (map N.of_nat (seq 2 35))).
  { apply in_map_iff. exists (N.to_nat b). split; [lia|]. apply in_seq. lia. }
  apply HF in Hin. lia.
Qed.

Lemma based_hash b s : (2 <= b <= 36)%N ->
  startswith [""""%char] (based b s) = false /\
  has_char "#"%char (zslice 1 3 (based b s)) = true.
Proof.
  intros Hb. unfold based.
  pose proof (str_of_N_numeral b) as Hnum. apply numeral_chars in Hnum as [Hne Hf].
  destruct (base_len b Hb) as [Hl|Hl].
  - destruct (str_of_N b) as [|c [|? ?]]; try discriminate.
    inversion Hf as [|? ? (d & Hd & _) _]; subst. apply digit_val_facts in Hd. split.
    + cbn [startswith app]. destruct (Ascii.eqb_spec """"%char c); [|reflexivity]. subst. vm_compute in Hd; tauto.
    + change 1%Z with (Z.of_nat 1). change 3%Z with (Z.of_nat 3). rewrite zslice_nat.
      reflexivity.
  - destruct (str_of_N b) as [|c [|c' [|? ?]]]; try discriminate.
    inversion Hf as [|? ? (d & Hd & _) _]; subst. apply digit_val_facts in Hd. split.
    + cbn [startswith app]. destruct (Ascii.eqb_spec """"%char c); [|reflexivity]. subst. vm_compute in Hd; tauto.
    + change 1%Z with (Z.of_nat 1). change 3%Z with (Z.of_nat 3). rewrite zslice_nat.
      cbn. now rewrite orb_true_r.
Qed.

Lemma literalize_based lit b s n : (2 <= b <= 36)%N -> numeral_value b s = Some n ->
  literalize lit (based b s) = Ok (PInt (Z.of_N n)).
Proof.
  intros Hb Hn. destruct (based_hash b s Hb) as [H1 H2].
  unfold literalize. cbn [literalize_fuel]. rewrite H1, H2. cbn [negb andb].
  rewrite (parse_based b s n Hb Hn). reflexivity.
Qed.

(** ** collections of based integers *)
Definition nospace (s : str) : str := filter (fun c => negb (Ascii.eqb c " "%char)) s.
Lemma nospace_app a b : nospace (a ++ b) = nospace a ++ nospace b.
Proof. apply filter_app. Qed.
Lemma nospace_spaces k : nospace (spaces k) = [].
Proof. induction k; cbn; auto. Qed.
Lemma nospace_id s : ~ In " "%char s -> nospace s = s.
Proof.
  unfold nospace. induction s as [|c s IH]; intros H; [reflexivity|]. cbn [filter].
  destruct (Ascii.eqb_spec c " "%char) as [->|_]; [exfalso; apply H; now left|].
  cbn [negb]. rewrite IH; [reflexivity|]. intros Hin. apply H. now right.
Qed.
Lemma based_no c b s n : (2 <= b <= 36)%N -> numeral_value b s = Some n ->
  digit_val c = None -> c <> "#"%char -> ~ In c (based b s).
Proof.
  intros Hb Hn Hc Hh Hin. unfold based in Hin. apply in_app_or in Hin as [Hin|Hin].
  - revert Hin. eapply numeral_no; [apply str_of_N_numeral|exact Hc].
  - apply in_app_or in Hin as [Hin|Hin]; [cbn in Hin; intuition congruence|].
    apply in_app_or in Hin as [Hin|Hin]; [|cbn in Hin; intuition congruence].
    revert Hin. eapply numeral_no; eauto.
Qed.
Lemma item_no c i n : item_value i n -> digit_val c = None -> c <> "#"%char -> c <> " "%char ->
  ~ In c (item_text i).
Proof.
  destruct i as [[[l b] s] r]. intros [Hb Hn] Hc Hh Hs Hin. unfold item_text in Hin.
  apply in_app_or in Hin as [Hin|Hin]; [apply repeat_spec in Hin; congruence|].
  apply in_app_or in Hin as [Hin|Hin]; [|apply repeat_spec in Hin; congruence].
  revert Hin. eapply based_no; eauto.
Qed.

Lemma nospace_join items ns : Forall2 item_value items ns -> items <> [] ->
  nospace (join $"," (map item_text items)) =
  join $"," (map (fun i : item => let '(_, b, s, _) := i in based b s) items).
Proof.
  intros H Hne. induction H as [|i n items ns Hi H IH]; [contradiction|].
  assert (Hi' : nospace (item_text i) = (let '(_, b, s, _) := i in based b s)).
  { destruct i as [[[l b] s] r]. destruct Hi as [Hb Hn]. unfold item_text.
    rewrite !nospace_app, !nospace_spaces, app_nil_r. cbn [app].
    apply nospace_id. eapply based_no; eauto. discriminate. }
  destruct items as [|i' items].
  - cbn [map join]. exact Hi'.
  - cbn [map] in *. 
    change (join $"," (item_text i :: item_text i' :: map item_text items))
      with (item_text i ++ $"," ++ join $"," (item_text i' :: map item_text items)).
    rewrite nospace_app, Hi', nospace_app. rewrite IH by discriminate. reflexivity.
Qed.

Lemma rmap_based items ns : Forall2 item_value items ns ->
  rmap parse_non_base_10 (map (fun i : item => let '(_, b, s, _) := i in based b s) items)
  = Ok (map Z.of_N ns).
Proof.
  induction 1 as [|[[[l b] s] r] n items ns [Hb Hn] _ IH]; [reflexivity|].
  cbn [map rmap]. rewrite (parse_based b s n Hb Hn). cbn [rbind]. rewrite IH. reflexivity.
Qed.

Lemma join_in c sep l : In c (join sep l) -> In c sep \/ exists w, In w l /\ In c w.
Proof.
  induction l as [|w l IH]; [intros []|].
  destruct l as [|w' l].
  - cbn. intros H. right. exists w. auto.
  - change (join sep (w :: w' :: l)) with (w ++ sep ++ join sep (w' :: l)).
    intros H. apply in_app_or in H as [H|H]; [right; exists w; cbn; auto|].
    apply in_app_or in H as [H|H]; [now left|].
    apply IH in H as [H|(x & Hx & Hc)]; [now left|]. right. exists x. cbn in *. tauto.
Qed.
Lemma join_no c items ns : Forall2 item_value items ns ->
  digit_val c = None -> c <> "#"%char -> c <> " "%char -> c <> ","%char ->
  ~ In c (join $"," (map item_text items)).
Proof.
  intros H Hc H1 H2 H3 Hin. apply join_in in Hin as [[Hin|[]]|(w & Hw & Hin)]; [congruence|].
  apply in_map_iff in Hw as (i & <- & Hi).
  assert (Hv : exists n, item_value i n).
  { clear - H Hi. induction H as [|j n items ns Hj _ IH]; [contradiction|].
    destruct Hi as [->|Hi]; [exists n; exact Hj|]. now apply IH. }
  destruct Hv as [n Hn]. revert Hin. eapply item_no; eauto.
Qed.

(** stripping one bracket on each side of a text without brackets *)
Lemma strip_chars_around cs o mid c :
  has_char o cs = true -> has_char c cs = true ->
  (forall x, In x mid -> has_char x cs = false) ->
  strip_chars cs (o :: mid ++ [c]) = mid.
Proof.
  intros Ho Hc Hm. unfold strip_chars.
  change (o :: mid ++ [c]) with ([o] ++ mid ++ [c]).
  rewrite strip_by_blank_around; [|now repeat constructor|now repeat constructor].
  destruct mid as [|x mid]; [reflexivity|].
  destruct (exists_last (l := x :: mid) ltac:(discriminate)) as (u & d & E).
  eapply strip_by_fixed; [reflexivity|exact E| |]; apply Hm.
  - now left.
  - rewrite E. apply in_or_app; right; now left.
Qed.

Lemma digit_hash_in a c b : ~ In NL a -> is_digit c = true ->
  digit_hash (a ++ c :: "#"%char :: b) = true.
Proof.
  intros Hn Hc. induction a as [|x a IH]; cbn [app digit_hash].
  - destruct (Ascii.eqb_spec c NL) as [->|_]; [vm_compute in Hc; discriminate|].
    rewrite Hc. reflexivity.
  - destruct (Ascii.eqb_spec x NL) as [->|_]; [exfalso; apply Hn; now left|].
    rewrite IH; [apply orb_true_r|]. intros H; apply Hn; now right.
Qed.

Lemma digit10 c d : digit_val c = Some d -> (d < 10)%N -> is_digit c = true.
Proof.
  destruct c as [b0 b1 b2 b3 b4 b5 b6 b7].
  destruct b0, b1, b2, b3, b4, b5, b6, b7; vm_compute; intros H; try discriminate;
    injection H as <-; intros H; try discriminate; reflexivity.
Qed.

Lemma collection_parse items ns o c :
  Forall2 item_value items ns -> items <> [] ->
  (o = "("%char /\ c = ")"%char \/ o = "{"%char /\ c = "}"%char) ->
  let text := o :: join $"," (map item_text items) ++ [c] in
  parse_unusual_collection text =
  Ok (if Ascii.eqb o "{"%char then PSet (map (fun n => PInt (Z.of_N n)) ns)
      else PTuple (map (fun n => PInt (Z.of_N n)) ns)).
Proof.
  intros H Hne Hoc text. unfold parse_unusual_collection.
  assert (Hbr : forall x, In x (join $"," (map item_text items)) -> has_char x brackets = false).
  { intros x Hx. apply has_char_false. intros Hin.
    assert (Hx' : digit_val x = None /\ x <> "#"%char /\ x <> " "%char /\ x <> ","%char).
    { vm_compute in Hin.
      repeat (destruct Hin as [<-|Hin]; [repeat split; try reflexivity; discriminate|]). contradiction. }
    revert Hx. eapply join_no; eauto; tauto. }
  assert (Hdh : digit_hash text = true).
  { unfold text. destruct items as [|[[[l b] s] r] items]; [contradiction|].
    inversion H as [|? n ? ns' Hbn H' E1 E2]; subst. destruct Hbn as [Hb Hn].
    pose proof (str_of_N_numeral b) as Hnum. apply numeral_chars in Hnum as [Hbne Hf].
    destruct (exists_last Hbne) as (u & d & Eu).
    assert (Hd : is_digit d = true).
    { rewrite Forall_forall in Hf. destruct (Hf d) as (v & Hv & Hlt).
      - rewrite Eu. apply in_or_app; right; now left.
      - eapply digit10; eauto. }
    assert (Et : exists rest, join $"," (map item_text (((l, b, s, r) : item) :: items)) =
                   (spaces l ++ u) ++ d :: "#"%char :: rest).
    { cbn [map]. assert (E : exists rest, item_text (l, b, s, r) = (spaces l ++ u) ++ d :: "#"%char :: rest).
      { unfold item_text, based. rewrite Eu. exists (s ++ $"#" ++ spaces r).
        rewrite <- !app_assoc. reflexivity. }
      destruct E as [rest E]. rewrite E.
      destruct (map item_text items) as [|w ws].
      - exists rest. reflexivity.
      - cbn [join]. eexists. rewrite <- app_assoc. cbn. reflexivity. }
    destruct Et as [rest Et]. unfold item in *; rewrite Et.
    replace (o :: ((spaces l ++ u) ++ d :: "#"%char :: rest) ++ [c])
      with ((o :: spaces l ++ u) ++ d :: "#"%char :: (rest ++ [c])).
    2:{ rewrite <- !app_assoc. cbn. now rewrite <- !app_assoc. }
    apply digit_hash_in; [|exact Hd].
    intros [E|Hin].
    - destruct Hoc as [[-> _]|[-> _]]; discriminate.
    - apply in_app_or in Hin as [Hin|Hin]; [apply repeat_spec in Hin; discriminate|].
      rewrite Forall_forall in Hf. destruct (Hf NL) as (v & Hv & _); [|vm_compute in Hv; discriminate].
      rewrite Eu. apply in_or_app; now left. }
  rewrite Hdh. unfold parse_non_base_10_collection, text.
  rewrite strip_chars_around; [| | |exact Hbr].
  2,3: destruct Hoc as [[-> ->]|[-> ->]]; reflexivity.
  fold (nospace (join $"," (map item_text items))).
  rewrite (nospace_join items ns H Hne).
  rewrite split_on_join.
  - rewrite (rmap_based items ns H). cbn [rbind].
    rewrite map_map. destruct Hoc as [[-> ->]|[-> ->]]; reflexivity.
  - destruct items; [contradiction|discriminate].
  - clear - H. induction H as [|[[[l b] s] r] n items ns [Hb Hn] _ IH]; cbn; constructor; [|exact IH].
    eapply based_no; eauto. discriminate.
Qed.

Lemma split_on_count c s : length (split_on c s) = S (length (filter (Ascii.eqb c) s)).
Proof.
  induction s as [|x s IH]; [reflexivity|]. cbn [split_on filter].
  rewrite (Ascii.eqb_sym c x). destruct (Ascii.eqb x c).
  - cbn. now rewrite IH.
  - destruct (split_on c s); cbn in *; lia.
Qed.

Lemma literalize_collection lit items ns o c :
  Forall2 item_value items ns -> items <> [] ->
  (o = "("%char /\ c = ")"%char \/ o = "{"%char /\ c = "}"%char) ->
  let text := o :: join $"," (map item_text items) ++ [c] in
  (lit text = Err SyntaxError \/ lit text = Err ValueError) ->
  literalize lit text =
  Ok (if Ascii.eqb o "{"%char then PSet (map (fun n => PInt (Z.of_N n)) ns)
      else PTuple (map (fun n => PInt (Z.of_N n)) ns)).
Proof.
  intros H Hne Hoc text Hlit.
  pose proof (collection_parse items ns o c H Hne Hoc) as Hp. fold text in Hp.
  assert (Hnlt : has_char "<"%char text = false).
  { apply has_char_false. unfold text. intros [E|Hin].
    - destruct Hoc as [[-> _]|[-> _]]; discriminate.
    - apply in_app_or in Hin as [Hin|[E|[]]].
      + revert Hin. eapply join_no; eauto; discriminate.
      + destruct Hoc as [[_ ->]|[_ ->]]; discriminate. }
  assert (Hnb : parse_non_base_10 text = Err SyntaxError).
  { unfold parse_non_base_10.
    assert (Hlen : (3 <= length (split_on "#"%char (removelast text)))%nat).
    { rewrite split_on_count. unfold text.
      change (o :: join $"," (map item_text items) ++ [c])
        with ((o :: join $"," (map item_text items)) ++ [c]).
      rewrite removelast_last. destruct items as [|[[[l b] s] r] items]; [contradiction|].
      assert (E : exists rest, join $"," (map item_text (((l, b, s, r) : item) :: items)) =
                  spaces l ++ str_of_N b ++ "#"%char :: s ++ "#"%char :: rest).
      { cbn [map]. destruct (map item_text items) as [|w ws].
        - exists (spaces r). cbn [join item_text]. unfold based. now rewrite <- !app_assoc.
        - cbn [join]. eexists. unfold item_text, based. rewrite <- !app_assoc. reflexivity. }
      destruct E as [rest E]. unfold item in *. rewrite E. cbn [filter].
      assert (Hc1 : forall x y : str, length (filter (Ascii.eqb "#"%char) (x ++ "#"%char :: y)) =
        S (length (filter (Ascii.eqb "#"%char) x) + length (filter (Ascii.eqb "#"%char) y))).
      { intros x y. rewrite filter_app, app_length. cbn [filter]. rewrite Ascii.eqb_refl.
        cbn [length]. lia. }
      assert (Hc2 : forall x, length (filter (Ascii.eqb "#"%char) (spaces l ++ x)) =
        length (filter (Ascii.eqb "#"%char) x)).
      { clear. intros x. unfold spaces. induction l as [|l' IHl]; [reflexivity|exact IHl]. }
      destruct (Ascii.eqb "#" o); cbn [length]; rewrite Hc2, Hc1, Hc1; lia. }
    destruct (split_on "#"%char (removelast text)) as [|a [|b [|x y]]]; cbn in Hlen; try lia; reflexivity. }
  unfold literalize. cbn [literalize_fuel]. rewrite Hnlt. cbn [andb].
  assert (Hres : match text with
                 | [] => Err IndexError
                 | x :: _ => if Ascii.eqb x "("%char || Ascii.eqb x "{"%char
                             then parse_unusual_collection text else Ok (PStr text)
                 end = parse_unusual_collection text).
  { unfold text. destruct Hoc as [[-> _]|[-> _]]; reflexivity. }
  destruct (negb (startswith [""""%char] text) && has_char "#"%char (zslice 1 3 text)).
  - rewrite Hnb. cbn [rbind]. rewrite Hres, Hp. reflexivity.
  - destruct Hlit as [E|E]; rewrite E, Hres, Hp; reflexivity.
Qed.

(** ** literalize never raises, unless literal_eval raises something unusual *)
Lemma int_unsigned_err b s e : int_unsigned b s = Err e -> e = ValueError.
Proof.
  assert (Hd : forall b s e,
    match s with
    | [] => Err ValueError
    | c :: _ => if Ascii.eqb c "_"%char then Err ValueError
                else match int_digits b 0 false s with
                     | Some n => Ok n
                     | None => Err ValueError
                     end
    end = Err e -> e = ValueError).
  { clear. intros b s e. destruct s as [|c s]; [congruence|].
    destruct (Ascii.eqb c "_"); [congruence|].
    destruct (int_digits b 0 false (c :: s)); congruence. }
  unfold int_unsigned. destruct (prefix_base s) as [pb|].
  - destruct (_ || _); apply Hd.
  - destruct (b =? 0)%N; [|apply Hd].
    destruct s as [|c s]; [cbn; congruence|].
    destruct (Ascii.eqb c "_"); [cbn; congruence|].
    destruct (int_digits 10 0 false (c :: s)); cbn [rbind]; [|congruence].
    destruct (_ && _); congruence.
Qed.
Lemma py_int_err b s e : py_int b s = Err e -> e = ValueError.
Proof.
  unfold py_int. destruct (_ || _)%bool; [|congruence].
  destruct (strip s) as [|c s']; [congruence|].
  destruct (Ascii.eqb c "-"); [|destruct (Ascii.eqb c "+")];
    match goal with |- context [int_unsigned ?b ?s] =>
      destruct (int_unsigned b s) eqn:E end; cbn; try congruence;
    apply int_unsigned_err in E; congruence.
Qed.
Lemma parse_non_base_10_err s e : parse_non_base_10 s = Err e -> e = SyntaxError.
Proof.
  unfold parse_non_base_10.
  destruct (split_on _ _) as [|a [|b [|? ?]]]; try congruence.
  destruct (py_int 10 a) as [z|e1] eqn:E1.
  - destruct (py_int z b) as [n|e2] eqn:E2; [congruence|].
    apply py_int_err in E2. subst. congruence.
  - apply py_int_err in E1. subst. congruence.
Qed.
Lemma rmap_err {A B} (f : A -> res B) (Q : exn -> Prop) l e :
  (forall a e, In a l -> f a = Err e -> Q e) -> rmap f l = Err e -> Q e.
Proof.
  induction l as [|a l IH]; intros Hf H; [discriminate|]. cbn in H.
  destruct (f a) as [b|e'] eqn:E.
  - cbn in H. destruct (rmap f l) as [bs|e'] eqn:E'; [discriminate|].
    cbn in H. injection H as <-. apply IH; [|reflexivity]. intros x e H. apply Hf. now right.
  - cbn in H. injection H as <-. eapply Hf; [now left|exact E].
Qed.
Lemma unusual_ok s : exists v, parse_unusual_collection s = Ok v.
Proof.
  unfold parse_unusual_collection. destruct (digit_hash s); [|eexists; reflexivity].
  destruct (parse_non_base_10_collection _ _) as [v|e] eqn:E; [eexists; reflexivity|].
  assert (He : e = SyntaxError).
  { unfold parse_non_base_10_collection in E. cbv zeta in E.
    match type of E with context [rmap parse_non_base_10 ?l] =>
      destruct (rmap parse_non_base_10 l) eqn:Er; [discriminate|] end.
    cbn in E. injection E as <-. refine (rmap_err parse_non_base_10 (fun e => e = SyntaxError) _ _ _ Er).
    intros a e' _ H. now apply parse_non_base_10_err in H. }
  subst. eexists; reflexivity.
Qed.

Lemma span_app f s : fst (span f s) ++ snd (span f s) = s.
Proof.
  induction s as [|c s IH]; [reflexivity|]. cbn. destruct (f c); [|reflexivity].
  destruct (span f s); cbn in *. now rewrite IH.
Qed.
Lemma span_forall f s : Forall (fun c => f c = true) (fst (span f s)).
Proof.
  induction s as [|c s IH]; [constructor|]. cbn. destruct (f c) eqn:E; [|constructor].
  destruct (span f s); cbn in *. auto.
Qed.
Lemma exponent_no_lt s : ~ In "<"%char (match_exponent s).
Proof.
  unfold match_exponent. destruct s as [|e s1]; [auto|].
  destruct (_ || _) eqn:Ee; [|auto].
  assert (He : e <> "<"%char) by (intros ->; discriminate).
  destruct s1 as [|c s2].
  - cbn. auto.
  - destruct (Ascii.eqb_spec c "-"%char) as [->|Hc].
    + pose proof (span_forall is_digit s2) as Hf.
      destruct (fst (span is_digit s2)) as [|d ds]; [auto|].
      cbn. intros [E|[E|[E|Hin]]]; try discriminate; [congruence|subst; inversion Hf; discriminate|].
      inversion Hf as [|? ? _ Hf']; subst. rewrite Forall_forall in Hf'. apply Hf' in Hin. discriminate.
    + pose proof (span_forall is_digit (c :: s2)) as Hf.
      destruct (fst (span is_digit (c :: s2))) as [|d ds]; [auto|].
      cbn. intros [E|[E|Hin]]; [congruence|subst; inversion Hf; discriminate|].
      inversion Hf as [|? ? _ Hf']; subst. rewrite Forall_forall in Hf'. apply Hf' in Hin. discriminate.
Qed.
Lemma search_value_no_lt s v : search_value s = Some v -> ~ In "<"%char v.
Proof.
  induction s as [|c s IH]; cbn [search_value].
  - cbn. discriminate.
  - pose proof (span_forall is_numch (c :: s)) as Hf.
    destruct (fst (span is_numch (c :: s))) as [|d ds].
    + repeat match goal with |- context [startswith ?a ?b] => destruct (startswith a b) end;
        try (intros E; injection E as <-; vm_compute; intuition discriminate).
      exact IH.
    + intros E. injection E as <-. rewrite app_comm_cons. intros Hin.
      apply in_app_or in Hin as [Hin|Hin]; [|revert Hin; apply exponent_no_lt].
      rewrite Forall_forall in Hf. apply Hf in Hin. discriminate.
Qed.
Lemma upto_gt_len s u : upto_last_gt s = Some u -> (length u < length s)%nat.
Proof.
  revert u; induction s as [|c s IH]; intros u; [discriminate|]. cbn.
  destruct (Ascii.eqb c NL); [discriminate|].
  destruct (upto_last_gt s) as [t|] eqn:E.
  - intros H. injection H as <-. cbn. specialize (IH t eq_refl). lia.
  - destruct (Ascii.eqb c ">"); [|discriminate]. intros H; injection H as <-. cbn. lia.
Qed.
Lemma search_units_len s u : search_units s = Some u -> (length u < length s)%nat.
Proof.
  revert u; induction s as [|c s IH]; intros u; [discriminate|]. cbn.
  destruct (Ascii.eqb c "<").
  - destruct (upto_last_gt s) as [t|] eqn:E.
    + intros H. injection H as <-. apply upto_gt_len in E. lia.
    + intros H. apply IH in H. lia.
  - intros H. apply IH in H. lia.
Qed.
Lemma lstrip_len f s : (length (lstrip_by f s) <= length s)%nat.
Proof. induction s as [|c s IH]; cbn; [lia|]. destruct (f c); cbn; lia. Qed.
Lemma strip_len f s : (length (strip_by f s) <= length s)%nat.
Proof.
  unfold strip_by, rstrip_by. rewrite rev_length.
  pose proof (lstrip_len f (rev (lstrip_by f s))). rewrite rev_length in H.
  pose proof (lstrip_len f s). lia.
Qed.
Lemma split_on_len c s w : In w (split_on c s) -> (length w <= length s)%nat.
Proof.
  revert w; induction s as [|x s IH]; intros w; cbn.
  - intros [<-|[]]. cbn. lia.
  - destruct (Ascii.eqb x c).
    + intros [<-|H]; [cbn; lia|]. apply IH in H. lia.
    + destruct (split_on c s) as [|w0 ws] eqn:E; [exfalso; now apply (split_on_nonempty c s)|].
      intros [<-|H].
      * cbn. specialize (IH w0 (or_introl eq_refl)). lia.
      * specialize (IH w (or_intror H)). lia.
Qed.

Definition angled (s : str) : bool := has_char "<"%char s && has_char ">"%char s.

Lemma literalize_fuel_ok lit f obj : tame lit ->
  (1 <= f)%nat -> (angled obj = true -> (length obj <= f)%nat) ->
  exists v, literalize_fuel lit f obj = Ok v.
Proof.
  intros Ht. revert obj. induction f as [|f IH]; intros obj Hf Ha; [lia|].
  cbn [literalize_fuel].
  match goal with |- context [match ?first with Ok v => Ok v | Err _ => _ end] =>
    assert (Hfirst : forall e, first = Err e -> e = SyntaxError \/ e = ValueError) end.
  { destruct (negb _ && _).
    - destruct (parse_non_base_10 obj) eqn:E; cbn; intros e' He; [discriminate|].
      injection He as <-. left. eapply parse_non_base_10_err; eauto.
    - intros e. apply Ht. }
  destruct (if negb _ && _ then _ else _) as [v|e1]; [eexists; reflexivity|].
  specialize (Hfirst e1 eq_refl). clear -Ht IH Hf Ha Hfirst.
  assert (Hsecond : exists v,
    match (if has_char "<"%char obj && has_char ">"%char obj
     then
      do out <-
        rmap (fun o : str =>
            if has_char "<"%char o && has_char ">"%char o
            then
             match
               match search_value o with
               | Some v =>
                   do value <- literalize_fuel lit f v;
                   match search_units o with
                   | Some u => do units <- literalize_fuel lit f u;
                      Ok (PDict [($"value", value); ($"units", units)])
                   | None => Err AttributeError
                   end
               | None => Err AttributeError
               end
             with
             | Err AttributeError => Ok (PStr o)
             | r => r
             end
            else literalize_fuel lit f o)
           (split_on ","%char (strip_chars $"()" obj));
      match out with [x] => Ok x | _ => Ok (PTuple out) end
     else
      match obj with
      | [] => Err IndexError
      | c :: _ => if Ascii.eqb c "("%char || Ascii.eqb c "{"%char
                  then parse_unusual_collection obj else Ok (PStr obj)
      end) with
    | Ok v => Ok v
    | Err SyntaxError | Err ValueError | Err IndexError => Ok (PStr obj)
    | Err e => Err e
    end = Ok v).
  { fold (angled obj). destruct (angled obj) eqn:Ea.
    - specialize (Ha eq_refl).
      assert (Hlen2 : (2 <= length obj)%nat).
      { unfold angled in Ea. apply andb_true_iff in Ea as [E1 E2].
        apply has_char_iff in E1, E2. destruct obj as [|x [|y obj]]; cbn in *; try lia; try contradiction.
        destruct E1 as [->|[]], E2 as [E2|[]]. discriminate. }
      match goal with |- context [rmap ?g ?l] =>
        assert (Hr : exists out, rmap g l = Ok out) end.
      { match goal with |- exists out, rmap ?g ?l = Ok out => destruct (rmap g l) as [out|e] eqn:E;
          [eexists; reflexivity|exfalso; refine (rmap_err g (fun _ => False) l e _ E)] end.
        intros o e' Hin. pose proof (split_on_len _ _ _ Hin) as Hl1.
        pose proof (strip_len (fun c => has_char c $"()") obj) as Hl2. fold (strip_chars $"()" obj) in Hl2.
        fold (angled o). destruct (angled o) eqn:Eo.
        - destruct (search_value o) as [v|] eqn:Ev; [|discriminate].
          destruct (IH v) as [v' Ev'].
          + lia.
          + intros Hav. unfold angled in Hav. apply andb_true_iff in Hav as [Hav _].
            apply has_char_iff in Hav. apply search_value_no_lt in Ev. contradiction.
          + rewrite Ev'. cbn [rbind]. destruct (search_units o) as [u|] eqn:Eu; [|discriminate].
            apply search_units_len in Eu.
            destruct (IH u) as [u' Eu']; [lia|intros _; lia|]. rewrite Eu'. cbn [rbind]. discriminate.
        - destruct (IH o) as [v' Ev']; [lia|congruence|]. rewrite Ev'. discriminate. }
      destruct Hr as [out Hr]. rewrite Hr. cbn [rbind]. destruct out as [|x [|y out]]; eexists; reflexivity.
    - destruct obj as [|c obj]; [eexists; reflexivity|].
      destruct (_ || _); [|eexists; reflexivity].
      destruct (unusual_ok (c :: obj)) as [v E]. rewrite E. eexists; reflexivity. }
  destruct Hsecond as [v Hv]. exists v. destruct Hfirst as [-> | ->]; exact Hv.
Qed.

Lemma literalize_ok lit obj : tame lit -> exists v, literalize lit obj = Ok v.
Proof. intros H. unfold literalize. apply literalize_fuel_ok; auto; lia. Qed.

(** ** blocks *)
Definition literal_of (lit : str -> res pv) (v v' : pv) : Prop :=
  exists s, v = PStr s /\ literalize lit s = Ok v'.

Section Block.
  Variable lit : str -> res pv.
  Notation dig := (dig_value (fun _ v => negb (is_multi v)) false true
                     (fun (u : unit) k => Ok (u, k)) (literalize_value lit)).
  Notation digm := (multidict_dig_and_edit (fun _ v => negb (is_multi v)) false true
                     (fun (u : unit) k => Ok (u, k)) (literalize_value lit)).

  Lemma ldig_multi s kvs : dig s (PMulti kvs) = do r <- digm s kvs; Ok (fst r, PMulti (snd r)).
  Proof.
    cbn [dig_value].
    match goal with |- rbind ?a _ = rbind ?b _ => assert (E : a = b) end.
    { revert s. induction kvs as [|[k v0] l IH]; intros s; [reflexivity|].
      cbn [multidict_dig_and_edit].
      destruct (dig s v0) as [[s1 v1]|e]; cbn [rbind fst snd]; [|reflexivity].
      destruct (edit_item _ _ _ _ _ s1 k v1 (is_multi v0)) as [[s2 m2]|e];
        cbn [rbind fst snd]; [|reflexivity].
      now rewrite IH. }
    now rewrite E.
  Qed.

  Definition ok_rel (v : pv) : Prop := forall u,
    match v with
    | PMulti kvs => forall r, digm u kvs = Ok r -> same_shape (literal_of lit) v (PMulti (snd r))
    | _ => True
    end.

  Lemma block_shape v : ok_rel v.
  Proof.
    induction v as [v Hv|kvs IH] using pv_multi_ind; intros u.
    - destruct v; try exact I. discriminate.
    - intros [u' m'] H. cbn [snd]. apply SS_multi. revert u u' m' H.
      induction IH as [|[k v] kvs Hv _ IHl]; intros u u' m' H.
      + cbn in H. injection H as _ <-. constructor.
      + cbn [multidict_dig_and_edit] in H. cbn [snd] in Hv.
        destruct (is_multi v) eqn:Em.
        * destruct v as [| | | | | | | |kvs0]; try discriminate.
          rewrite ldig_multi in H. specialize (Hv u).
          destruct (digm u kvs0) as [[u1 m1]|e] eqn:E0; cbn [rbind fst snd] in H; [|discriminate].
          unfold edit_item in H. cbn [is_multi negb orb rbind fst snd] in H.
          destruct (digm u1 kvs) as [[u2 m2]|e] eqn:E; cbn [rbind fst snd] in H; [|discriminate].
          injection H as <- <-. constructor; [|eapply IHl; eauto]. cbn. split; [reflexivity|].
          apply (Hv (u1, m1) E0).
        * assert (Hd : dig u v = Ok (u, v)) by (destruct v; try discriminate; reflexivity).
          rewrite Hd in H. cbn [rbind fst snd] in H. unfold edit_item in H. rewrite Em in H.
          cbn [negb] in H.
          assert (Hv' : exists s v', v = PStr s /\ literalize lit s = Ok v' /\
                    literalize_value lit u v = Ok (u, v')).
          { destruct v; cbn [literalize_value] in *; try discriminate.
            destruct (literalize lit s) as [v'|e] eqn:El; [|discriminate]. exists s, v'. rewrite El. auto. }
          destruct Hv' as (s & v' & -> & El & Ev). rewrite Ev in H. cbn [rbind fst snd] in H.
          destruct (digm u kvs) as [[u2 m2]|e] eqn:E; cbn [rbind fst snd] in H; [|discriminate].
          injection H as <- <-. constructor; [|eapply IHl; eauto]. cbn. split; [reflexivity|].
          constructor; [reflexivity|]. exists s. auto.
  Qed.

  Lemma literalize_block_shape m m' : literalize_pvl_block lit m = Ok m' ->
    same_shape (literal_of lit) (PMulti m) (PMulti m').
  Proof.
    unfold literalize_pvl_block. pose proof (block_shape (PMulti m) tt) as H. cbn in H.
    destruct (digm tt m) as [r|e]; cbn [rbind]; [|discriminate].
    intros E. injection E as <-. now apply H.
  Qed.

  Lemma block_total v : tame lit -> string_leaves v ->
    match v with PMulti kvs => forall u, exists r, digm u kvs = Ok r | _ => True end.
  Proof.
    intros Ht. induction v as [v Hv|kvs IH] using pv_multi_ind; intros Hs.
    - destruct v; try exact I. discriminate.
    - cbn in Hs. induction IH as [|[k v] kvs Hv _ IHl]; intros u.
      + eexists; reflexivity.
      + destruct Hs as [Hs1 Hs2]. cbn [snd] in *. cbn [multidict_dig_and_edit].
        destruct (is_multi v) eqn:Em.
        * destruct v as [| | | | | | | |kvs0]; try discriminate.
          rewrite ldig_multi. destruct (Hv Hs1 u) as [[u1 m1] E1]. rewrite E1.
          cbn [rbind fst snd]. unfold edit_item. cbn [is_multi negb orb rbind fst snd].
          destruct (IHl Hs2 u1) as [r Er]. rewrite Er. eexists; reflexivity.
        * destruct v; try contradiction; try discriminate. cbn [dig_value rbind fst snd].
          unfold edit_item. cbn [is_multi negb literalize_value].
          destruct (literalize_ok lit s Ht) as [v' Ev]. rewrite Ev. cbn [rbind fst snd].
          destruct (IHl Hs2 u) as [r Er]. rewrite Er. eexists; reflexivity.
  Qed.
End Block.
