(** Quantities: number <UNITS>. *)
From Coq Require Import ZifyBool ZifyNat ZifyN.
From Verif.Base Require Import Py Val PyFacts.
From Verif.Model Require Import Pvl PvlLiteral.
From Verif.Spec Require Import Pvl.
From Verif.Proofs Require Import PvlText PvlLiteral.

Lemma literalize_fuel_plain lit f g s : has_char "<"%char s = false ->
  literalize_fuel lit (S f) s = literalize_fuel lit (S g) s.
Proof. intros H. cbn [literalize_fuel]. rewrite H. reflexivity. Qed.
Lemma literalize_fuel_eq lit f s : has_char "<"%char s = false ->
  literalize_fuel lit (S f) s = literalize lit s.
Proof. apply literalize_fuel_plain. Qed.

Lemma number_char_b c : number_char c -> is_numch c = true.
Proof.
  unfold is_numch. intros [H|[-> | ->]]; [now rewrite H|reflexivity|reflexivity].
Qed.
Lemma number_char_not c : number_char c ->
  c <> ","%char /\ c <> "<"%char /\ c <> ">"%char /\ c <> "#"%char /\ c <> " "%char /\
  c <> "("%char /\ c <> ")"%char /\ c <> NL /\ c <> "e"%char /\ c <> "E"%char.
Proof.
  intros H. apply number_char_b in H.
  repeat split; intros ->; vm_compute in H; discriminate.
Qed.

Lemma span_all f v t : Forall (fun c => f c = true) v ->
  match t with [] => True | c :: _ => f c = false end ->
  span f (v ++ t) = (v, t).
Proof.
  induction v as [|c v IH]; intros Hv Ht.
  - destruct t as [|c t]; [reflexivity|]. cbn. now rewrite Ht.
  - inversion Hv; subst. cbn. rewrite H1, IH by assumption. reflexivity.
Qed.

Lemma number_text_not c v : number_text v -> In c v ->
  c <> ","%char /\ c <> "<"%char /\ c <> ">"%char /\ c <> "#"%char /\ c <> " "%char /\
  c <> "("%char /\ c <> ")"%char /\ c <> NL.
Proof.
  assert (G : forall v, Forall number_char v -> In c v -> c <> ","%char /\ c <> "<"%char /\ c <> ">"%char /\ c <> "#"%char /\ c <> " "%char /\
    c <> "("%char /\ c <> ")"%char /\ c <> NL).
  { intros w Hw Hin. rewrite Forall_forall in Hw. apply Hw, number_char_not in Hin. tauto. }
  intros H Hin. destruct H as [v Hne Hv|v e sign ds Hne Hv He Hs Hds Hd|v Hw].
  - now apply (G v).
  - apply in_app_or in Hin as [Hin|[<-|Hin]]; [now apply (G v)|destruct He as [-> | ->]; repeat split; discriminate|].
    apply in_app_or in Hin as [Hin|Hin].
    + destruct Hs as [-> | ->]; [destruct Hin|destruct Hin as [<-|[]]; repeat split; discriminate].
    + apply (G ds); [|exact Hin]. eapply Forall_impl; [|exact Hd]. intros x Hx. now left.
  - destruct Hw as [<-|[<-|[<-|[]]]]; cbn in Hin; repeat (destruct Hin as [<-|Hin]; [repeat split; discriminate|]); destruct Hin.
Qed.
Lemma number_text_ne v : number_text v -> v <> [].
Proof.
  intros [w H _|w e sg ds H _ _ _ _ _|w H]; [exact H|now destruct w|]. destruct H as [<-|[<-|[<-|[]]]]; discriminate.
Qed.
Lemma span_digits ds t : Forall (fun c => is_digit c = true) ds -> (t = [] \/ exists t', t = " "%char :: t' \/ t = "<"%char :: t') ->
  fst (span is_digit (ds ++ t)) = ds.
Proof.
  intros H Ht. rewrite span_all; [reflexivity|exact H|]. destruct Ht as [-> |(t' & [-> | ->])]; reflexivity || exact I.
Qed.
Lemma search_value_number v t : number_text v -> (exists t', t = " "%char :: t' \/ t = "<"%char :: t') ->
  search_value (v ++ t) = Some v.
Proof.
  intros H Ht.
  assert (G : forall v s, v <> [] -> Forall number_char v -> (exists c s', s = c :: s' /\ is_numch c = false) ->
    search_value (v ++ s) = Some (v ++ match_exponent s)).
  { intros w s Hne Hw (c & s' & -> & Hc). destruct w as [|d w]; [contradiction|].
    assert (Hs : span is_numch ((d :: w) ++ c :: s') = (d :: w, c :: s')).
    { apply span_all; [|exact Hc]. eapply Forall_impl; [|exact Hw]. apply number_char_b. }
    remember (c :: s') as t2. change ((d :: w) ++ t2) with (d :: (w ++ t2)) in *. cbn [search_value]. now rewrite Hs. }
  destruct H as [v Hne Hv|v e sign ds Hne Hv He Hs Hds Hd|v Hw].
  - rewrite G; [|exact Hne|exact Hv|].
    + replace (match_exponent t) with (@nil ascii); [now rewrite app_nil_r|]. destruct Ht as (t' & [-> | ->]); reflexivity.
    + destruct Ht as (t' & [-> | ->]); eexists; eexists; split; reflexivity.
  - rewrite <- app_assoc. rewrite G; [|exact Hne|exact Hv|].
    + do 2 f_equal. cbn [app match_exponent].
      replace (Ascii.eqb e "e"%char || Ascii.eqb e "E"%char) with true by (destruct He as [-> | ->]; reflexivity).
      assert (Sp : fst (span is_digit (ds ++ t)) = ds) by (apply span_digits; [exact Hd|now right]).
      destruct Hs as [-> | ->].
      * cbn [app]. destruct ds as [|d ds]; [contradiction|]. cbn [app] in Sp |- *.
        destruct (Ascii.eqb_spec d "-"%char) as [->|_]; [inversion Hd; discriminate|]. rewrite Sp. reflexivity.
      * change (($"-" ++ ds) ++ t) with ("-"%char :: (ds ++ t)). cbv iota beta. change (Ascii.eqb "-" "-") with true. cbv iota beta.
        rewrite Sp. destruct ds; [contradiction|reflexivity].
    + exists e; eexists. split; [reflexivity|]. destruct He as [-> | ->]; reflexivity.
  - destruct Hw as [<-|[<-|[<-|[]]]]; reflexivity.
Qed.
Lemma search_value_quantity l v w u r : number_text v ->
  search_value (qtext (Quantity l v w u r)) = Some v.
Proof.
  intros Hv. cbn [qtext].
  induction l as [|l IH].
  - cbn [spaces repeat app]. apply search_value_number; [exact Hv|]. destruct w; eexists; [right|left]; reflexivity.
  - change (spaces (S l) ++ v ++ spaces w ++ $"<" ++ u ++ $">" ++ spaces r)
      with (" "%char :: (spaces l ++ v ++ spaces w ++ $"<" ++ u ++ $">" ++ spaces r)).
    cbn [search_value]. 
    change (fst (span is_numch (" "%char :: ?x))) with (@nil ascii).
    exact IH.
Qed.

Lemma upto_spaces r : upto_last_gt (spaces r) = None.
Proof. induction r as [|r IH]; [reflexivity|]. cbn. unfold spaces in IH. now rewrite IH. Qed.
Lemma upto_units u r : ~ In NL u -> upto_last_gt (u ++ $">" ++ spaces r) = Some u.
Proof.
  induction u as [|c u IH]; intros H.
  - change ([] ++ $">" ++ spaces r) with (">"%char :: spaces r). cbn [upto_last_gt].
    rewrite upto_spaces. reflexivity.
  - cbn [app upto_last_gt].
    destruct (Ascii.eqb_spec c NL) as [->|_]; [exfalso; apply H; now left|].
    rewrite IH; [reflexivity|]. intros Hin; apply H; now right.
Qed.
Lemma search_units_skip a b : ~ In "<"%char a ->
  search_units (a ++ b) = search_units b.
Proof.
  induction a as [|c a IH]; intros H; [reflexivity|]. cbn [app search_units].
  destruct (Ascii.eqb_spec c "<"%char) as [->|_]; [exfalso; apply H; now left|].
  apply IH. intros Hin; apply H; now right.
Qed.
Lemma not_in_spaces c k : c <> " "%char -> ~ In c (spaces k).
Proof. intros H Hin. apply repeat_spec in Hin. contradiction. Qed.
Lemma search_units_quantity l v w u r : number_text v -> ~ In NL u ->
  search_units (qtext (Quantity l v w u r)) = Some u.
Proof.
  intros Hv Hu. cbn [qtext].
  rewrite search_units_skip by now apply not_in_spaces.
  rewrite search_units_skip.
  2:{ intros Hin. apply (number_text_not _ _ Hv) in Hin. tauto. }
  rewrite search_units_skip by now apply not_in_spaces.
  change ($"<" ++ u ++ $">" ++ spaces r) with ("<"%char :: (u ++ $">" ++ spaces r)).
  cbn [search_units]. change (Ascii.eqb "<" "<") with true. cbn iota.
  now rewrite upto_units.
Qed.

(** characters of items *)
Lemma qtext_in c i : In c (qtext i) -> wf_qitem i ->
  c <> ","%char /\ c <> "#"%char.
Proof.
  destruct i as [l v w u r|s]; cbn [qtext wf_qitem].
  - intros Hin (Hv & Hu).
    repeat (apply in_app_or in Hin as [Hin|Hin]);
      try (apply repeat_spec in Hin; subst; split; discriminate);
      try (destruct Hin as [<-|[]]; split; discriminate).
    + apply (number_text_not _ _ Hv) in Hin. tauto.
    + apply Hu in Hin. tauto.
  - intros Hin (_ & Hs). apply Hs in Hin. tauto.
Qed.
Lemma qtext_first i : wf_qitem i -> exists c t, qtext i = c :: t /\ c <> "("%char /\ c <> ")"%char.
Proof.
  destruct i as [l v w u r|s]; cbn [qtext wf_qitem].
  - intros (Hv & _). destruct l as [|l].
    + pose proof (number_text_ne _ Hv) as Hne. destruct v as [|c v]; [contradiction|].
      pose proof (number_text_not c _ Hv (or_introl eq_refl)). eexists; eexists. split; [reflexivity|]. tauto.
    + eexists; eexists. split; [reflexivity|]. split; discriminate.
  - intros (Hne & Hs). destruct s as [|c s]; [contradiction|]. exists c, s.
    split; [reflexivity|]. specialize (Hs c (or_introl eq_refl)). tauto.
Qed.
Lemma qtext_last i : wf_qitem i -> exists d t, qtext i = t ++ [d] /\ d <> "("%char /\ d <> ")"%char.
Proof.
  destruct i as [l v w u r|s]; cbn [qtext wf_qitem].
  - intros _. destruct r as [|r].
    + exists ">"%char, (spaces l ++ v ++ spaces w ++ $"<" ++ u).
      rewrite <- !app_assoc. repeat split; discriminate.
    + exists " "%char, (spaces l ++ v ++ spaces w ++ $"<" ++ u ++ $">" ++ spaces r).
      rewrite <- !app_assoc. replace (spaces (S r)) with (spaces r ++ [" "%char])
        by (symmetry; exact (repeat_cons r " "%char)).
      repeat split; discriminate.
  - intros (Hne & Hs). destruct (exists_last Hne) as (t & d & E). exists d, t.
    split; [exact E|]. specialize (Hs d). rewrite E in Hs.
    assert (In d (t ++ [d])) by (apply in_or_app; right; now left). apply Hs in H. tauto.
Qed.
Lemma join_ends items : items <> [] -> Forall wf_qitem items ->
  exists c t u d, join $"," (map qtext items) = c :: t /\ join $"," (map qtext items) = u ++ [d] /\
    has_char c $"()" = false /\ has_char d $"()" = false.
Proof.
  intros Hne Hf.
  assert (Hpar : forall c, c <> "("%char -> c <> ")"%char -> has_char c $"()" = false).
  { intros c H1 H2. apply has_char_false. intros [E|[E|[]]]; congruence. }
  assert (H1 : exists c t, join $"," (map qtext items) = c :: t /\ has_char c $"()" = false).
  { destruct items as [|i items]; [contradiction|]. inversion Hf; subst.
    destruct (qtext_first i H1) as (c & t & E & Hc1 & Hc2).
    cbn [map join]. rewrite E. destruct (map qtext items); exists c; eexists; (split; [reflexivity|]); auto. }
  assert (H2 : exists u d, join $"," (map qtext items) = u ++ [d] /\ has_char d $"()" = false).
  { clear H1. induction Hf as [|i items Hi Hf IH]; [contradiction|].
    destruct items as [|i' items].
    - cbn [map join]. destruct (qtext_last i Hi) as (d & t & E & Hd1 & Hd2). exists t, d. auto.
    - destruct IH as (u & d & E & Hd); [discriminate|].
      cbn [map] in *. exists (qtext i ++ $"," ++ u), d. split; [|exact Hd].
      change (join $"," (qtext i :: qtext i' :: map qtext items))
        with (qtext i ++ $"," ++ join $"," (qtext i' :: map qtext items)).
      rewrite E. now rewrite <- !app_assoc. }
  destruct H1 as (c & t & E1 & Hc), H2 as (u & d & E2 & Hd). exists c, t, u, d. auto.
Qed.


Lemma quantity_statement lit items vs open close :
  Forall wf_qitem items -> Exists is_quantity items ->
  (open = [] /\ close = [] \/ open = $"(" /\ close = $")") ->
  let text := open ++ join $"," (map qtext items) ++ close in
  (lit text = Err SyntaxError \/ lit text = Err ValueError) ->
  Forall2 (qmeaning (fun s v => literalize lit s = Ok v)) items vs ->
  literalize lit text = Ok (match vs with [v] => v | _ => PTuple vs end).
Proof.
  intros Hwf Hq Hoc text Hlit Hm.
  assert (Hne : items <> []) by (intros ->; inversion Hq).
  assert (Hchars : forall c, In c (join $"," (map qtext items)) -> c = ","%char \/ exists i, In i items /\ In c (qtext i)).
  { intros c Hin. apply join_in in Hin as [[E|[]]|(w & Hw & Hin)]; [left; congruence|].
    apply in_map_iff in Hw as (i & <- & Hi). right. eauto. }
  assert (Hh : has_char "#"%char (zslice 1 3 text) = false).
  { apply has_char_false. intros Hin.
    assert (Hin' : In "#"%char text).
    { change 1%Z with (Z.of_nat 1) in Hin. change 3%Z with (Z.of_nat 3) in Hin.
      rewrite zslice_nat in Hin.
      assert (Hfn : forall n (l : str) x, In x (firstn n l) -> In x l).
      { intros n l x Hx. rewrite <- (firstn_skipn n l). apply in_or_app; now left. }
      assert (Hsn : forall n (l : str) x, In x (skipn n l) -> In x l).
      { intros n l x Hx. rewrite <- (firstn_skipn n l). apply in_or_app; now right. }
      first [apply Hfn, Hsn in Hin; exact Hin | apply Hsn, Hfn in Hin; exact Hin]. }
    unfold text in Hin'. apply in_app_or in Hin' as [Hin'|Hin'].
    { destruct Hoc as [[-> _]|[-> _]]; [contradiction|]. destruct Hin' as [E|[]]; discriminate. }
    apply in_app_or in Hin' as [Hin'|Hin'].
    2:{ destruct Hoc as [[_ ->]|[_ ->]]; [contradiction|]. destruct Hin' as [E|[]]; discriminate. }
    apply Hchars in Hin' as [E|(i & Hi & Hc)]; [discriminate|].
    rewrite Forall_forall in Hwf. apply (qtext_in _ _ Hc (Hwf i Hi)). reflexivity. }
  assert (Hang : forall c, c = "<"%char \/ c = ">"%char -> has_char c text = true).
  { intros c Hc. apply has_char_iff. unfold text. apply in_or_app; right. apply in_or_app; left.
    assert (Hj : forall l (x : ascii) (ws : list str), In l ws -> In x l -> In x (join $"," ws)).
    { clear. intros l x ws. induction ws as [|w ws IH]; [intros []|]. intros Hl Hx.
      destruct ws as [|w' ws]; [destruct Hl as [->|[]]; exact Hx|].
      change (join $"," (w :: w' :: ws)) with (w ++ $"," ++ join $"," (w' :: ws)).
      destruct Hl as [->|Hl]; [apply in_or_app; now left|].
      apply in_or_app; right. apply in_or_app; right. now apply IH. }
    apply Exists_exists in Hq as (i & Hi & Hiq).
    apply (Hj (qtext i)); [now apply in_map|].
    destruct i as [l v w u r|]; [|contradiction]. cbn [qtext].
    destruct Hc as [-> | ->].
    - apply in_or_app; right. apply in_or_app; right. apply in_or_app; right. now left.
    - apply in_or_app; right. apply in_or_app; right. apply in_or_app; right. apply in_or_app; right.
      apply in_or_app; right. now left. }
  destruct (join_ends items Hne Hwf) as (c & t & u & d & E1 & E2 & Hc & Hd).
  assert (Hstrip : strip_chars $"()" text = join $"," (map qtext items)).
  { unfold strip_chars, text. rewrite strip_by_blank_around.
    - eapply strip_by_fixed; eauto.
    - destruct Hoc as [[-> _]|[-> _]]; repeat constructor.
    - destruct Hoc as [[_ ->]|[_ ->]]; repeat constructor. }
  assert (HF : exists f, S (length text) = S f) by eauto. destruct HF as [f HF].
  unfold literalize at 1. rewrite HF. remember (S f) as F eqn:EF. cbn [literalize_fuel]. rewrite Hh, andb_false_r.
  rewrite (Hang "<"%char) by auto. rewrite (Hang ">"%char) by auto. cbn [andb].
  rewrite Hstrip. rewrite split_on_join.
  2:{ destruct items; [contradiction|discriminate]. }
  2:{ apply Forall_map. eapply Forall_impl; [|exact Hwf]. intros i Hi Hin.
      destruct (qtext_in _ _ Hin Hi) as [H _]. now apply H. }
  match goal with |- context [rmap ?g _] => assert (Hr : rmap g (map qtext items) = Ok vs) end.
  { subst F. clear - Hwf Hm Hne.
    clear Hne. induction Hm as [|i v items vs Hi Hm IH]; [reflexivity|].
    inversion Hwf as [|? ? Hw Hwf']; subst. cbn [map rmap]. 
    match goal with |- (do b <- ?e; _) = _ => assert (E : e = Ok v) end.
    { inversion Hi as [l nv w u r a b Ha Hb|s a Ha]; subst.
      - destruct Hw as (Hv & Hu).
        assert (HL : has_char "<"%char (qtext (Quantity l nv w u r)) = true).
        { apply has_char_iff. cbn [qtext].
          apply in_or_app; right. apply in_or_app; right. apply in_or_app; right. now left. }
        assert (HG : has_char ">"%char (qtext (Quantity l nv w u r)) = true).
        { apply has_char_iff. cbn [qtext].
          apply in_or_app; right. apply in_or_app; right. apply in_or_app; right. apply in_or_app; right.
          apply in_or_app; right. now left. }
        rewrite HL, HG. cbn [andb].
        rewrite search_value_quantity by assumption.
        rewrite search_units_quantity; [|assumption|intros Hin; apply Hu in Hin; tauto].
        rewrite (literalize_fuel_eq lit f nv).
        2:{ apply has_char_false. intros Hin.
            apply (number_text_not _ _ Hv) in Hin. tauto. }
        rewrite Ha. cbn [rbind].
        rewrite (literalize_fuel_eq lit f u).
        2:{ apply has_char_false. intros Hin. apply Hu in Hin. tauto. }
        rewrite Hb. reflexivity.
      - destruct Hw as (Hsne & Hs). cbn [qtext].
        assert (HL : has_char "<"%char s = false).
        { apply has_char_false. intros Hin. apply Hs in Hin. tauto. }
        rewrite HL. cbn [andb]. now rewrite (literalize_fuel_eq lit f s HL). }
    rewrite E. cbn [rbind]. rewrite IH by assumption. reflexivity. }
  rewrite Hr. cbn [rbind].
  destruct Hlit as [E|E]; rewrite E; destruct vs as [|v [|v' vs]]; reflexivity.
Qed.
