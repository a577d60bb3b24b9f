(** Proofs about keyword filtering, queries and special cases. *)
From Coq Require Import Permutation Sorting.Sorted.
From Verif.Base Require Import Py PyFacts.
From Verif.Model Require Import Func.
From Verif.Spec Require Import Func.

Section F.
  Context {V : Type}.
  Implicit Types (d : kw V) (f g : pyfun V) (queries : list (str * pyfun V)).

  Lemma kget_app d1 d2 k : kget (d1 ++ d2) k = match kget d1 k with Some v => Some v | None => kget d2 k end.
  Proof. induction d1 as [|[k' v] d1 IH]; [reflexivity|]. cbn [app kget]. destruct (str_eqb k' k); auto. Qed.
  Lemma kset_new d k v : ~ In k (keys d) -> kset d k v = d ++ [(k, v)].
  Proof.
    induction d as [|[k' v'] d IH]; intros H; [reflexivity|]. cbn [kset app keys map fst] in *.
    destruct (str_eqb k' k) eqn:E; [apply str_eqb_eq in E; subst; exfalso; apply H; now left|].
    rewrite IH; [reflexivity|]. intros Hi. apply H. now right.
  Qed.
  Lemma keys_app d1 d2 : keys (d1 ++ d2) = keys d1 ++ keys d2.
  Proof. apply map_app. Qed.

  Lemma run_log to_get queries : forall d log r, run_queries to_get queries d = (log, r) ->
    exists rest, filter (fun q => str_in q to_get) (map fst queries) = map fst log ++ rest /\
      (forall d', r = Ok d' -> rest = []).
  Proof.
    induction queries as [|[q g] queries IH]; intros d log r H; cbn [run_queries] in H.
    - injection H as <- <-. exists []. split; reflexivity.
    - cbn [map fst filter]. destruct (str_in q to_get).
      + destruct (f_call g [] (filterkwargs g d)) as [v|e].
        * destruct (run_queries to_get queries (kset d q v)) as [log' r'] eqn:E. injection H as <- <-.
          destruct (IH _ _ _ E) as (rest & Hr & Hd). exists rest. cbn [map fst]. now rewrite Hr.
        * injection H as <- <-. eexists. split; [reflexivity|]. intros d' Hd; discriminate.
      + now apply IH in H.
  Qed.

  Lemma run_ok to_get : forall queries d log d', NoDup (map fst queries) ->
    (forall a, In a (map fst queries) -> In a to_get -> ~ In a (keys d)) ->
    run_queries to_get queries d = (log, Ok d') ->
    exists answers, d' = d ++ answers /\ map fst answers = map fst log /\
      forall i q v, nth_error answers i = Some (q, v) ->
        exists g, In (q, g) queries /\
          nth_error log i = Some (q, filterkwargs g (d ++ firstn i answers)) /\
          f_call g [] (filterkwargs g (d ++ firstn i answers)) = Ok v.
  Proof.
    induction queries as [|[q g] queries IH]; intros d log d' Hnd Hf H; cbn [run_queries] in H.
    - injection H as <- <-. exists []. rewrite app_nil_r. repeat split. intros [|i]; discriminate.
    - cbn [map fst] in Hnd, Hf. inversion Hnd as [|? ? Hq Hnd']; subst.
      destruct (str_in q to_get) eqn:Eq.
      + apply str_in_iff in Eq. destruct (f_call g [] (filterkwargs g d)) as [v|e] eqn:Ec; [|discriminate].
        destruct (run_queries to_get queries (kset d q v)) as [log' r'] eqn:E. injection H as <- ->.
        rewrite kset_new in E by (apply Hf; [now left|exact Eq]).
        apply IH in E; auto.
        * destruct E as (an & -> & Hl & Han). exists ((q, v) :: an). rewrite <- app_assoc. split; [reflexivity|].
          split; [cbn; now rewrite Hl|]. intros [|i] q' v' Hn; cbn [nth_error firstn] in *.
          -- injection Hn as <- <-. exists g. rewrite app_nil_r. repeat split; auto. now left.
          -- destruct (Han i q' v' Hn) as (g' & Hg & Hlog & Hv). exists g'. rewrite <- app_assoc in *.
             repeat split; auto. now right.
        * intros a Ha Ht Hin. rewrite keys_app in Hin. apply in_app_or in Hin as [Hin|Hin].
          -- exact (Hf a (or_intror Ha) Ht Hin).
          -- cbn in Hin. destruct Hin as [<-|[]]. contradiction.
      + apply IH in H; [|exact Hnd'|intros a Ha; apply Hf; now right].
        destruct H as (an & -> & Hl & Han).
        exists an. repeat split; auto. intros i q' v Hn. destruct (Han i q' v Hn) as (g' & Hg & R).
        exists g'. split; [now right|exact R].
  Qed.

  Lemma run_err to_get queries : forall d log e, run_queries to_get queries d = (log, Err e) ->
    exists q g passed, In (q, g) queries /\ In q to_get /\ last log (q, []) = (q, passed) /\
      f_call g [] passed = Err e.
  Proof.
    induction queries as [|[q g] queries IH]; intros d log e H; cbn [run_queries] in H; [discriminate|].
    destruct (str_in q to_get) eqn:Eq.
    - apply str_in_iff in Eq. destruct (f_call g [] (filterkwargs g d)) as [v|e'] eqn:Ec.
      + destruct (run_queries to_get queries (kset d q v)) as [log' r'] eqn:E. injection H as <- ->.
        destruct (IH _ _ _ E) as (q' & g' & ps & Hg & Hq & Hl & Hc). exists q', g', ps.
        split; [now right|]. split; [exact Hq|]. split; [|exact Hc].
        destruct log'; [cbn in Hl; exfalso|].
        * clear -E. destruct queries as [|[q2 g2] qs]; [discriminate|].
          revert E. generalize (kset d q v). clear. intros d. revert d q2 g2.
          induction qs as [|[q3 g3] qs IH]; intros d q2 g2; cbn [run_queries].
          -- destruct (str_in q2 to_get); [|discriminate]. destruct (f_call g2 [] _); discriminate.
          -- destruct (str_in q2 to_get); [|apply IH]. destruct (f_call g2 [] _).
             ++ match goal with |- context [let '(_, _) := ?x in _] => destruct x end. discriminate.
             ++ discriminate.
        * exact Hl.
      + injection H as <- <-. exists q, g, (filterkwargs g d). repeat split; auto. now left.
    - destruct (IH _ _ _ H) as (q' & g' & ps & Hg & R). exists q', g', ps. split; [now right|exact R].
  Qed.

  Lemma required_iff f queries a : In a (required f queries) <-> needs f queries a.
  Proof.
    unfold required, needs. rewrite in_app_iff, in_flat_map. unfold get_non_optional_argnames. split.
    - intros [H|([q g] & Hq & H)]; apply in_map_iff in H as (p & <- & Hp); apply filter_In in Hp as [Hp Ho].
      + exists f, p. auto.
      + exists g, p. split; [right; apply in_map_iff; now exists (q, g)|auto].
    - intros (g & p & [->|Hg] & Hp & Ho & <-).
      + left. apply in_map_iff. exists p. split; [reflexivity|]. now apply filter_In.
      + right. apply in_map_iff in Hg as ([q g'] & E & Hq). cbn in E. subst g'. exists (q, g). split; [exact Hq|].
        apply in_map_iff. exists p. split; [reflexivity|]. now apply filter_In.
  Qed.
  Lemma to_get_iff f queries d a :
    In a (filter (fun a => negb (str_in a (keys d))) (required f queries)) <-> needs f queries a /\ ~ In a (keys d).
  Proof. rewrite filter_In, required_iff, negb_true_iff, str_in_false. reflexivity. Qed.

  Lemma softquery_cases f queries d :
    ((exists a, needs f queries a /\ ~ In a (keys d) /\ ~ In a (map fst queries)) /\
     softquery f queries d = ([], Err TypeError)) \/
    ((forall a, needs f queries a -> In a (keys d) \/ In a (map fst queries)) /\
     softquery f queries d =
       run_queries (filter (fun a => negb (str_in a (keys d))) (required f queries)) queries d).
  Proof.
    unfold softquery.
    set (tg := filter (fun a => negb (str_in a (keys d))) (required f queries)).
    destruct (filter (fun a => negb (str_in a (map fst queries))) tg) as [|x l] eqn:E.
    - right. split; [|reflexivity]. intros a Ha.
      destruct (str_in a (keys d)) eqn:E1; [left; now apply str_in_iff|].
      destruct (str_in a (map fst queries)) eqn:E2; [right; now apply str_in_iff|]. exfalso.
      assert (H : In a (filter (fun a => negb (str_in a (map fst queries))) tg)).
      { apply filter_In. split; [|now rewrite E2]. apply to_get_iff. split; [exact Ha|now apply str_in_false]. }
      now rewrite E in H.
    - left. split; [|reflexivity].
      assert (H : In x (filter (fun a => negb (str_in a (map fst queries))) tg)) by (rewrite E; now left).
      apply filter_In in H as [H1 H2]. apply to_get_iff in H1 as [H1 H3]. exists x.
      rewrite negb_true_iff, str_in_false in H2. auto.
  Qed.
End F.

(** ** annotations *)
Lemma split_by_no f s : Forall (fun c => f c = false) s -> split_by f s = [s].
Proof.
  induction 1 as [|c s Hc _ IH]; [reflexivity|]. cbn [split_by]. rewrite Hc, IH. reflexivity.
Qed.
Lemma split_by_app f a c s : Forall (fun c => f c = false) a -> f c = true ->
  split_by f (a ++ c :: s) = a :: split_by f s.
Proof.
  intros Ha Hc. induction Ha as [|x a Hx _ IH]; cbn [app split_by].
  - now rewrite Hc.
  - now rewrite Hx, IH.
Qed.

Definition plain_text (s : str) : Prop := Forall (fun c => colon_or_eq c = false) s.
Definition blank_or_quote (c : ascii) : bool := has_char c $" '".
Lemma not_optional_annotated p a q1 q2 t d :
  plain_text (p_name p) -> p_ann p = Some a -> p_default p = d ->
  a = q1 ++ t ++ q2 -> Forall (fun c => blank_or_quote c = true) q1 ->
  Forall (fun c => blank_or_quote c = true) q2 -> strip_by blank_or_quote t = t -> plain_text t ->
  not_optional p = negb (optional_text t || str_in (p_name p) [$"_"; $"__"]).
Proof.
  intros Hn Ha Hd -> H1 H2 Ht Hp. unfold not_optional.
  assert (Hq : forall q, Forall (fun c => blank_or_quote c = true) q -> plain_text q).
  { intros q Hq. eapply Forall_impl; [|exact Hq]. intros c Hc. unfold blank_or_quote in Hc.
    apply has_char_iff in Hc. cbn in Hc. destruct Hc as [<-|[<-|[]]]; reflexivity. }
  assert (E : exists w b rest, Forall (fun c => blank_or_quote c = true) b /\
    split_by colon_or_eq (param_str p) = w :: (($" " ++ q1) ++ t ++ (q2 ++ b)) :: rest).
  { unfold param_str. rewrite Ha, Hd.
    set (stars := match p_kind p with VAR_POSITIONAL => _ | VAR_KEYWORD => _ | _ => _ end).
    assert (Hst : plain_text stars) by (unfold stars; destruct (p_kind p); repeat constructor).
    exists (stars ++ p_name p).
    assert (Hb : plain_text (($" " ++ q1) ++ t ++ q2)).
    { unfold plain_text. rewrite !Forall_app. split; [split; [repeat constructor|now apply Hq]|].
      split; [exact Hp|now apply Hq]. }
    replace (stars ++ p_name p ++ ($": " ++ q1 ++ t ++ q2) ++ match d with Some d0 => $" = " ++ d0 | None => [] end)
      with ((stars ++ p_name p) ++ ":"%char :: (($" " ++ q1) ++ t ++ q2) ++ match d with Some d0 => $" = " ++ d0 | None => [] end)
      by (rewrite <- !app_assoc; reflexivity).
    rewrite split_by_app; [|now apply Forall_app|reflexivity].
    destruct d as [d0|].
    - exists $" ", (split_by colon_or_eq ($" " ++ d0)). split; [repeat constructor|]. f_equal.
      replace ((($" " ++ q1) ++ t ++ q2) ++ $" = " ++ d0)
        with (((($" " ++ q1) ++ t ++ q2) ++ $" ") ++ "="%char :: ($" " ++ d0))
        by (rewrite <- !app_assoc; reflexivity).
      rewrite split_by_app; [|apply Forall_app; split; [exact Hb|repeat constructor]|reflexivity].
      f_equal. now rewrite <- !app_assoc.
    - exists [], []. split; [constructor|]. rewrite !app_nil_r. now rewrite split_by_no. }
  destruct E as (w & b & rest & Hb & ->).
  unfold strip_chars. change (fun c => has_char c $" '") with blank_or_quote.
  rewrite strip_by_blank_around, Ht.
  - unfold optional_text. destruct (startswith _ t || _ || _); [reflexivity|].
    destruct (str_in _ _); reflexivity.
  - apply Forall_app. split; [repeat constructor|exact H1].
  - now apply Forall_app.
Qed.

(** ** sig_union *)
Lemma kind_eqb_eq a b : kind_eqb a b = true <-> a = b.
Proof. destruct a, b; split; intros H; try reflexivity; discriminate. Qed.
Lemma opt_eqb_eq a b : opt_eqb a b = true <-> a = b.
Proof.
  destruct a, b; cbn; split; intros H; try reflexivity; try discriminate.
  - apply str_eqb_eq in H. now subst.
  - injection H as ->. apply str_eqb_refl.
Qed.
Lemma param_eqb_eq a b : param_eqb a b = true <-> a = b.
Proof.
  unfold param_eqb. rewrite !andb_true_iff, kind_eqb_eq, str_eqb_eq, !opt_eqb_eq.
  destruct a, b; cbn. split; [intros (((-> & ->) & ->) & ->); reflexivity|].
  intros H. injection H as -> -> -> ->. auto.
Qed.

Definition same_name (pr : param * param) : bool := str_eqb (p_name (fst pr)) (p_name (snd pr)).
Definition conflict (pr : param * param) : bool :=
  same_name pr && match p_ann (fst pr), p_ann (snd pr) with
                  | Some a, Some b => negb (str_eqb a b) | _, _ => false end.
Definition loser (pr : param * param) : param :=
  match p_ann (fst pr), p_ann (snd pr) with None, Some _ => fst pr | _, _ => snd pr end.
Definition loses (q : param) (pr : param * param) : bool := same_name pr && param_eqb q (loser pr).

Lemma filter_all {A} (f : A -> bool) l : (forall x, f x = true) -> filter f l = l.
Proof. intros H. induction l as [|a l IH]; [reflexivity|]. cbn [filter]. now rewrite H, IH. Qed.
Lemma union_fold pairs : forall out,
  fold_left union_pair pairs (Ok out) =
  if existsb conflict pairs then Err TypeError
  else Ok (filter (fun q => negb (existsb (loses q) pairs)) out).
Proof.
  assert (He : forall e ps, fold_left union_pair ps (Err e) = Err e).
  { induction ps as [|pr ps IH]; [reflexivity|]. exact IH. }
  induction pairs as [|[p1 p2] pairs IH]; intros out; cbn [fold_left existsb].
  - f_equal. symmetry. now apply filter_all.
  - assert (Hs : union_pair (Ok out) (p1, p2) =
      if conflict (p1, p2) then Err TypeError
      else Ok (filter (fun q => negb (loses q (p1, p2))) out)).
    { unfold union_pair, conflict, loses, same_name, loser, remove_param. cbn [rbind fst snd].
      destruct (str_eqb (p_name p1) (p_name p2)); cbn [negb andb].
      - destruct (p_ann p1), (p_ann p2); try reflexivity.
      - f_equal. symmetry. now apply filter_all. }
    rewrite Hs. destruct (conflict (p1, p2)); [apply He|]. rewrite IH. cbn [orb].
    destruct (existsb conflict pairs); [reflexivity|]. f_equal.
    clear Hs. induction out as [|q out IHo]; [reflexivity|]. cbn [filter]. rewrite negb_orb.
    destruct (negb (loses q (p1, p2))); cbn [andb filter]; [|exact IHo].
    destruct (negb (existsb (loses q) pairs)); now rewrite IHo.
Qed.

Lemma comb_in {A} (l : list A) x y : In (x, y) (combinations2 l) <-> exists l1 l2 l3, l = l1 ++ x :: l2 ++ y :: l3.
Proof.
  induction l as [|a l IH]; cbn [combinations2].
  - split; [contradiction|]. intros ([|] & ? & ? & H); discriminate.
  - rewrite in_app_iff, in_map_iff, IH. split.
    + intros [(z & E & Hz)|(l1 & l2 & l3 & ->)].
      * injection E as -> ->. apply in_split in Hz as (l2 & l3 & ->). now exists [], l2, l3.
      * now exists (a :: l1), l2, l3.
    + intros ([|b l1] & l2 & l3 & E); cbn in E; injection E as -> ->.
      * left. exists y. split; [reflexivity|]. apply in_or_app. right. now left.
      * right. now exists l1, l2, l3.
Qed.
Lemma comb_two {A} (l : list A) x y : In x l -> In y l -> x <> y ->
  In (x, y) (combinations2 l) \/ In (y, x) (combinations2 l).
Proof.
  intros Hx Hy Hn. apply in_split in Hx as (l1 & l2 & ->). apply in_app_or in Hy as [Hy|[Hy|Hy]].
  - right. apply in_split in Hy as (a & b & ->). apply comb_in. exists a, b, l2. now rewrite <- app_assoc.
  - congruence.
  - left. apply in_split in Hy as (a & b & ->). apply comb_in. now exists l1, a, b.
Qed.
Lemma find_first {A} (P : A -> bool) l x : In x l -> P x = true ->
  exists l1 w l2, l = l1 ++ w :: l2 /\ P w = true /\ forall y, In y l1 -> P y = false.
Proof.
  induction l as [|a l IH]; [contradiction|]. intros Hx Px. destruct (P a) eqn:Ea.
  - exists [], a, l. repeat split; auto. intros y [].
  - destruct Hx as [->|Hx]; [congruence|]. destruct (IH Hx Px) as (l1 & w & l2 & -> & H1 & H2).
    exists (a :: l1), w, l2. repeat split; auto. intros y [<-|Hy]; auto.
Qed.
Lemma before_in {A} (l l1 l2 a b c : list A) x w : NoDup l -> l = l1 ++ w :: l2 -> l = a ++ x :: b ++ w :: c -> In x l1.
Proof.
  intros Hn E1 E2. rewrite E1 in E2.
  assert (H : l1 = a ++ x :: b).
  { rewrite E1 in Hn. clear E1 l. replace (a ++ x :: b ++ w :: c) with ((a ++ x :: b) ++ w :: c) in E2
      by now rewrite <- app_assoc.
    revert E2. generalize (a ++ x :: b). clear a b x. revert Hn.
    induction l1 as [|y l1 IH]; intros Hn [|z m] E; cbn in E.
    - reflexivity.
    - injection E as -> E. inversion Hn as [|? ? H _]. exfalso. apply H. rewrite E. apply in_or_app. right. now left.
    - injection E as -> E. inversion Hn as [|? ? H _]. exfalso. apply H. apply in_or_app. right. now left.
    - injection E as -> E. f_equal. apply IH; [now inversion Hn|exact E]. }
  rewrite H. apply in_or_app. right. now left.
Qed.

Definition annotated (p : param) : bool := match p_ann p with Some _ => true | None => false end.
Lemma survivor_beats params w n l1 l2 : NoDup params -> params = l1 ++ w :: l2 ->
  p_name w = n ->
  (annotated w = true -> forall y, In y l1 -> p_name y = n -> annotated y = false) ->
  (annotated w = false -> (forall y, In y params -> p_name y = n -> annotated y = false) /\
                          forall y, In y l1 -> p_name y <> n) ->
  existsb (loses w) (combinations2 params) = false.
Proof.
  intros Hnd E Hw H1 H2. destruct (existsb (loses w) (combinations2 params)) eqn:Ex; [|reflexivity]. exfalso.
  apply existsb_exists in Ex as ([p1 p2] & Hin & Hl). unfold loses, same_name in Hl. cbn [fst snd] in Hl.
  apply andb_true_iff in Hl as [Hs Hl]. apply str_eqb_eq in Hs. apply param_eqb_eq in Hl.
  apply comb_in in Hin as (a & b & c & Ep).
  unfold loser in Hl. cbn [fst snd] in Hl. unfold annotated in *.
  destruct (p_ann p1) as [a1|] eqn:E1.
  - (* p2 loses *)
    subst p2. assert (Hb : In p1 l1) by (eapply before_in; eauto).
    destruct (p_ann w) as [aw|] eqn:Ew.
    + specialize (H1 eq_refl p1 Hb). rewrite E1 in H1. rewrite Hw in Hs. now apply H1 in Hs.
    + destruct (H2 eq_refl) as [_ H3]. apply (H3 p1 Hb). congruence.
  - destruct (p_ann p2) as [a2|] eqn:E2.
    + subst p1. rewrite E1 in H2. destruct (H2 eq_refl) as [H3 _].
      assert (Hi : In p2 params) by (rewrite Ep; apply in_or_app; right; right; apply in_or_app; right; now left).
      specialize (H3 p2 Hi). rewrite E2 in H3. rewrite Hw in Hs. symmetry in Hs. now apply H3 in Hs.
    + subst p2. assert (Hb : In p1 l1) by (eapply before_in; eauto).
      rewrite E2 in H2. destruct (H2 eq_refl) as [_ H3]. apply (H3 p1 Hb). congruence.
Qed.

Lemma union_survives params out p : NoDup params ->
  fold_left union_pair (combinations2 params) (Ok params) = Ok out -> In p params ->
  exists w, In w out /\ p_name w = p_name p /\ (annotated p = true -> annotated w = true).
Proof.
  intros Hnd Hf Hp. rewrite union_fold in Hf. destruct (existsb conflict _); [discriminate|]. injection Hf as <-.
  set (n := p_name p).
  destruct (existsb (fun q => str_eqb (p_name q) n && annotated q) params) eqn:Ea.
  - apply existsb_exists in Ea as (q & Hq & Eq).
    destruct (find_first (fun q => str_eqb (p_name q) n && annotated q) params q Hq Eq) as (l1 & w & l2 & El & Pw & Hl1).
    apply andb_true_iff in Pw as [Pw Aw]. apply str_eqb_eq in Pw. exists w. split; [|auto].
    apply filter_In. split; [rewrite El; apply in_or_app; right; now left|].
    rewrite (survivor_beats params w n l1 l2); auto.
    + intros _ y Hy Ey. specialize (Hl1 y Hy). apply andb_false_iff in Hl1 as [H|H]; [|exact H].
      rewrite Ey, str_eqb_refl in H. discriminate.
    + congruence.
  - destruct (find_first (fun q => str_eqb (p_name q) n) params p Hp (str_eqb_refl n)) as (l1 & w & l2 & El & Pw & Hl1).
    apply str_eqb_eq in Pw.
    assert (Hna : forall y, In y params -> p_name y = n -> annotated y = false).
    { intros y Hy Ey. destruct (annotated y) eqn:Ay; [|reflexivity].
      assert (Hx : existsb (fun q => str_eqb (p_name q) n && annotated q) params = true).
      { apply existsb_exists. exists y. split; [exact Hy|]. now rewrite Ey, str_eqb_refl, Ay. }
      congruence. }
    assert (Hw : In w params) by (rewrite El; apply in_or_app; right; now left).
    exists w. split; [|split; [exact Pw|]].
    + apply filter_In. split; [exact Hw|]. rewrite (survivor_beats params w n l1 l2); auto.
      * intros Aw. rewrite (Hna w Hw Pw) in Aw. discriminate.
      * intros _. split; [exact Hna|]. intros y Hy Ey. specialize (Hl1 y Hy). rewrite Ey, str_eqb_refl in Hl1. discriminate.
    + intros Ap. rewrite (Hna p Hp eq_refl) in Ap. discriminate.
Qed.
Lemma union_unique params out p q : NoDup params ->
  fold_left union_pair (combinations2 params) (Ok params) = Ok out ->
  In p out -> In q out -> p_name p = p_name q -> p = q.
Proof.
  intros Hnd Hf Hp Hq E. rewrite union_fold in Hf. destruct (existsb conflict _); [discriminate|]. injection Hf as <-.
  apply filter_In in Hp as [Hp Lp], Hq as [Hq Lq]. apply negb_true_iff in Lp, Lq.
  destruct (param_eqb p q) eqn:Epq; [now apply param_eqb_eq|].
  assert (Hn : p <> q) by (intros ->; rewrite (proj2 (param_eqb_eq q q) eq_refl) in Epq; discriminate).
  assert (Hx : forall a b, In (a, b) (combinations2 params) -> p_name a = p_name b ->
    existsb (loses a) (combinations2 params) = true \/ existsb (loses b) (combinations2 params) = true).
  { intros a b Hin En. assert (Hs : same_name (a, b) = true) by (unfold same_name; cbn; rewrite En; apply str_eqb_refl).
    assert (Hl : loser (a, b) = a \/ loser (a, b) = b) by (unfold loser; cbn; destruct (p_ann a), (p_ann b); auto).
    destruct Hl as [Hl|Hl]; [left|right]; apply existsb_exists; exists (a, b); (split; [exact Hin|]);
      unfold loses; rewrite Hs, Hl; now apply param_eqb_eq. }
  destruct (comb_two params p q Hp Hq Hn) as [Hin|Hin]; apply Hx in Hin as [H|H]; congruence.
Qed.
Lemma union_subset params out p : fold_left union_pair (combinations2 params) (Ok params) = Ok out ->
  In p out -> In p params.
Proof.
  intros Hf. rewrite union_fold in Hf. destruct (existsb conflict _); [discriminate|]. injection Hf as <-.
  intros H. now apply filter_In in H.
Qed.

Lemma filter_split_perm {A} (f : A -> bool) l : Permutation (filter f l ++ filter (fun x => negb (f x)) l) l.
Proof.
  induction l as [|a l IH]; [constructor|]. cbn [filter]. destruct (f a); cbn [negb].
  - now constructor.
  - rewrite <- Permutation_middle. now constructor.
Qed.
Lemma paramsort_perm l : Permutation (paramsort l) l.
Proof.
  unfold paramsort.
  assert (H : forall ks, NoDup ks -> Permutation
    (flat_map (fun k => required_first (filter (fun p => kind_eqb (p_kind p) k) l)) ks)
    (filter (fun p => existsb (kind_eqb (p_kind p)) ks) l)).
  { induction ks as [|k ks IH]; intros Hn; cbn [flat_map].
    - cbn [existsb]. induction l; [constructor|assumption].
    - inversion Hn as [|? ? Hk Hn']; subst. rewrite (IH Hn'). unfold required_first. rewrite filter_split_perm.
      clear -Hk. induction l as [|p l IHl]; [constructor|]. cbn [filter existsb].
      destruct (kind_eqb (p_kind p) k) eqn:E; cbn [orb].
      + apply kind_eqb_eq in E. destruct (existsb (kind_eqb (p_kind p)) ks) eqn:Ex.
        * exfalso. apply existsb_exists in Ex as (k' & Hk' & E2). apply kind_eqb_eq in E2. congruence.
        * cbn [app]. now constructor.
      + destruct (existsb (kind_eqb (p_kind p)) ks); [|exact IHl].
        rewrite <- Permutation_middle. now constructor. }
  rewrite H by (repeat constructor; cbn; intuition discriminate).
  rewrite (filter_ext_in _ (fun _ => true)).
  - now rewrite filter_all.
  - intros p _. destruct p as [[] ? ? ?]; reflexivity.
Qed.
Lemma sorted_app (R : param -> param -> Prop) a b : StronglySorted R a -> StronglySorted R b ->
  (forall x y, In x a -> In y b -> R x y) -> StronglySorted R (a ++ b).
Proof.
  intros Ha Hb H. induction Ha as [|x a Ha IH Hx]; [exact Hb|]. cbn. constructor.
  - apply IH. intros; apply H; [now right|assumption].
  - apply Forall_app. split; [exact Hx|]. apply Forall_forall. intros y Hy. apply H; [now left|exact Hy].
Qed.
Lemma sorted_const (R : param -> param -> Prop) n l : (forall x y, key x = n -> key y = n -> R x y) -> (forall x, In x l -> key x = n) ->
  StronglySorted R l.
Proof.
  intros HR H. induction l as [|a l IH]; constructor.
  - apply IH. intros; apply H; now right.
  - apply Forall_forall. intros y Hy. apply HR; apply H; [now left|now right].
Qed.
Lemma paramsort_sorted l : StronglySorted (fun p q => key p <= key q)%nat (paramsort l).
Proof.
  unfold paramsort.
  assert (Hin : forall k p, In p (required_first (filter (fun p => kind_eqb (p_kind p) k) l)) -> p_kind p = k).
  { intros k p H. unfold required_first in H. apply in_app_or in H as [H|H]; apply filter_In in H as [H _];
      apply filter_In in H as [_ H]; now apply kind_eqb_eq in H. }
  assert (H1 : forall k, StronglySorted (fun p q => key p <= key q)%nat (required_first (filter (fun p => kind_eqb (p_kind p) k) l))).
  { intros k. unfold required_first.
    assert (Ha : forall x, In x (filter not_optional (filter (fun p => kind_eqb (p_kind p) k) l)) -> key x = (2 * rank k)%nat).
    { intros x Hx. apply filter_In in Hx as [Hx Ho]. apply filter_In in Hx as [_ Hk]. apply kind_eqb_eq in Hk.
      unfold key. rewrite Ho, Hk. lia. }
    assert (Hb : forall x, In x (filter (fun p => negb (not_optional p)) (filter (fun p => kind_eqb (p_kind p) k) l)) -> key x = (2 * rank k + 1)%nat).
    { intros x Hx. apply filter_In in Hx as [Hx Ho]. apply filter_In in Hx as [_ Hk]. apply kind_eqb_eq in Hk.
      apply negb_true_iff in Ho. unfold key. rewrite Ho, Hk. lia. }
    apply sorted_app.
    - apply sorted_const with (n := (2 * rank k)%nat); [lia|exact Ha].
    - apply sorted_const with (n := (2 * rank k + 1)%nat); [lia|exact Hb].
    - intros x y Hx Hy. rewrite (Ha x Hx), (Hb y Hy). lia. }
  assert (H2 : forall ks, StronglySorted (fun a b => rank a < rank b)%nat ks ->
    StronglySorted (fun p q => key p <= key q)%nat (flat_map (fun k => required_first (filter (fun p => kind_eqb (p_kind p) k) l)) ks)).
  { induction 1 as [|k ks Hs IH Hk]; cbn [flat_map]; [constructor|]. apply sorted_app; auto.
    intros x y Hx Hy. apply Hin in Hx. apply in_flat_map in Hy as (k' & Hk' & Hy). apply Hin in Hy.
    rewrite Forall_forall in Hk. specialize (Hk k' Hk'). unfold key. rewrite Hx, Hy.
    destruct (not_optional x), (not_optional y); lia. }
  apply H2. repeat constructor.
Qed.
