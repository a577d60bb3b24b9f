(** Proofs for C43. *)
From Coq Require Import Lia.
From Verif.Base Require Import Py Val PyFacts.
From Verif.Model Require Import Xml.
From Verif.Spec Require Import Xml.
From Verif.Proofs Require Import TableLabel PvlPointers.
Open Scope nat_scope.

(** ** Induction over trees and values *)
Lemma xml_ind' (P : xml -> Prop) : (forall t a x y cs, Forall P cs -> P (Elem t a x y cs)) -> forall e, P e.
Proof.
  intros H. fix IH 1. intros [t a x y cs]. apply H. induction cs as [|c cs IHc]; constructor; [apply IH|exact IHc].
Qed.
(** steps needed *)
Fixpoint need (v : pv) : nat :=
  match v with
  | PTuple l => S (list_sum (map need l))
  | PDict d | PMulti d => S (S (list_sum (map (fun kv => need (snd kv)) d)))
  | _ => 1
  end.
Definition needs (items : list (str * pv)) : nat := S (list_sum (map (fun kv => need (snd kv)) items)).
Lemma sum_app l m : list_sum (l ++ m) = list_sum l + list_sum m.
Proof. induction l; cbn; [reflexivity|]. unfold list_sum in *. lia. Qed.
Lemma unpack_ok : forall fuel items, needs items <= fuel -> unpack fuel items = Ok (flat_map (fun kv => entries (fst kv) (snd kv)) items).
Proof.
  induction fuel as [|fuel IH]; intros items H; [unfold needs in H; lia|]. cbn [unpack]. destruct items as [|[k v] items]; [reflexivity|].
  assert (H' : S (need v + list_sum (map (fun kv => need (snd kv)) items)) <= S fuel) by exact H. clear H. rename H' into H.
  assert (Hi : forall n, S n + S (list_sum (map (fun kv : str * pv => need (snd kv)) items)) <= S fuel -> unpack fuel items = Ok (flat_map (fun kv => entries (fst kv) (snd kv)) items)) by (intros n Hn; apply IH; unfold needs; lia).
  cbn [flat_map fst snd].
  assert (Hl : forall d : list (str * pv), S (S (list_sum (map (fun kv => need (snd kv)) d))) + list_sum (map (fun kv => need (snd kv)) items) < S fuel ->
    rbind (unpack fuel d) (fun u => rbind (unpack fuel items) (fun r => Ok ((k, PMulti u) :: r))) = Ok ([(k, PMulti (flat_map (fun kv => entries (fst kv) (snd kv)) d))] ++ flat_map (fun kv => entries (fst kv) (snd kv)) items)).
  { intros d Hd. rewrite (IH d) by (unfold needs; lia). cbn [rbind]. rewrite (IH items) by (unfold needs; lia). reflexivity. }
  destruct v; cbn [need] in H; cbn [entries]; try (rewrite (Hi 0) by lia; reflexivity); try (apply Hl; lia).
  rewrite IH.
  - f_equal. rewrite flat_map_app. f_equal. clear. induction l as [|x l IHl]; [reflexivity|]. cbn [map flat_map fst snd]. now rewrite IHl.
  - unfold needs. rewrite map_app, sum_app, map_map. change (map (fun x : pv => need (snd (k, x))) l) with (map need l). lia.
Qed.

(** ** Groups *)
Lemma firsts_snoc l x : firsts (l ++ [x]) = if str_in x l then firsts l else firsts l ++ [x].
Proof.
  induction l as [|y l IH]; [reflexivity|]. cbn [app firsts]. rewrite IH. change (str_in x (y :: l)) with (str_eqb x y || str_in x l)%bool.
  destruct (str_in x l); [now rewrite orb_true_r|]. rewrite orb_false_r, filter_app. cbn [filter]. rewrite (str_eqb_sym y x). destruct (str_eqb x y); cbn [negb]; [now rewrite app_nil_r|reflexivity].
Qed.
Lemma firsts_in x l : In x (firsts l) <-> In x l.
Proof.
  induction l as [|y l IH]; [reflexivity|]. cbn [firsts In]. rewrite filter_In, IH, negb_true_iff. destruct (str_eqb_spec y x) as [->|Hn]; [tauto|]. split; [tauto|]. intros [H|H]; [contradiction|auto].
Qed.
Lemma firsts_nodup l : NoDup (firsts l).
Proof. induction l as [|y l IH]; [constructor|]. cbn [firsts]. constructor; [|now apply NoDup_filter]. rewrite filter_In. intros [_ H]. now rewrite str_eqb_refl in H. Qed.
Definition with_key {A} (k : str) (l : list (str * A)) : list A := map snd (filter (fun kv => str_eqb (fst kv) k) l).
Lemma with_key_app {A} k (l m : list (str * A)) : with_key k (l ++ m) = with_key k l ++ with_key k m.
Proof. unfold with_key. now rewrite filter_app, map_app. Qed.
Lemma with_key_one {A} k x (v : A) : with_key k [(x, v)] = if str_eqb x k then [v] else [].
Proof. unfold with_key. cbn [filter fst]. now destruct (str_eqb x k). Qed.
Lemma dict_get_map {A} (f : str -> A) ks k : dict_get (map (fun k => (k, f k)) ks) k = if str_in k ks then Some (f k) else None.
Proof.
  induction ks as [|x ks IH]; [reflexivity|]. unfold dict_get in *. cbn [map find fst]. change (str_in k (x :: ks)) with (str_eqb k x || str_in k ks)%bool. rewrite (str_eqb_sym k x).
  destruct (str_eqb_spec x k) as [->|Hn]; [reflexivity|exact IH].
Qed.
Lemma dict_set_map {A} (f : str -> A) ks k v : NoDup ks -> dict_set (map (fun k => (k, f k)) ks) k v = if str_in k ks then map (fun x => (x, if str_eqb x k then v else f x)) ks else map (fun k => (k, f k)) ks ++ [(k, v)].
Proof.
  induction ks as [|x ks IH]; intros Hn; [reflexivity|]. inversion Hn as [|? ? H1 H2]; subst. cbn [map dict_set]. change (str_in k (x :: ks)) with (str_eqb k x || str_in k ks)%bool. rewrite (str_eqb_sym k x).
  destruct (str_eqb_spec x k) as [->|Hx]; cbn [orb].
  - f_equal. apply map_ext_in. intros y Hy. destruct (str_eqb_spec y k) as [->|]; [contradiction|reflexivity].
  - rewrite (IH H2). destruct (str_in k ks); reflexivity.
Qed.
Definition groups (l : list (str * pv)) : list (str * list pv) := map (fun k => (k, with_key k l)) (firsts (map fst l)).
Lemma groups_ok l : fold_left append_value l [] = groups l.
Proof.
  induction l as [|[k v] l IH] using rev_ind; [reflexivity|]. rewrite fold_left_app, IH. cbn [fold_left]. unfold append_value. cbn [fst snd].
  unfold groups. rewrite dict_get_map, dict_set_map by apply firsts_nodup. rewrite map_app. cbn [map fst]. rewrite firsts_snoc.
  assert (Hin : str_in k (firsts (map fst l)) = str_in k (map fst l)).
  { apply Bool.eq_iff_eq_true. rewrite !str_in_iff. apply firsts_in. }
  rewrite Hin. destruct (str_in k (map fst l)) eqn:E.
  - apply map_ext. intros x. f_equal. rewrite with_key_app, with_key_one, (str_eqb_sym k x). destruct (str_eqb_spec x k) as [->|]; [reflexivity|]. now rewrite app_nil_r.
  - rewrite map_app. cbn [map]. assert (Hk : ~ In k (map fst l)) by (rewrite <- str_in_iff; congruence). f_equal.
    + apply map_ext_in. intros x Hx. f_equal. rewrite with_key_app, with_key_one. destruct (str_eqb_spec k x) as [->|]; [exfalso; apply Hk; now apply firsts_in|]. now rewrite app_nil_r.
    + rewrite with_key_app, with_key_one, str_eqb_refl. do 3 f_equal. unfold with_key. symmetry.
      apply map_eq_nil with (f := id). rewrite map_id. clear - Hk. induction l as [|[a b] l IH]; [reflexivity|]. cbn [filter fst]. cbn in Hk. destruct (str_eqb_spec a k) as [->|]; [tauto|]. apply IH. tauto.
Qed.

(** ** Text *)
Lemma is_blank_iff s : is_blank s = true <-> blank s.
Proof.
  unfold is_blank, blank. split.
  - intros H. destruct (strip s) eqn:E; [|discriminate]. clear H. unfold strip, strip_by, rstrip_by in E.
    apply (f_equal (@rev ascii)) in E. rewrite rev_involutive in E. cbn in E.
    assert (A : forall l, lstrip_by is_space l = [] -> Forall (fun c => is_space c = true) l).
    { induction l as [|c l IH]; intros Hl; [constructor|]. cbn [lstrip_by] in Hl. destruct (is_space c) eqn:Ec; [|discriminate]. constructor; auto. }
    apply A in E. assert (B : forall l, lstrip_by is_space (rev (lstrip_by is_space l)) = [] -> Forall (fun c => is_space c = true) l).
    { intros l Hl. induction l as [|c l IH]; [constructor|]. cbn [lstrip_by] in Hl. destruct (is_space c) eqn:Ec; [constructor; auto|]. apply A in Hl. apply Forall_rev in Hl. now rewrite rev_involutive in Hl. }
    apply B. apply (lstrip_by_all is_space). exact E.
  - intros H. unfold strip. now rewrite strip_by_blank.
Qed.
Lemma is_blank_not s : is_blank s = false <-> ~ blank s.
Proof. rewrite <- is_blank_iff. destruct (is_blank s); split; congruence. Qed.
Lemma blank_dec s : blank s \/ ~ blank s.
Proof. rewrite <- is_blank_iff. destruct (is_blank s); [now left|right; discriminate]. Qed.
Lemma split_ws_words : forall s, words s (split_ws s).
Proof.
  assert (G : forall s, words s (split_ws s) /\ forall c, is_space c = false -> match s with [] => True | d :: _ => is_space d = false -> exists w ws, split_ws s = w :: ws /\ words (c :: s) ((c :: w) :: ws) end).
  { induction s as [|c s [IH1 IH2]]; [split; [apply words_nil; constructor|auto]|].
    assert (H1 : words (c :: s) (split_ws (c :: s))).
    { cbn [split_ws]. destruct (is_space c) eqn:Ec.
      - inversion IH1 as [s' Hb Es El|sp w rest ws Hsp Hw Hw2 Hr Hws Es El]; [apply words_nil; now constructor|].
        apply (words_cons (c :: sp) w rest ws); [now constructor|assumption..].
      - destruct s as [|d s]; [apply (words_cons [] [c] []); [constructor|discriminate|now repeat constructor|exact I|apply words_nil; constructor]|].
        destruct (is_space d) eqn:Ed.
        + apply (words_cons [] [c] (d :: s)); [constructor|discriminate|now repeat constructor|exact Ed|exact IH1].
        + destruct (IH2 c Ec eq_refl) as (w & ws & E & Hw). rewrite E. exact Hw. }
    split; [exact H1|]. intros b Hb Hc. cbn [split_ws] in *. rewrite Hc in *. destruct s as [|d s].
    - exists [c], []. split; [reflexivity|]. apply (words_cons [] [b; c] []); [constructor|discriminate|now repeat constructor|exact I|apply words_nil; constructor].
    - destruct (is_space d) eqn:Ed.
      + exists [c], (split_ws (d :: s)). split; [reflexivity|]. apply (words_cons [] [b; c] (d :: s)); [constructor|discriminate|now repeat constructor|exact Ed|exact IH1].
      + destruct (IH2 c Hc eq_refl) as (w & ws & E & Hw). rewrite E. exists (c :: w), ws. split; [reflexivity|].
        inversion Hw as [|sp w' rest ws' Hsp Hw1 Hw2 Hr Hws Es El]; subst. destruct sp as [|x sp].
        * cbn [app] in Es. apply (words_cons [] (b :: c :: w) rest ws); [constructor|discriminate|now constructor|exact Hr|exact Hws].
        * exfalso. inversion Hsp as [|? ? Hx _]; subst. cbn [app] in Es. injection Es as -> _. congruence. }
  intros s. apply G.
Qed.
Lemma break_space c : is_break c = true -> is_space c = true.
Proof. unfold is_break, is_space. cbv zeta. generalize (N_of_ascii c). intros n. rewrite !orb_true_iff, !andb_true_iff, !N.leb_le. lia. Qed.
Lemma lines_nonempty s : lines s <> [].
Proof. induction s as [|c s IH]; cbn [lines]; [discriminate|]. destruct (is_break c); [discriminate|]. now destruct (lines s). Qed.
Lemma count_0 s : non_blank_line_count s = 0 <-> blank s.
Proof.
  unfold non_blank_line_count. induction s as [|c s IH]; [split; [constructor|reflexivity]|]. cbn [lines]. destruct (is_break c) eqn:E.
  - cbn [filter]. rewrite (proj2 (is_blank_iff []) (Forall_nil _)). cbn [negb]. rewrite IH. unfold blank. split; [intros H; constructor; [now apply break_space|exact H]|intros H; now inversion H].
  - destruct (lines s) as [|w ws] eqn:El; [now destruct (lines_nonempty s)|]. cbn [filter] in *.
    assert (Ew : is_blank (c :: w) = (is_space c && is_blank w)%bool).
    { apply Bool.eq_iff_eq_true. rewrite andb_true_iff, !is_blank_iff. unfold blank. split; [intros H; now inversion H|intros [H1 H2]; now constructor]. }
    rewrite Ew. destruct (is_space c) eqn:Ec; cbn [andb].
    + transitivity (blank s); [rewrite <- IH; now destruct (is_blank w)|]. unfold blank. split; [intros H; now constructor|intros H; now inversion H].
    + cbn [negb List.length]. split; [discriminate|]. intros H. inversion H. congruence.
Qed.
Lemma break_iff c : is_break c = true <-> line_end c.
Proof.
  unfold is_break, line_end. cbv zeta. generalize (N_of_ascii c). intros n. rewrite orb_true_iff, !andb_true_iff, !N.leb_le. cbn [In]. lia.
Qed.
Lemma no_break_iff (l : str) : Forall (fun c => is_break c = false) l <-> Forall (fun c => ~ line_end c) l.
Proof. rewrite !Forall_forall. split; intros H c Hc; specialize (H c Hc); rewrite <- break_iff in *; now destruct (is_break c). Qed.
Lemma one_line_space c s : is_space c = true -> one_line s -> one_line (c :: s).
Proof. intros Hc (b & l & a & -> & Hb & H). exists (c :: b), l, a. split; [reflexivity|]. split; [now constructor|exact H]. Qed.
Lemma one_line_strip c s : is_space c = true -> one_line (c :: s) -> one_line s.
Proof.
  intros Hc (b & l & a & E & Hb & Ha & Hl & Hn). destruct b as [|x b].
  - destruct l as [|x l]; [exfalso; apply Hl; constructor|]. cbn [app] in E. injection E as -> ->. exists [], l, a. split; [reflexivity|]. split; [constructor|]. split; [exact Ha|]. inversion Hn; subst. split; [|assumption].
    intros H. apply Hl. now constructor.
  - cbn [app] in E. injection E as -> ->. inversion Hb; subst. exists b, l, a. auto.
Qed.
(** the line is the first one *)
Definition first_line (s : str) : Prop := exists line after, s = line ++ after /\ blank after /\ Forall (fun c => is_break c = false) line.
Lemma lines_first : forall s w ws, lines s = w :: ws -> List.length (filter (fun l => negb (is_blank l)) ws) = 0 <-> first_line s.
Proof.
  induction s as [|c s IH]; intros w ws El; cbn [lines] in El.
  - injection El as <- <-. split; [|reflexivity]. intros _. exists [], []. now repeat constructor.
  - destruct (is_break c) eqn:E.
    + injection El as <- <-. transitivity (blank s); [exact (count_0 s)|]. split.
      * intros H. exists [], (c :: s). split; [reflexivity|]. split; [|constructor]. constructor; [now apply break_space|exact H].
      * intros (l & a & Es & Ha & Hl). destruct l as [|x l]; [cbn in Es; subst a; now inversion Ha|]. cbn [app] in Es. injection Es as -> ->. inversion Hl. congruence.
    + destruct (lines s) as [|w' ws'] eqn:El'; [now destruct (lines_nonempty s)|]. injection El as <- <-. rewrite (IH w' ws' eq_refl). split; intros (l & a & Es & Ha & Hl).
      * subst s. exists (c :: l), a. split; [reflexivity|]. split; [exact Ha|]. now constructor.
      * destruct l as [|x l].
        -- cbn in Es. subst a. inversion Ha; subst. exists [], s. now repeat constructor.
        -- cbn [app] in Es. injection Es as -> ->. inversion Hl; subst. now exists l, a.
Qed.
Lemma count_1 s : non_blank_line_count s = 1 <-> one_line s.
Proof.
  unfold non_blank_line_count. induction s as [|c s IH].
  - split; [discriminate|]. intros (b & l & a & E & _ & _ & Hl & _). exfalso. apply Hl. symmetry in E. apply app_eq_nil in E as [_ E]. apply app_eq_nil in E as [-> _]. constructor.
  - cbn [lines]. destruct (is_break c) eqn:E.
    + cbn [filter]. rewrite (proj2 (is_blank_iff []) (Forall_nil _)). cbn [negb]. rewrite IH. apply break_space in E. split; [now apply one_line_space|now apply one_line_strip].
    + destruct (lines s) as [|w ws] eqn:El; [now destruct (lines_nonempty s)|]. cbn [filter] in *.
      assert (Ew : is_blank (c :: w) = (is_space c && is_blank w)%bool).
      { apply Bool.eq_iff_eq_true. rewrite andb_true_iff, !is_blank_iff. unfold blank. split; [intros H; now inversion H|intros [H1 H2]; now constructor]. }
      rewrite Ew. destruct (is_space c) eqn:Ec; cbn [andb].
      * transitivity (one_line s); [rewrite <- IH; now destruct (is_blank w)|]. split; [now apply one_line_space|now apply one_line_strip].
      * cbn [negb List.length]. rewrite <- (Nat.add_1_l (List.length _)). transitivity (first_line s).
        { rewrite <- (lines_first s w ws El). lia. }
        split.
        -- intros (l & a & -> & Ha & Hl). exists [], (c :: l), a. split; [reflexivity|]. split; [constructor|]. split; [exact Ha|]. split; [|apply no_break_iff; now constructor]. intros H. inversion H. congruence.
        -- intros (b & l & a & Es & Hb & Ha & Hl & Hn). apply no_break_iff in Hn. destruct b as [|x b]; [|cbn [app] in Es; injection Es as -> _; inversion Hb; congruence].
           destruct l as [|x l]; [exfalso; apply Hl; constructor|]. cbn [app] in Es. injection Es as -> ->. inversion Hn; subst. now exists l, a.
Qed.
Lemma text_ok has_children t : text_shown (negb has_children) t (match label_text has_children t with Some s => if is_blank s then None else Some s | None => None end).
Proof.
  destruct t as [t|]; [|constructor]. destruct (blank_dec t) as [Hb|Hb].
  - assert (E : label_text has_children (Some t) = Some t).
    { destruct t as [|c t]; [reflexivity|]. cbn [label_text]. rewrite (proj2 (count_0 _) Hb). now rewrite andb_false_r. }
    rewrite E, (proj2 (is_blank_iff t) Hb). now constructor.
  - destruct t as [|c t]; [exfalso; apply Hb; constructor|]. cbn [label_text]. destruct (negb has_children && (non_blank_line_count (c :: t) =? 1))%bool eqn:E.
    + apply andb_prop in E as [E1 E2]. apply Nat.eqb_eq, count_1 in E2. pose proof (split_ws_words (c :: t)) as Hw.
      assert (Hn : ~ blank (normalize (c :: t))).
      { unfold normalize. inversion Hw as [? Hx|sp w rest ws Hsp Hw1 Hw2 Hr Hws Es El]; [contradiction|]. destruct w as [|x w]; [congruence|]. inversion Hw2 as [|? ? Hx _]; subst. intros Hc. cbn [join] in Hc. destruct ws; inversion Hc; congruence. }
      rewrite (proj2 (is_blank_not _) Hn). now apply shown_words.
    + rewrite (proj2 (is_blank_not _) Hb). apply shown_lines; [|exact Hb]. apply andb_false_iff in E as [E|E]; [now left|right]. intros H. apply count_1 in H. now rewrite H in E.
Qed.

(** ** Names *)
Lemma contains_sep c P x y : ~ In c P -> contains P (x ++ c :: y) = true -> contains P x = true \/ contains P y = true.
Proof.
  intros Hc H. apply contains_iff in H as (a & b & E). revert x E. induction a as [|d a IH]; intros x E.
  - cbn [app] in E. left. apply contains_iff. exists []. cbn [app]. revert x E. induction P as [|e P IHP]; intros x E; [now exists x|]. destruct x as [|f x].
    + cbn [app] in E. injection E as -> _. exfalso. apply Hc. now left.
    + cbn [app] in E. injection E as -> E. destruct (IHP (fun K => Hc (or_intror K)) x E) as (b' & ->). now exists b'.
  - destruct x as [|f x].
    + cbn [app] in E. injection E as -> ->. right. apply contains_iff. now exists a, b.
    + cbn [app] in E. injection E as -> E. destruct (IH x E) as [K|K]; [left|now right]. apply contains_iff in K as (a' & b' & ->). apply contains_iff. now exists (d :: a'), b'.
Qed.
Lemma cut_at c a b : ~ In c a -> cut c (a ++ c :: b) = (a, Some b).
Proof.
  induction a as [|x a IH]; intros H; cbn [app cut].
  - unfold ch_eqb. now rewrite Ascii.eqb_refl.
  - unfold ch_eqb. destruct (Ascii.eqb_spec x c) as [->|Hx]; [exfalso; apply H; now left|]. rewrite IH by (intros K; apply H; now right). reflexivity.
Qed.
Lemma not_contains_name name : xml_name name -> contains PDS name = false.
Proof. intros (_ & _ & H). apply not_true_iff_false. intros K. apply contains_iff in K as (a & b & ->). apply H. apply in_or_app. right. apply in_or_app. left. vm_compute. tauto. Qed.
Lemma pds_no_brace : ~ In "{"%char PDS /\ ~ In "}"%char PDS.
Proof. split; vm_compute; intuition discriminate. Qed.
Lemma replace_none o n s : ~ In "{"%char s -> replace ("{"%char :: o) n s = s.
Proof.
  unfold replace. induction s as [|c s IH]; intros H; [reflexivity|]. cbn [replace_from startswith].
  unfold ch_eqb. replace (Ascii.eqb "{" c) with false by (symmetry; apply Ascii.eqb_neq; intros <-; apply H; now left). cbn [andb]. f_equal. apply IH. intros K. apply H. now right.
Qed.
Lemma replace_skip o n a s : replace_from o n (List.length a) (a ++ s) = replace_from o n 0 s.
Proof. induction a as [|c a IH]; [destruct s; reflexivity|]. exact IH. Qed.
Definition clark (uri name : str) : str := "{"%char :: uri ++ "}"%char :: name.
Lemma starts_clark u uri name : ~ In "}"%char u -> ~ In "}"%char uri -> startswith (clark u []) (clark uri name) = str_eqb u uri.
Proof.
  intros Hu Huri. unfold clark. cbn [startswith]. unfold ch_eqb. rewrite Ascii.eqb_refl. cbn [andb]. revert uri Huri. induction u as [|c u IH]; intros uri Huri; destruct uri as [|d uri]; cbn [app startswith str_eqb].
  - unfold ch_eqb. now rewrite Ascii.eqb_refl.
  - unfold ch_eqb. rewrite (proj2 (Ascii.eqb_neq _ _)); [reflexivity|]. intros <-. apply Huri. now left.
  - unfold ch_eqb. rewrite (proj2 (Ascii.eqb_neq _ _)); [reflexivity|]. intros ->. apply Hu. now left.
  - rewrite IH; [reflexivity|intros K; apply Hu; now right|intros K; apply Huri; now right].
Qed.
Lemma replace_clark u n uri name : ~ In "}"%char u -> ~ In "}"%char uri -> ~ In "{"%char uri -> ~ In "{"%char name ->
  replace (clark u []) n (clark uri name) = if str_eqb u uri then n ++ name else clark uri name.
Proof.
  intros Hu H1 H2 H3. unfold replace. pose proof (starts_clark u uri name Hu H1) as S. 
  assert (U : replace_from (clark u []) n 0 (clark uri name) = if startswith (clark u []) (clark uri name) then n ++ replace_from (clark u []) n (List.length (clark u []) - 1) (uri ++ "}"%char :: name) else "{"%char :: replace_from (clark u []) n 0 (uri ++ "}"%char :: name)) by reflexivity.
  rewrite U, S. clear U S.
  destruct (str_eqb_spec u uri) as [->|_].
  - f_equal. replace (uri ++ "}"%char :: name) with ((uri ++ ["}"%char]) ++ name) by (now rewrite <- app_assoc).
    replace (List.length (clark uri []) - 1) with (List.length (uri ++ ["}"%char])) by (unfold clark; cbn [List.length]; lia). rewrite replace_skip. now apply replace_none.
  - unfold clark. f_equal. apply replace_none. intros K. apply in_app_or in K as [K|K]; [auto|]. destruct K as [K|K]; [discriminate|auto].
Qed.
Definition prefixed (p name : str) : str := match p with [] => name | _ => p ++ $":" ++ name end.
Definition plain (s : str) : Prop := ~ In "{"%char s /\ Forall (fun c => is_space c = false) s.
Definition fine (m : list (str * str)) : Prop := Forall (fun ns => ~ In "}"%char (fst ns) /\ plain (snd ns)) m.
Lemma modify_none m tag : ~ In "{"%char tag -> modify_tag (tag_modifications m) tag = tag.
Proof.
  intros H. unfold modify_tag, tag_modifications. induction m as [|[u p] m IH]; [reflexivity|]. cbn [map fold_left fst snd].
  change ($"{" ++ u ++ $"}") with ("{"%char :: u ++ $"}"). now rewrite replace_none.
Qed.
Lemma modification p name : plain p -> (if is_blank p then [] else p ++ $":") ++ name = prefixed p name /\ (~ In "{"%char name -> ~ In "{"%char (prefixed p name)).
Proof.
  intros [H1 H2]. unfold prefixed. destruct p as [|c p]; [split; [reflexivity|auto]|]. rewrite (proj2 (is_blank_not (c :: p))).
  - rewrite <- app_assoc. split; [reflexivity|]. intros Hn K. apply in_app_or in K as [K|K]; [auto|]. cbn [app] in K. destruct K as [K|K]; [discriminate|auto].
  - intros K. inversion K; inversion H2; congruence.
Qed.
Lemma modify_clark m uri name : fine m -> ~ In "}"%char uri -> ~ In "{"%char uri -> ~ In "{"%char name ->
  modify_tag (tag_modifications m) (clark uri name) = match dict_get m uri with Some p => prefixed p name | None => clark uri name end.
Proof.
  intros Hf H1 H2 H3. unfold modify_tag, tag_modifications. induction m as [|[u p] m IH]; [reflexivity|]. inversion Hf as [|? ? [Hu Hp] Hm]; subst. cbn [fst snd] in *. cbn [map fold_left fst snd].
  change ($"{" ++ u ++ $"}") with (clark u []). rewrite replace_clark by assumption. unfold dict_get. cbn [find fst]. destruct (str_eqb u uri).
  - cbn [snd]. destruct (modification p name Hp) as [-> Hq]. apply (modify_none m). now apply Hq.
  - exact (IH Hm).
Qed.
(** the map *)
Lemma dict_get_snoc {A} (m : list (str * A)) k v x : dict_get (m ++ [(k, v)]) x = match dict_get m x with Some y => Some y | None => if str_eqb k x then Some v else None end.
Proof.
  unfold dict_get. induction m as [|[a b] m IH]; cbn [app find fst]; [destruct (str_eqb k x); reflexivity|]. destruct (str_eqb a x); [reflexivity|exact IH].
Qed.
Lemma dict_has_get {A} (m : list (str * A)) k : dict_has m k = match dict_get m k with Some _ => true | None => false end.
Proof. unfold dict_has, dict_get. induction m as [|[a b] m IH]; [reflexivity|]. cbn [existsb find fst]. destruct (str_eqb a k); [reflexivity|exact IH]. Qed.
Lemma known_prefix_uri e : snd (known_prefix e) = snd e.
Proof.
  unfold known_prefix. generalize PDS4_NAMESPACES. intros l. revert e. induction l as [|p l IH]; intros e; [reflexivity|]. cbn [fold_left]. rewrite IH.
  repeat match goal with |- context [if ?b then _ else _] => destruct b; cbn [snd] end; reflexivity.
Qed.
Lemma map_get events u : dict_get (namespace_map events) u = match find (fun e => str_eqb (snd e) u) events with Some e => Some (fst (known_prefix e)) | None => None end.
Proof.
  unfold namespace_map. induction events as [|e events IH] using rev_ind; [reflexivity|]. rewrite fold_left_app. cbn [fold_left]. unfold add_namespace at 1. cbv zeta. rewrite dict_has_get, known_prefix_uri.
  set (m := fold_left add_namespace events []) in *.
  assert (F : forall l x, find (fun e : str * str => str_eqb (snd e) u) (l ++ [x]) = match find (fun e => str_eqb (snd e) u) l with Some y => Some y | None => if str_eqb (snd x) u then Some x else None end).
  { induction l as [|y l IHl]; intros x; cbn [app find]; [now destruct (str_eqb (snd x) u)|]. destruct (str_eqb (snd y) u); [reflexivity|apply IHl]. }
  rewrite F. destruct (dict_get m (snd e)) as [p|] eqn:Eg.
  - rewrite IH. destruct (find _ events) as [y|] eqn:Ef; [reflexivity|]. destruct (str_eqb_spec (snd e) u) as [<-|]; [|reflexivity]. congruence.
  - rewrite dict_get_snoc, IH. destruct (find _ events); [reflexivity|]. now destruct (str_eqb (snd e) u).
Qed.
Lemma map_fine events : proper events -> fine (namespace_map events).
Proof.
  intros H. unfold namespace_map. assert (G : forall m, fine m -> fine (fold_left add_namespace events m)); [|apply G; constructor].
  induction H as [|e events (He1 & He2 & He3 & He4) _ IH]; intros m Hm; [exact Hm|]. cbn [fold_left]. apply IH. unfold add_namespace. cbv zeta. destruct (dict_has m _); [exact Hm|].
  apply Forall_app. split; [exact Hm|]. constructor; [|constructor]. cbn [fst snd]. rewrite known_prefix_uri. split; [exact He4|].
  assert (P : forall l, Forall (fun p => plain (fst p)) l -> forall e, plain (fst e) -> plain (fst (fold_left (fun elem p => if str_eqb (snd elem) PDS then ([], snd elem) else if str_eqb (snd p) (snd elem) then (fst p, snd elem) else elem) l e))).
  { intros l Hl. induction Hl as [|p l Hp _ IHl]; intros x Hx; [exact Hx|]. cbn [fold_left]. apply IHl. repeat match goal with |- context [if ?b then _ else _] => destruct b; cbn [fst] end; [split; [intros K; destruct K|constructor]|assumption..]. }
  apply P; [|split; [apply He1|exact He2]]. unfold PDS4_NAMESPACES. repeat (apply Forall_cons; [split; [cbn; intuition discriminate|repeat constructor]|]). constructor.
Qed.
Lemma known_other p u : u <> PDS -> u <> DISP -> u <> SP -> known_prefix (p, u) = (p, u).
Proof.
  intros H1 H2 H3. unfold known_prefix, PDS4_NAMESPACES. cbn [fold_left].
  assert (E1 : str_eqb u PDS = false) by (destruct (str_eqb_spec u PDS); congruence).
  assert (E2 : str_eqb PDS u = false) by (now rewrite str_eqb_sym).
  assert (E3 : str_eqb $"http://pds.nasa.gov/pds4/disp/v1" u = false) by (destruct (str_eqb_spec $"http://pds.nasa.gov/pds4/disp/v1" u); unfold DISP in *; congruence).
  assert (E4 : str_eqb $"http://pds.nasa.gov/pds4/sp/v1" u = false) by (destruct (str_eqb_spec $"http://pds.nasa.gov/pds4/sp/v1" u); unfold SP in *; congruence).
  repeat (cbn [fst snd]; rewrite ?E1, ?E2, ?E3, ?E4). reflexivity.
Qed.
Lemma find_uri (events : list (str * str)) (u given : str) : In (given, u) events -> exists p, find (fun e => str_eqb (snd e) u) events = Some (p, u).
Proof.
  induction events as [|[q x] events IH]; intros H; [destruct H|]. cbn [find snd]. destruct (str_eqb_spec x u) as [->|Hx]; [now exists q|]. destruct H as [[= -> ->]|H]; [contradiction|auto].
Qed.
Lemma name_ok events tag name : proper events -> named events tag name -> exists tag', strip_namespace tag = Ok tag' /\ modify_tag (tag_modifications (namespace_map events)) tag' = name.
Proof.
  intros Hp Hn. unfold strip_namespace.
  assert (Clark : forall uri name p, xml_name name -> ~ In "{"%char uri -> ~ In "}"%char uri -> contains PDS uri = false -> dict_get (namespace_map events) uri = Some p ->
    exists tag', (if contains PDS (clark uri name) then match snd (cut "}"%char (clark uri name)) with Some r => Ok (fst (cut "{"%char (clark uri name)) ++ r) | None => Err IndexError end else Ok (clark uri name)) = Ok tag' /\
      modify_tag (tag_modifications (namespace_map events)) tag' = prefixed p name).
  { intros uri nm p Hx H1 H2 Hc Hg. exists (clark uri nm). split.
    - destruct (contains PDS (clark uri nm)) eqn:E; [exfalso|reflexivity]. unfold clark in E. change ("{"%char :: uri ++ "}"%char :: nm) with ([] ++ "{"%char :: uri ++ "}"%char :: nm) in E.
      apply contains_sep in E as [E|E]; [vm_compute in E; discriminate| |apply pds_no_brace]. apply contains_sep in E as [E|E]; [congruence| |apply pds_no_brace]. rewrite (not_contains_name nm Hx) in E. discriminate.
    - rewrite modify_clark; [now rewrite Hg|now apply map_fine|assumption..|apply Hx]. }
  inversion Hn as [name' Hx E1 E2|name' Hx E1 E2|prefix given uri name' Hx Hk Hi E1 E2|before prefix uri after name' Hx N1 N2 N3 Hev Hb E1 E2]; subst.
  - rewrite (not_contains_name name Hx). exists name. split; [reflexivity|]. apply modify_none. apply Hx.
  - exists name. change ($"{" ++ PDS ++ $"}" ++ name) with (clark PDS name).
    assert (C : contains PDS (clark PDS name) = true) by (apply contains_iff; now exists ["{"%char], ("}"%char :: name)). rewrite C.
    unfold clark at 1. change ("{"%char :: PDS ++ "}"%char :: name) with (("{"%char :: PDS) ++ "}"%char :: name). rewrite cut_at by (intros [K|K]; [discriminate|now apply (proj2 pds_no_brace)]).
    unfold clark. change ("{"%char :: PDS ++ "}"%char :: name) with ([] ++ "{"%char :: (PDS ++ "}"%char :: name)). rewrite cut_at by (intros []). cbn [fst snd app]. split; [reflexivity|]. apply modify_none, Hx.
  - destruct (find_uri events uri given Hi) as [p Hf]. change ($"{" ++ uri ++ $"}" ++ name') with (clark uri name').
    assert (Hg : dict_get (namespace_map events) uri = Some (fst (known_prefix (p, uri)))) by (rewrite map_get, Hf; reflexivity).
    assert (Done : forall t, contains PDS uri = false -> ~ In "{"%char uri -> ~ In "}"%char uri -> t = fst (known_prefix (p, uri)) -> t <> [] -> exists tag', (if contains PDS (clark uri name') then match snd (cut "}"%char (clark uri name')) with Some r => Ok (fst (cut "{"%char (clark uri name')) ++ r) | None => Err IndexError end else Ok (clark uri name')) = Ok tag' /\
      modify_tag (tag_modifications (namespace_map events)) tag' = t ++ $":" ++ name').
    { intros t C1 C2 C3 -> Ht. destruct (Clark uri name' _ Hx C2 C3 C1 Hg) as (tag' & E & M). exists tag'. split; [exact E|]. rewrite M. unfold prefixed. now destruct (fst (known_prefix (p, uri))). }
    destruct Hk as [K|K]; apply pair_equal_spec in K as [-> ->]; apply Done; try reflexivity; try discriminate; vm_compute; intuition discriminate.
  - change ($"{" ++ uri ++ $"}" ++ name') with (clark uri name').
    assert (Hc : contains PDS uri = false) by (apply not_true_iff_false; intros K; apply contains_iff in K as (a & b & K); now apply (N3 a b)).
    assert (Hpds : uri <> PDS) by (intros ->; apply (N3 [] []); now rewrite app_nil_r).
    assert (Hf : find (fun e => str_eqb (snd e) uri) (before ++ (prefix, uri) :: after) = Some (prefix, uri)).
    { clear - Hb. induction before as [|[q x] before IH]; cbn [app find snd]; [now rewrite str_eqb_refl|]. cbn [map snd In] in Hb. destruct (str_eqb_spec x uri) as [->|]; [tauto|]. apply IH. tauto. }
    assert (Hg : dict_get (namespace_map (before ++ (prefix, uri) :: after)) uri = Some prefix) by (rewrite map_get, Hf, known_other by assumption; reflexivity).
    assert (Hu : ~ In "{"%char uri /\ ~ In "}"%char uri) by (apply Forall_app in Hp as [_ Hp]; inversion Hp as [|? ? (_ & _ & K) _]; exact K).
    destruct (Clark uri name' prefix Hx (proj1 Hu) (proj2 Hu) Hc Hg) as (t & E & M). exists t. split; [exact E|exact M].
Qed.

(** ** Trees *)
Definition shown (has_children : bool) (t : option str) : option str :=
  match label_text has_children t with Some s => if is_blank s then None else Some s | None => None end.
Fixpoint view (nm : str -> str) (e : xml) : pv :=
  match e with
  | Elem _ a x _ cs =>
      match cs with
      | [] => match shown false x with Some t => PStr t | None => match a with [] => PNone | _ => PMulti [] end end
      | _ => PMulti (flat_map (fun k => map (fun v => (k, v)) (with_key k (map (fun c => (nm (tag_of c), view nm c)) cs))) (firsts (map (fun c => nm (tag_of c)) cs)) ++
                     match shown true x with Some t => [($"_text", PStr t)] | None => [] end)
      end
  end.
Lemma read_label_eq t a x y cs : read_label (Elem t a x y cs) =
  rbind (rmap read_label cs) (fun cs' => rbind (strip_namespace t) (fun t => Ok (Elem t a (label_text (match cs with [] => false | _ => true end) x) y cs'))).
Proof.
  assert (E : (fix all l := match l with [] => Ok [] | c :: l => rbind (read_label c) (fun c => rbind (all l) (fun l => Ok (c :: l))) end) cs = rmap read_label cs).
  { induction cs as [|c cs IH]; [reflexivity|]. cbn [rmap]. now rewrite IH. }
  cbn [read_label]. now rewrite E.
Qed.
Lemma entries_list k l : flat_map (entries k) l = entries k (PTuple l). Proof. reflexivity. Qed.
Lemma groups_entries l vs : Forall2 (fun kv kv' => fst kv = fst kv' /\ forall k, entries k (snd kv) = [(k, snd kv')]) l vs ->
  flat_map (fun kv => entries (fst kv) (snd kv)) (map single_or_list (groups l)) = flat_map (fun k => map (fun v => (k, v)) (with_key k vs)) (firsts (map fst vs)).
Proof.
  intros Hf. assert (Hk : map fst l = map fst vs) by (induction Hf as [|? ? ? ? [H _] _ IH]; [reflexivity|]; cbn [map]; now rewrite H, IH).
  unfold groups. rewrite map_map, Hk. rewrite flat_map_concat_map, map_map, <- flat_map_concat_map. apply flat_map_ext. intros k.
  assert (E : entries k (PTuple (with_key k l)) = map (fun v => (k, v)) (with_key k vs)).
  { clear Hk. cbn [entries]. induction Hf as [|[a v] [b w] l vs [H0 H] _ IH]; [reflexivity|]. cbn [snd fst] in H, H0. subst b. change ((a, v) :: l) with ([(a, v)] ++ l). change ((a, w) :: vs) with ([(a, w)] ++ vs).
    rewrite !with_key_app, !with_key_one, flat_map_app, map_app, IH. f_equal. destruct (str_eqb a k); [|reflexivity]. cbn [flat_map map]. now rewrite H. }
  unfold single_or_list. cbn [fst snd]. rewrite <- E. destruct (with_key k l) as [|v [|w r]]; [reflexivity| |reflexivity]. cbn [entries flat_map]. now rewrite app_nil_r.
Qed.
Lemma dict_set_new {A} (d : list (str * A)) k v : ~ In k (map fst d) -> dict_set d k v = d ++ [(k, v)].
Proof. induction d as [|[a b] d IH]; intros H; [reflexivity|]. cbn [dict_set app]. cbn [map fst In] in H. destruct (str_eqb_spec a k) as [->|]; [tauto|]. rewrite IH by tauto. reflexivity. Qed.
Definition renames (mods : list (str * str)) (nm : str -> str) (e : xml) : Prop := forall e', inside e' e -> exists t, strip_namespace (tag_of e') = Ok t /\ modify_tag mods t = nm (tag_of e').
Lemma tree_ok mods nm : forall e, renames mods nm e -> (forall e', inside e' e -> tidy nm e') ->
  exists e', read_label e = Ok e' /\ fst (xml_to_dict mods e') = nm (tag_of e) /\ forall k, entries k (snd (xml_to_dict mods e')) = [(k, view nm e)].
Proof.
  intros e. induction e as [t a x y cs IH] using xml_ind'. intros Hr Ht. rewrite read_label_eq.
  assert (Hcs : exists cs', rmap read_label cs = Ok cs' /\ Forall2 (fun c' c => fst (xml_to_dict mods c') = nm (tag_of c) /\ forall k, entries k (snd (xml_to_dict mods c')) = [(k, view nm c)]) cs' cs).
  { assert (Hc : Forall (fun c => exists e', read_label c = Ok e' /\ fst (xml_to_dict mods e') = nm (tag_of c) /\ forall k, entries k (snd (xml_to_dict mods e')) = [(k, view nm c)]) cs).
    { rewrite Forall_forall in *. intros c Hc. apply IH; [exact Hc| |]; intros e' He; [apply Hr|apply Ht]; apply inside_child with c; auto. }
    clear - Hc. induction Hc as [|c cs (c' & E & H) _ (cs' & E2 & IH)]; [now exists []|]. exists (c' :: cs'). cbn [rmap]. rewrite E. cbn [rbind]. rewrite E2. split; [reflexivity|now constructor]. }
  destruct Hcs as (cs' & Ecs & Hf). rewrite Ecs. cbn [rbind]. destruct (Hr _ (inside_self _)) as (t' & Et & Em). cbn [tag_of] in Et, Em. rewrite Et. cbn [rbind]. eexists. split; [reflexivity|]. cbn [xml_to_dict fst snd].
  split; [exact Em|]. intros k. cbn [view]. destruct cs as [|c cs].
  - inversion Hf; subst cs'. unfold shown. destruct (label_text false x) as [s|]; [destruct (is_blank s)|]; destruct a; reflexivity.
  - destruct cs' as [|c' cs']; [inversion Hf|]. rewrite groups_ok. set (l := map (xml_to_dict mods) (c' :: cs')). set (vs := map (fun c => (nm (tag_of c), view nm c)) (c :: cs)).
    assert (G : flat_map (fun kv => entries (fst kv) (snd kv)) (map single_or_list (groups l)) = flat_map (fun k => map (fun v => (k, v)) (with_key k vs)) (firsts (map (fun c => nm (tag_of c)) (c :: cs)))).
    { replace (map (fun c => nm (tag_of c)) (c :: cs)) with (map fst vs) by (unfold vs; now rewrite map_map). apply groups_entries. unfold l, vs. clear - Hf. induction Hf as [|? ? ? ? [H1 H2] _ IH]; [constructor|]. cbn [map]. constructor; [split; assumption|exact IH]. }
    assert (K : map fst (map single_or_list (groups l)) = firsts (map (fun c => nm (tag_of c)) (c :: cs))).
    { replace (map fst (map single_or_list (groups l))) with (firsts (map fst l)) by (unfold groups; rewrite !map_map; symmetry; apply map_id). f_equal. unfold l. rewrite map_map. clear - Hf. induction Hf as [|? ? ? ? [H1 H2] _ IH]; [reflexivity|]. cbn [map]. now rewrite H1, IH. }
    unfold shown. destruct (label_text true x) as [s|] eqn:Ex; [destruct (is_blank s) eqn:Eb|].
    + cbn [entries]. rewrite G, app_nil_r. reflexivity.
    + cbn [entries]. rewrite dict_set_new, flat_map_app, G; [reflexivity|]. rewrite K. intros Hi. apply (proj1 (firsts_in _ _)) in Hi. apply (Ht _ (inside_self _) s); [|exact Hi]. cbn [text_of]. pose proof (text_ok true x) as Hx. rewrite Ex, Eb in Hx. exact Hx.
    + cbn [entries]. rewrite G, app_nil_r. reflexivity.
Qed.
Lemma getall_view nm k e : k <> $"_text" -> getall k (view nm e) = map (view nm) (elements_named nm k e).
Proof.
  intros Hk. destruct e as [t a x y cs]. unfold elements_named. cbn [children view]. destruct cs as [|c cs]; [destruct (shown false x); [reflexivity|]; now destruct a|].
  set (vs := map (fun c => (nm (tag_of c), view nm c)) (c :: cs)). unfold getall. change (map snd (filter (fun kv : str * pv => str_eqb (fst kv) k) ?l)) with (with_key k l). rewrite with_key_app.
  replace (with_key k (match shown true x with Some t => [($"_text", PStr t)] | None => [] end)) with (@nil pv).
  2: { destruct (shown true x); [|reflexivity]. rewrite with_key_one. destruct (str_eqb_spec $"_text" k); [congruence|reflexivity]. }
  rewrite app_nil_r.
  assert (One : forall j, with_key k (map (fun v : pv => (j, v)) (with_key j vs)) = if str_eqb j k then with_key j vs else []).
  { intros j. induction (with_key j vs) as [|v l IH]; [now destruct (str_eqb j k)|]. cbn [map]. change ((j, v) :: map (fun v => (j, v)) l) with ([(j, v)] ++ map (fun v => (j, v)) l). rewrite with_key_app, with_key_one, IH. now destruct (str_eqb j k). }
  assert (All : forall ks, with_key k (flat_map (fun k => map (fun v => (k, v)) (with_key k vs)) ks) = flat_map (fun j => if str_eqb j k then with_key j vs else []) ks).
  { induction ks as [|j ks IH]; [reflexivity|]. cbn [flat_map]. now rewrite with_key_app, One, IH. }
  rewrite All.
  assert (Sel : with_key k vs = map (view nm) (filter (fun c => str_eqb (nm (tag_of c)) k) (c :: cs))).
  { unfold vs. generalize (c :: cs). clear. intros l. unfold with_key. induction l as [|d l IH]; [reflexivity|]. cbn [map filter fst]. destruct (str_eqb (nm (tag_of d)) k); [cbn [map snd]; now rewrite IH|exact IH]. }
  rewrite <- Sel. pose proof (firsts_nodup (map (fun c => nm (tag_of c)) (c :: cs))) as Hn.
  destruct (in_dec str_eq_dec k (firsts (map (fun c => nm (tag_of c)) (c :: cs)))) as [Hi|Hi].
  - induction (firsts _) as [|j ks IH]; [destruct Hi|]. inversion Hn as [|? ? N1 N2]; subst. cbn [flat_map]. destruct (str_eqb_spec j k) as [->|Hj].
    + replace (flat_map _ ks) with (@nil pv); [apply app_nil_r|]. symmetry. clear - N1. induction ks as [|i ks IH]; [reflexivity|]. cbn [flat_map In] in *. destruct (str_eqb_spec i k) as [->|]; [tauto|]. apply IH. tauto.
    + apply IH; [exact N2|destruct Hi; [congruence|assumption]].
  - assert (E : with_key k vs = []).
    { rewrite Sel. rewrite firsts_in in Hi. revert Hi. generalize (c :: cs). clear. induction l as [|d l IH]; intros Hi; [reflexivity|]. cbn [map filter In] in *. destruct (str_eqb_spec (nm (tag_of d)) k); [tauto|]. apply IH. tauto. }
    rewrite E. induction (firsts _) as [|j ks IH]; [reflexivity|]. inversion Hn; subst. cbn [flat_map]. destruct (str_eqb_spec j k) as [->|Hj]; [exfalso; apply Hi; now left|]. apply IH; [assumption|]. intros K. apply Hi. now right.
Qed.
Lemma values_view nm : forall path e, ~ In $"_text" path -> values_at path (view nm e) = map (view nm) (elements_at nm path e).
Proof.
  induction path as [|k path IH]; intros e H; [reflexivity|]. cbn [values_at elements_at]. rewrite getall_view by (intros ->; apply H; now left).
  rewrite !flat_map_concat_map, map_map, <- flat_map_concat_map. induction (elements_named nm k e) as [|c l IHl]; [reflexivity|]. cbn [flat_map map concat]. rewrite map_app, <- IHl, IH; [reflexivity|]. intros K. apply H. now right.
Qed.
Lemma content_view nm e : content nm e (view nm e).
Proof.
  destruct e as [t a x y cs]. cbn [view]. destruct cs as [|c cs].
  - pose proof (text_ok false x) as H. fold (shown false x) in H. destruct (shown false x) as [s|]; [now apply content_text|]. destruct a; [now apply content_none|apply content_empty; [reflexivity|exact H|discriminate]].
  - pose proof (text_ok true x) as H. fold (shown true x) in H. apply content_node with (t := shown true x); [discriminate|exact H|]. cbn [children]. set (l := c :: cs). clearbody l. clear.
    unfold together. set (ns := map (fun c => nm (tag_of c)) l).
    assert (G : forall ks, map fst (flat_map (fun k => map (fun v => (k, v)) (with_key k (map (fun c => (nm (tag_of c), view nm c)) l))) ks) = flat_map (fun k => repeat k (count k ns)) ks); [|apply G].
    induction ks as [|k ks IH]; [reflexivity|]. cbn [flat_map]. rewrite map_app, IH. f_equal. rewrite map_map. cbn [fst]. unfold count, with_key, ns. clear. induction l as [|d l IH]; [reflexivity|]. cbn [map filter fst].
    destruct (str_eqb (nm (tag_of d)) k); [cbn [map List.length repeat]; now rewrite IH|exact IH].
Qed.
