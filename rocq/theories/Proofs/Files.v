(** Proofs about file finding. *)
From Verif.Base Require Import Py PyFacts.
From Verif.Model Require Import Files.
From Verif.Spec Require Import Files.

Lemma lower_app a b : lower (a ++ b) = lower a ++ lower b.
Proof. apply map_app. Qed.
Lemma to_lower_dot c : to_lower c = DOT -> c = DOT.
Proof. destruct c as [[] [] [] [] [] [] [] []]; cbn; intros H; try reflexivity; discriminate H. Qed.
Lemma in_dot_lower s : In DOT (lower s) <-> In DOT s.
Proof.
  unfold lower. rewrite in_map_iff. split.
  - intros (c & E & H). apply to_lower_dot in E. now subst.
  - intros H. exists DOT. split; [reflexivity|exact H].
Qed.
Lemma to_lower_idem c : to_lower (to_lower c) = to_lower c.
Proof. destruct c as [[] [] [] [] [] [] [] []]; reflexivity. Qed.
Lemma lower_idem s : lower (lower s) = lower s.
Proof. unfold lower. rewrite map_map. apply map_ext, to_lower_idem. Qed.

Lemma join_cons_concat c w ws : join [c] (w :: ws) = w ++ concat (map (cons c) ws).
Proof.
  revert w. induction ws as [|x ws IH]; intros w.
  - cbn. now rewrite app_nil_r.
  - change (join [c] (w :: x :: ws)) with (w ++ [c] ++ join [c] (x :: ws)). rewrite IH. reflexivity.
Qed.
Lemma split_parts c s : exists w ws, split_on c s = w :: ws /\ s = w ++ concat (map (cons c) ws) /\
  ~ In c w /\ Forall (fun x => ~ In c x) ws.
Proof.
  induction s as [|x s (w & ws & E & Es & Hw & Hws)]; cbn [split_on].
  - exists [], []. repeat split; auto.
  - rewrite E. destruct (Ascii.eqb_spec x c) as [->|Hx].
    + exists [], (w :: ws). repeat split; auto. cbn. now rewrite Es at 1.
    + exists (x :: w), ws. repeat split; auto.
      * cbn. now rewrite Es at 1.
      * intros [H|H]; [congruence|contradiction].
Qed.
Lemma concat_snoc {A} (l : list (list A)) x : concat (l ++ [x]) = concat l ++ x.
Proof. now rewrite concat_app; cbn; rewrite app_nil_r. Qed.
Lemma last_snoc {A} (l : list A) x d : last (l ++ [x]) d = x.
Proof. apply last_last. Qed.

Lemma ordinary_nolead name : ordinary name -> lstrip_by is_dot name = name.
Proof.
  intros (Hn & Hh & _). destruct name as [|c s]; [reflexivity|]. cbn in *.
  unfold is_dot. destruct (Ascii.eqb_spec c DOT) as [E|E]; [now apply Hh in E|reflexivity].
Qed.
Lemma ordinary_noend name : ordinary name -> endswith $"." name = false.
Proof.
  intros (Hn & _ & Hl). destruct (endswith $"." name) eqn:E; [|reflexivity]. exfalso.
  apply endswith_iff in E as [t ->]. cbn in Hl. now rewrite last_snoc in Hl.
Qed.
Lemma compressions_dotted s : In s compressions -> exists e, s = DOT :: e /\ ~ In DOT e /\ lower s = s.
Proof.
  intros H. cbn in H. decompose [or] H; try contradiction; subst s; eexists; (split; [reflexivity|split; [|reflexivity]]);
  cbn; intuition discriminate.
Qed.
Lemma dot_tail_inj a b x y : ~ In DOT x -> ~ In DOT y ->
  a ++ DOT :: x = b ++ DOT :: y -> a = b /\ x = y.
Proof.
  revert b. induction a as [|c a IH]; intros b Hx Hy E; destruct b as [|d b]; cbn in E.
  - injection E as ->. auto.
  - injection E as _ E. exfalso. apply Hx. rewrite E. apply in_or_app. right. now left.
  - injection E as _ E. exfalso. apply Hy. rewrite <- E. apply in_or_app. right. now left.
  - injection E as -> E. destruct (IH b Hx Hy E) as [-> ->]. auto.
Qed.

Definition stem_of (lw : str) (exts : list str) : str :=
  match exts with
  | [] => lw
  | _ => lw ++ concat (if (1 <? List.length exts)%nat && str_in (last exts []) SUPPORTED_COMPRESSION_EXTENSIONS
                       then removelast exts else exts)
  end.
Lemma stem_of_snoc lw ini x : stem_of lw (ini ++ [x]) =
  lw ++ concat (if (1 <? List.length ini + 1)%nat && str_in x SUPPORTED_COMPRESSION_EXTENSIONS
                then ini else ini ++ [x]).
Proof.
  unfold stem_of. destruct (ini ++ [x]) eqn:E; [destruct ini; discriminate|]. rewrite <- E.
  now rewrite last_snoc, app_length, removelast_last.
Qed.
Lemma stem_path_of name : stem_path name = stem_of (lower (hd [] (split_on DOT name))) (map lower (suffixes name)).
Proof. reflexivity. Qed.

(** the decomposition of a name used by [stem_path] *)
Lemma stem_cases name : ordinary name ->
  (stem_path name = lower name /\ forall plain, ~ compressed_form name plain) \/
  (compressed_form name (stem_path name) /\
   (forall plain, compressed_form name plain -> lower plain = stem_path name)).
Proof.
  intros Ho. rewrite stem_path_of. unfold suffixes. rewrite (ordinary_noend _ Ho), (ordinary_nolead _ Ho).
  destruct (split_parts DOT name) as (w & ws & E & Es & Hw & Hws). rewrite E. cbn [hd tl].
  destruct ws as [|w2 ws2].
  { left. cbn [map concat] in *. rewrite app_nil_r in Es. split; [now rewrite <- Es|].
    intros plain (s & Hs & El & Hd).
    assert (Hn : ~ In DOT (lower name)) by (rewrite in_dot_lower; now rewrite Es).
    apply Hn. rewrite El. apply in_or_app. left. now apply in_dot_lower. }
  destruct (exists_last (l := w2 :: ws2) ltac:(discriminate)) as (init & l & El).
  rewrite El in *. clear El w2 ws2. rewrite map_app, map_app. cbn [map].
  set (ini := map lower (map (cons DOT) init)).
  assert (Hlow : lower name = (lower w ++ concat ini) ++ DOT :: lower l).
  { rewrite Es, map_app, concat_app, !lower_app. cbn [map concat]. rewrite app_nil_r.
    rewrite <- app_assoc. f_equal. change (lower (DOT :: l)) with (DOT :: lower l). f_equal.
    unfold ini, lower. now rewrite concat_map. }
  assert (Hl : ~ In DOT (lower l)).
  { rewrite in_dot_lower. apply Forall_app in Hws as [_ Hws]. now inversion Hws. }
  rewrite stem_of_snoc. change (map lower (map (cons DOT) init)) with ini.
  change (lower (DOT :: l)) with (DOT :: lower l).
  destruct ((1 <? List.length ini + 1)%nat && str_in (DOT :: lower l) SUPPORTED_COMPRESSION_EXTENSIONS) eqn:Ec.
  - right. apply andb_true_iff in Ec as [Elen Ein]. apply Nat.ltb_lt in Elen. apply str_in_iff in Ein.
    assert (Hd : In DOT (lower w ++ concat ini)).
    { destruct init as [|i0 init]; [cbn in Elen; lia|]. unfold ini. cbn. apply in_or_app. right. now left. }
    assert (Hlx : lower (lower w ++ concat ini) = lower w ++ concat ini).
    { rewrite lower_app, lower_idem. f_equal. unfold ini.
      change (map lower (map (cons DOT) init)) with (map (map to_lower) (map (cons DOT) init)).
      rewrite <- concat_map. apply lower_idem. }
    split.
    + exists (DOT :: lower l). split; [exact Ein|]. split; [|exact Hd].
      etransitivity; [exact Hlow|]. f_equal. symmetry. exact Hlx.
    + intros plain (s & Hs & E1 & Hd2). destruct (compressions_dotted s Hs) as (e & -> & He & _).
      rewrite Hlow in E1. apply dot_tail_inj in E1 as [E1 _]; auto.
  - left. split.
    { etransitivity; [|symmetry; exact Hlow]. rewrite <- app_assoc. f_equal. apply concat_snoc. }
    intros plain (s & Hs & E1 & Hd2). destruct (compressions_dotted s Hs) as (e & -> & He & _).
    rewrite Hlow in E1. apply dot_tail_inj in E1 as [E1 E2]; auto. subst e.
    apply andb_false_iff in Ec as [Ec|Ec].
    + apply Nat.ltb_ge in Ec. destruct init; [|unfold ini in Ec; cbn in Ec; lia]. cbn in E1. rewrite app_nil_r in E1.
      apply Hw, in_dot_lower. rewrite E1. now apply in_dot_lower.
    + apply str_in_false in Ec. now apply Ec.
Qed.

Lemma stands_for_iff name req : ordinary name ->
  (stem_path name = lower req <-> stands_for name req).
Proof.
  intros Ho. destruct (stem_cases name Ho) as [[E Hn]|[Hc Hu]].
  - rewrite E. split.
    + intros H. right. auto.
    + intros [H|[H _]]; [now apply Hn in H|exact H].
  - split.
    + intros H. left. destruct Hc as (s & Hs & E & Hd). exists s. split; [exact Hs|].
      rewrite H in E, Hd. rewrite lower_idem in E. split; [exact E|]. exact (proj1 (in_dot_lower req) Hd).
    + intros [H|[_ H]]; [|exfalso; exact (H _ Hc)]. symmetry. now apply Hu.
Qed.

(** ** check_cases *)
Lemma check_skip fs cand cands : check_cases fs (cand :: cands) true = Ok cand.
Proof. reflexivity. Qed.

Lemma check_step fs cand cands : ordinary_dirs fs ->
  (no_candidate fs cand /\ check_cases fs (cand :: cands) false = check_cases fs cands false) \/
  (exists l, fs (pdir cand) = Some l /\ In (pname cand) l /\ check_cases fs (cand :: cands) false = Ok cand) \/
  (exists l1 e l2, fs (pdir cand) = Some (l1 ++ e :: l2) /\ ~ In (pname cand) (l1 ++ e :: l2) /\
     (forall x, In x l1 -> ~ stands_for x (pname cand)) /\ stands_for e (pname cand) /\
     check_cases fs (cand :: cands) false = Ok (mkPath (pdir cand) e)).
Proof.
  intros Ho. unfold no_candidate. cbn [check_cases]. unfold path_exists.
  destruct (fs (pdir cand)) as [l|] eqn:El; [|left; auto].
  destruct (str_in (pname cand) l) eqn:Ein.
  { right; left. exists l. apply str_in_iff in Ein. auto. }
  apply str_in_false in Ein.
  assert (Hf : forall e, In e l -> (str_eqb (stem_path e) (lower (pname cand)) = true <-> stands_for e (pname cand))).
  { intros e He. rewrite str_eqb_eq. apply stands_for_iff. exact (Ho _ _ _ El He). }
  destruct (filter _ l) as [|e rest] eqn:Ef.
  - left. split; [|reflexivity]. split; [exact Ein|]. intros e He Hs.
    assert (Hx : In e (filter (fun e => str_eqb (stem_path e) (lower (pname cand))) l)).
    { apply filter_In. split; [exact He|]. now apply Hf. }
    now rewrite Ef in Hx.
  - right; right. revert Ef Ein Hf. clear El. 
    assert (H : forall l, filter (fun e => str_eqb (stem_path e) (lower (pname cand))) l = e :: rest ->
       exists l1 l2, l = l1 ++ e :: l2 /\ str_eqb (stem_path e) (lower (pname cand)) = true /\
         forall x, In x l1 -> str_eqb (stem_path x) (lower (pname cand)) = false).
    { clear. induction l as [|y l IH]; cbn [filter]; [discriminate|].
      destruct (str_eqb (stem_path y) (lower (pname cand))) eqn:E.
      - intros H. injection H as -> _. exists [], l. repeat split; auto. intros x [].
      - intros H. destruct (IH H) as (l1 & l2 & -> & H1 & H2). exists (y :: l1), l2. repeat split; auto.
        intros x [<-|Hx]; auto. }
    intros Ef Ein Hf. apply H in Ef as (l1 & l2 & -> & H1 & H2). exists l1, e, l2.
    repeat split; auto.
    + intros x Hx Hs. apply Hf in Hs; [rewrite H2 in Hs; [discriminate|exact Hx]|]. apply in_or_app. auto.
    + apply Hf; [apply in_or_app; right; now left|exact H1].
Qed.

Lemma check_found fs cands p : ordinary_dirs fs -> check_cases fs cands false = Ok p ->
  exists before cand after l, cands = before ++ cand :: after /\ Forall (no_candidate fs) before /\
    fs (pdir cand) = Some l /\ In (pname p) l /\ pdir p = pdir cand /\
    (p = cand \/ ~ In (pname cand) l /\ stands_for (pname p) (pname cand)).
Proof.
  intros Ho. induction cands as [|c cands IH]; [discriminate|]. intros H.
  destruct (check_step fs c cands Ho) as [[Hn E]|[(l & El & Hin & E)|(l1 & e & l2 & El & Hni & H1 & H2 & E)]].
  - rewrite E in H. destruct (IH H) as (b & cand & a & l & -> & Hb & R). exists (c :: b), cand, a, l.
    split; [reflexivity|]. split; [now constructor|exact R].
  - rewrite E in H. injection H as <-. exists [], c, cands, l. repeat split; auto.
  - rewrite E in H. injection H as <-. exists [], c, cands, (l1 ++ e :: l2). repeat split; auto.
    cbn. apply in_or_app. right. now left.
Qed.
Lemma check_missing fs cands : ordinary_dirs fs ->
  (check_cases fs cands false = Err FileNotFoundError <-> Forall (no_candidate fs) cands).
Proof.
  intros Ho. induction cands as [|c cands IH]; [split; auto|].
  destruct (check_step fs c cands Ho) as [[Hn E]|[(l & El & Hin & E)|(l1 & e & l2 & El & Hni & H1 & H2 & E)]]; rewrite E.
  - rewrite IH. split; [intros; now constructor|]. inversion 1; auto.
  - split; [discriminate|]. inversion 1 as [|? ? Hc]. unfold no_candidate in Hc. rewrite El in Hc. now destruct Hc.
  - split; [discriminate|]. inversion 1 as [|? ? Hc]. unfold no_candidate in Hc. rewrite El in Hc.
    destruct Hc as [_ Hc]. exfalso. apply (Hc e); [apply in_or_app; right; now left|exact H2].
Qed.
Lemma check_total fs cands : exists r, check_cases fs cands false = r /\ (r = Err FileNotFoundError \/ exists p, r = Ok p).
Proof.
  induction cands as [|c cands IH]; [eexists; split; [reflexivity|now left]|]. cbn [check_cases].
  destruct (path_exists fs c); [eexists; split; [reflexivity|right; eauto]|].
  destruct (fs (pdir c)); [|exact IH]. destruct (filter _ _); [exact IH|].
  eexists; split; [reflexivity|right; eauto].
Qed.

(** ** suffixes *)
Lemma last_dot_split name stem ext : splits_at_last_dot name stem ext ->
  suffix name = DOT :: ext /\ forall new, with_suffix name new = stem ++ new.
Proof.
  intros (-> & Hd & Hs & He).
  assert (E : suffix (stem ++ $"." ++ ext) = DOT :: ext).
  { unfold suffix. change ($"." ++ ext) with (DOT :: ext).
    assert (Hsp : exists ws, ws <> [] /\ split_on DOT (stem ++ DOT :: ext) = ws ++ [ext] /\ join [DOT] ws = stem).
    { clear Hs. induction stem as [|c stem IH].
      - exists [[]]. split; [discriminate|]. split; [|reflexivity]. cbn [app split_on].
        rewrite Ascii.eqb_refl. now rewrite (split_on_no DOT ext Hd).
      - destruct IH as (ws & Hn & Ew & Ej). destruct ws as [|w ws]; [congruence|].
        cbn [app split_on]. rewrite Ew. destruct (Ascii.eqb_spec c DOT) as [->|Hc].
        + exists ([] :: w :: ws). split; [discriminate|]. split; [reflexivity|].
          change (join [DOT] ([] :: w :: ws)) with (DOT :: join [DOT] (w :: ws)). now rewrite Ej.
        + exists ((c :: w) :: ws). split; [discriminate|]. split; [reflexivity|].
          rewrite join_cons_concat in *. cbn. now rewrite Ej. }
    destruct Hsp as (ws & Hn & Ew & Ej). rewrite Ew, removelast_last, last_snoc, Ej.
    destruct stem; [congruence|]. destruct ext; [congruence|]. reflexivity. }
  split; [exact E|]. intros new. unfold with_suffix. rewrite E. f_equal.
  change ($"." ++ ext) with (DOT :: ext). rewrite app_length. cbn [List.length].
  replace (List.length stem + S (List.length ext) - S (List.length ext))%nat with (List.length stem) by lia.
  rewrite firstn_app, Nat.sub_diag, firstn_all. cbn. apply app_nil_r.
Qed.
Lemma lower_suffix name stem ext : splits_at_last_dot name stem ext ->
  splits_at_last_dot (lower name) (lower stem) (lower ext).
Proof.
  intros (-> & Hd & Hs & He). repeat split.
  - rewrite !lower_app. reflexivity.
  - now rewrite in_dot_lower.
  - destruct stem; [congruence|discriminate].
  - destruct ext; [congruence|discriminate].
Qed.

(** ** find_repository_root *)
Lemma root_spec before d after : lower d = $"data" -> Forall (fun p => lower p <> $"data") after ->
  find_repository_root (before ++ d :: after) = Ok before.
Proof.
  intros Hd Ha. unfold find_repository_root.
  set (ix := fix indices (i : nat) (l : list str) : list nat :=
    match l with [] => [] | p :: l' => (if str_eqb (lower p) $"data" then [i] else []) ++ indices (S i) l' end).
  assert (H0 : forall i, ix i after = []).
  { induction Ha as [|p l Hp _ IH]; intros i; [reflexivity|]. cbn [ix]. fold ix. 
    destruct (str_eqb (lower p) $"data") eqn:E; [apply str_eqb_eq in E; contradiction|]. apply IH. }
  assert (H1 : forall i, exists l, ix i (before ++ d :: after) = l ++ [(i + List.length before)%nat]).
  { induction before as [|b before IH]; intros i.
    - exists []. cbn [app ix]. fold ix. rewrite Hd, str_eqb_refl, H0. cbn. now rewrite Nat.add_0_r.
    - destruct (IH (S i)) as [l El]. cbn [app]. cbn [ix]. fold ix. rewrite El.
      exists ((if str_eqb (lower b) $"data" then [i] else []) ++ l). rewrite <- app_assoc.
      replace (i + List.length (b :: before))%nat with (S i + List.length before)%nat by (cbn [List.length]; lia).
      reflexivity. }
  destruct (H1 0%nat) as [l El]. fold ix. rewrite El, rev_app_distr. cbn [rev app].
  f_equal. rewrite Nat.add_0_l. rewrite firstn_app, Nat.sub_diag, firstn_all. cbn. apply app_nil_r.
Qed.
Lemma root_none parts : Forall (fun p => lower p <> $"data") parts ->
  find_repository_root parts = Err IndexError.
Proof.
  intros Ha. unfold find_repository_root.
  set (ix := fix indices (i : nat) (l : list str) : list nat :=
    match l with [] => [] | p :: l' => (if str_eqb (lower p) $"data" then [i] else []) ++ indices (S i) l' end).
  assert (H0 : forall i, ix i parts = []).
  { induction Ha as [|p l Hp _ IH]; intros i; [reflexivity|]. cbn [ix]. fold ix. 
    destruct (str_eqb (lower p) $"data") eqn:E; [apply str_eqb_eq in E; contradiction|]. apply IH. }
  now rewrite H0.
Qed.

(** ** repeated objects *)
Lemma map_const {A B} (b : B) (l : list A) : map (fun _ => b) l = repeat b (List.length l).
Proof. induction l; cbn; congruence. Qed.
Lemma repeat_spec {A} (obj : repeatable A) fields count :
  append_repeated_object obj fields count =
  fields ++ concat (repeat (match obj with RSeq l => l | RObj a => [a] end) (Nat.max 1 (Z.to_nat count))).
Proof.
  destruct obj as [l|a]; cbn [append_repeated_object]; (destruct (1 <? count)%Z eqn:E;
    [apply Z.ltb_lt in E; replace (Nat.max 1 (Z.to_nat count)) with (Z.to_nat count) by lia
    |apply Z.ltb_ge in E; replace (Nat.max 1 (Z.to_nat count)) with 1%nat by lia]); f_equal.
  - now rewrite map_const, seq_length.
  - cbn. now rewrite app_nil_r.
  - rewrite map_const, seq_length. induction (Z.to_nat count); cbn; congruence.
Qed.
