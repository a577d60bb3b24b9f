(** Proofs about [BlockParser] (model: Model/Pvl.v, spec: Spec/Pvl.v). *)
From Coq Require Import Permutation.
From Verif.Base Require Import Py Val PyFacts.
From Verif.Model Require Import Pvl.
From Verif.Spec Require Import Pvl.

Lemma initials_iff k : str_in k PVL_BLOCK_INITIALS = true <-> opens_block k.
Proof.
  rewrite str_in_iff. unfold PVL_BLOCK_INITIALS, opens_block. cbn [In].
  intuition congruence.
Qed.
Lemma initials_false k : str_in k PVL_BLOCK_INITIALS = false <-> ~ opens_block k.
Proof. rewrite <- initials_iff. destruct (str_in k _); intuition congruence. Qed.
Lemma end_iff k : startswith $"END" k = true <-> closes_block k.
Proof. apply startswith_iff. Qed.
Lemma end_false k : startswith $"END" k = false <-> ~ closes_block k.
Proof. rewrite <- end_iff. destruct (startswith _ k); intuition congruence. Qed.

(** induction over entries *)
Section EntryInd.
  Variable P : entry -> Prop.
  Variable HA : forall k v, P (Assign k v).
  Variable HB : forall kw n body ek ev, Forall P body -> P (Blk kw n body ek ev).
  Fixpoint entry_ind' (e : entry) : P e :=
    match e with
    | Assign k v => HA k v
    | Blk kw n body ek ev =>
        HB kw n body ek ev
          ((fix go (l : list entry) : Forall P l :=
              match l with
              | [] => Forall_nil _
              | x :: l' => Forall_cons _ (entry_ind' x) (go l')
              end) body)
    end.
End EntryInd.

Lemma wf_entry_blk kw n body ek ev :
  wf_entry (Blk kw n body ek ev) <->
  opens_block kw /\ ~ opens_block ek /\ closes_block ek /\ wf_label body.
Proof.
  cbn [wf_entry]. unfold wf_label.
  assert (H : forall l, (fix all (l : list entry) : Prop :=
         match l with [] => True | x :: l' => wf_entry x /\ all l' end) l
         <-> Forall wf_entry l).
  { induction l as [|x l IH]; split; intros H; auto.
    - destruct H as [H1 H2]. constructor; [exact H1|now apply IH].
    - inversion H; subst. split; [assumption|now apply IH]. }
  rewrite H. reflexivity.
Qed.

Lemma parse_loop_app s1 s2 st :
  parse_loop (s1 ++ s2) st = rbind (parse_loop s1 st) (parse_loop s2).
Proof.
  revert st; induction s1 as [|x s1 IH]; intros st; [reflexivity|].
  cbn [app parse_loop]. destruct (parse_step st x); cbn [rbind]; [apply IH|reflexivity].
Qed.

Definition entry_effect (e : entry) (st : parser) : parser :=
  match aggs st with
  | a :: rest => mkParser (names st) ((a ++ [denote_entry e]) :: rest)
                          (params st ++ completed_keys e)
  | [] => st
  end.

Lemma parse_entry e st : wf_entry e -> aggs st <> [] ->
  parse_loop (statements_of e) st = Ok (entry_effect e st).
Proof.
  revert st. induction e as [k v | kw n body ek ev IH] using entry_ind'; intros st Hwf Ha.
  - destruct Hwf as [Ho Hc]. cbn [statements_of parse_loop parse_step].
    apply initials_false in Ho. apply end_false in Hc. rewrite Ho, Hc.
    unfold add_statement, entry_effect, md_add.
    destruct (aggs st) as [|a rest]; [contradiction|]. reflexivity.
  - apply wf_entry_blk in Hwf as (Ho & Hne & He & Hb).
    cbn [statements_of]. cbn [parse_loop]. unfold parse_step at 1.
    apply initials_iff in Ho. rewrite Ho. cbn [rbind].
    rewrite parse_loop_app.
    assert (Hbody : forall st', aggs st' <> [] ->
      parse_loop (flat_map statements_of body) st' =
      Ok (match aggs st' with
          | a :: rest => mkParser (names st') ((a ++ map denote_entry body) :: rest)
                                  (params st' ++ flat_map completed_keys body)
          | [] => st' end)).
    { clear Ha. unfold wf_label in Hb. induction body as [|x body IHb]; intros st' Ha'.
      - cbn. destruct st' as [ns [|a rest] ps]; cbn in *; [contradiction|].
        now rewrite !app_nil_r.
      - inversion IH as [|? ? Hx Hxs]; subst. inversion Hb as [|? ? Wx Wxs]; subst.
        cbn [flat_map]. rewrite parse_loop_app, Hx by assumption. cbn [rbind].
        unfold entry_effect. destruct st' as [ns [|a rest] ps]; cbn in *; [contradiction|].
        rewrite IHb; cbn; [|assumption|assumption|discriminate].
        now rewrite <- !app_assoc. }
    rewrite Hbody by (cbn; discriminate).
    destruct st as [ns [|a rest] ps]; [cbn in Ha; contradiction|].
    cbn [rbind step_in aggs names params app].
    cbn [parse_loop]. unfold parse_step.
    apply initials_false in Hne. apply end_iff in He. rewrite Hne, He.
    cbn. unfold entry_effect, md_add. cbn. now rewrite <- app_assoc.
Qed.

Lemma parse_entries es st : wf_label es -> aggs st <> [] ->
  parse_loop (label_statements es) st =
  Ok (match aggs st with
      | a :: rest => mkParser (names st) ((a ++ denote es) :: rest)
                              (params st ++ flat_map completed_keys es)
      | [] => st end).
Proof.
  revert st; induction es as [|e es IH]; intros st Hwf Ha.
  - cbn. destruct st as [ns [|a rest] ps]; cbn in *; [contradiction|].
    now rewrite !app_nil_r.
  - inversion Hwf as [|? ? We Wes]; subst.
    cbn [label_statements flat_map]. rewrite parse_loop_app, parse_entry by assumption.
    cbn [rbind]. unfold entry_effect.
    destruct st as [ns [|a rest] ps]; cbn in *; [contradiction|].
    unfold label_statements in IH. rewrite IH; cbn; [|assumption|discriminate].
    now rewrite <- !app_assoc.
Qed.

Lemma parse_balanced es : wf_label es ->
  parse_statements (label_statements es) =
  Ok (denote es, flat_map completed_keys es, false).
Proof.
  intros H. unfold parse_statements. rewrite parse_entries by (auto; discriminate).
  reflexivity.
Qed.

(** the flat list is a permutation of the keys of the mapping *)
Lemma completed_keys_perm_entry e :
  Permutation (completed_keys e) (fst (denote_entry e) :: keys_of (snd (denote_entry e))).
Proof.
  induction e as [k v | kw n body ek ev IH] using entry_ind'; cbn.
  - apply Permutation_refl.
  - eapply Permutation_trans; [apply Permutation_app_comm|]. cbn. constructor.
    induction IH as [|x body Hx _ IHb]; cbn; [constructor|].
    rewrite app_comm_cons. now apply Permutation_app.
Qed.
Lemma completed_keys_perm es :
  Permutation (flat_map completed_keys es) (keys_of (PMulti (denote es))).
Proof.
  cbn. induction es as [|e es IH]; cbn; [constructor|].
  rewrite app_comm_cons. apply Permutation_app; [apply completed_keys_perm_entry | exact IH].
Qed.

(** ** Malformed input *)
Definition st_ok (st : parser) : Prop :=
  List.length (aggs st) = S (List.length (names st)).

Lemma parse_step_ok st s : st_ok st ->
  exists st', parse_step st s = Ok st' /\ st_ok st' /\
    (forall k, In k (params st) -> In k (params st')) /\
    (plain_key (fst s) -> In (fst s) (params st')).
Proof.
  destruct s as [k v]. destruct st as [ns ag ps]. unfold st_ok, parse_step; cbn [aggs names params].
  intros Hok.
  destruct (str_in k PVL_BLOCK_INITIALS) eqn:Eo.
  - eexists; split; [reflexivity|]. cbn. split; [lia|]. split; [auto|].
    intros [Hn _]. apply initials_iff in Eo. contradiction.
  - destruct (startswith $"END" k) eqn:Ee.
    + destruct ns as [|n ns].
      * eexists; split; [reflexivity|]. cbn. split; [exact Hok|]. split; [auto|].
        intros [_ Hn]. apply end_iff in Ee. contradiction.
      * unfold step_out. cbn. destruct ag as [|a [|a' rest]]; cbn in Hok; try lia.
        cbn. eexists; split; [reflexivity|]. cbn. split; [lia|]. split.
        -- intros k' Hk'. apply in_or_app; auto.
        -- intros [_ Hn]. apply end_iff in Ee. contradiction.
    + unfold add_statement. cbn. destruct ag as [|a rest]; cbn in Hok; [lia|].
      eexists; split; [reflexivity|]. cbn. split; [lia|]. split.
      * intros k' Hk'. apply in_or_app; auto.
      * intros _. apply in_or_app; right; now left.
Qed.

Lemma parse_loop_ok ss st : st_ok st ->
  exists st', parse_loop ss st = Ok st' /\ st_ok st' /\
    (forall k, In k (params st) -> In k (params st')) /\
    (forall k v, In (k, v) ss -> plain_key k -> In k (params st')).
Proof.
  revert st; induction ss as [|s ss IH]; intros st Hok.
  - exists st. cbn. repeat split; auto. intros k v [].
  - destruct (parse_step_ok st s Hok) as (st1 & E1 & H1 & P1 & Q1).
    destruct (IH st1 H1) as (st2 & E2 & H2 & P2 & Q2).
    exists st2. cbn [parse_loop]. rewrite E1. cbn [rbind].
    repeat split; auto.
    intros k v [->|Hin] Hk; [apply P2, Q1, Hk | eapply Q2; eauto].
Qed.

Lemma parse_total ss :
  exists m ps w, parse_statements ss = Ok (m, ps, w) /\
    (forall k v, In (k, v) ss -> plain_key k -> In k ps).
Proof.
  unfold parse_statements.
  destruct (parse_loop_ok ss parser_init eq_refl) as (st & E & Hok & _ & HQ).
  rewrite E. cbn [rbind]. unfold st_ok in Hok.
  destruct (aggs st) as [|a rest] eqn:Ea; [cbn in Hok; lia|].
  eexists _, _, _. split; [reflexivity|]. exact HQ.
Qed.

(** stray ENDs are ignored *)
Lemma parse_tops ts ps a : Forall wf_top ts ->
  parse_loop (flat_map top_statements ts) (mkParser [] [a] ps) =
  Ok (mkParser [] [a ++ denote (top_entries ts)]
               (ps ++ flat_map completed_keys (top_entries ts))).
Proof.
  revert a ps; induction ts as [|t ts IH]; intros a ps Hwf.
  - cbn. now rewrite !app_nil_r.
  - inversion Hwf as [|? ? Ht Hts]; subst. cbn [flat_map].
    rewrite parse_loop_app. destruct t as [e|k v].
    + cbn [top_statements]. rewrite parse_entry by (try exact Ht; discriminate).
      cbn [rbind entry_effect aggs names params]. rewrite IH by exact Hts.
      cbn. now rewrite <- !app_assoc.
    + destruct Ht as [Ho Hc]. cbn [top_statements parse_loop]. unfold parse_step.
      apply initials_false in Ho. apply end_iff in Hc. rewrite Ho, Hc. cbn [names rbind].
      rewrite IH by exact Hts. reflexivity.
Qed.

(** inside a block that is never closed, the bottom of the stack is frozen *)
Lemma parse_never_closes ss st : never_closes ss -> st_ok st -> names st <> [] ->
  exists st', parse_loop ss st = Ok st' /\ st_ok st' /\
    exists pre_n pre_a, List.length pre_a = List.length pre_n /\
      names st' = pre_n ++ names st /\
      exists a rest, aggs st = a :: rest /\ exists a', aggs st' = pre_a ++ a' :: rest.
Proof.
  intros H. revert st. induction H as [|k v l Hk _ IH|k v l Hk _ IH|e l We _ IH];
    intros st Hok Hn.
  - exists st. split; [reflexivity|]. split; [exact Hok|]. exists [], []. cbn.
    repeat split. unfold st_ok in Hok. destruct (aggs st) as [|a rest]; cbn in Hok; [lia|].
    exists a, rest. split; [reflexivity|]. now exists a.
  - destruct Hk as [Ho Hc]. apply initials_false in Ho. apply end_false in Hc.
    cbn [parse_loop]. unfold parse_step. rewrite Ho, Hc. unfold add_statement.
    unfold st_ok in Hok. destruct st as [ns ag ps]. cbn in *.
    destruct ag as [|a rest]; cbn in Hok; [lia|]. cbn [rbind].
    destruct (IH (mkParser ns (md_add a k (PStr v) :: rest) (ps ++ [k]))) as
      (st' & E & H1 & pn & pa & H2 & H3 & a0 & r0 & H4 & a1 & H5); [exact Hok|exact Hn|].
    cbn in H4. injection H4 as <- <-.
    exists st'. split; [exact E|]. split; [exact H1|]. exists pn, pa. repeat split; auto.
    exists a, rest. split; [reflexivity|]. now exists a1.
  - apply initials_iff in Hk. cbn [parse_loop]. unfold parse_step. rewrite Hk.
    cbn [rbind]. destruct st as [ns ag ps]. unfold st_ok in Hok. cbn in *.
    destruct ag as [|a rest]; cbn in Hok; [lia|].
    destruct (IH (step_in v (mkParser ns (a :: rest) ps))) as
      (st' & E & H1 & pn & pa & H2 & H3 & a0 & r0 & H4 & a1 & H5);
      [unfold st_ok; cbn; lia|cbn; discriminate|].
    cbn in H4, H3. injection H4 as <- <-.
    exists st'. split; [exact E|]. split; [exact H1|].
    exists (pn ++ [v]), (pa ++ [a1]). rewrite !app_length. cbn. repeat split; [lia| |].
    + now rewrite <- app_assoc.
    + exists a, rest. split; [reflexivity|]. exists a. now rewrite <- app_assoc.
  - rewrite parse_loop_app, parse_entry; [|exact We|].
    2:{ unfold st_ok in Hok. destruct (aggs st); [cbn in Hok; lia|discriminate]. }
    cbn [rbind]. unfold entry_effect. destruct st as [ns ag ps]. unfold st_ok in Hok.
    cbn in *. destruct ag as [|a rest]; cbn in Hok; [lia|].
    destruct (IH (mkParser ns ((a ++ [denote_entry e]) :: rest) (ps ++ completed_keys e))) as
      (st' & E & H1 & pn & pa & H2 & H3 & a0 & r0 & H4 & a1 & H5); [exact Hok|exact Hn|].
    cbn in H4, H3. injection H4 as <- <-.
    exists st'. split; [exact E|]. split; [exact H1|]. exists pn, pa. repeat split; auto.
    exists a, rest. split; [reflexivity|]. now exists a1.
Qed.

Lemma parse_unclosed ts k v ss :
  Forall wf_top ts -> opens_block k -> never_closes ss ->
  exists ps, parse_statements (flat_map top_statements ts ++ (k, v) :: ss) =
             Ok (denote (top_entries ts), ps, true).
Proof.
  intros Ht Hk Hs. unfold parse_statements. rewrite parse_loop_app.
  unfold parser_init. rewrite parse_tops by exact Ht. cbn [rbind parse_loop].
  unfold parse_step. apply initials_iff in Hk. rewrite Hk. cbn [rbind].
  destruct (parse_never_closes ss
     (step_in v (mkParser [] [[] ++ denote (top_entries ts)]
                 ([] ++ flat_map completed_keys (top_entries ts)))) Hs)
    as (st' & E & H1 & pn & pa & H2 & H3 & a0 & r0 & H4 & a1 & H5);
    [reflexivity|cbn; discriminate|].
  rewrite E. cbn [rbind]. cbn in H4. injection H4 as <- <-. rewrite H5.
  assert (Hlast : last (pa ++ [a1; denote (top_entries ts)]) [] = denote (top_entries ts)).
  { clear. replace (pa ++ [a1; denote (top_entries ts)])
      with ((pa ++ [a1]) ++ [denote (top_entries ts)]) by (now rewrite <- app_assoc).
    apply last_last. }
  rewrite Hlast, app_length. cbn [List.length].
  destruct (pa ++ [a1; denote (top_entries ts)]) eqn:Ed; [destruct pa; discriminate|].
  eexists. f_equal. f_equal. apply Nat.ltb_lt. lia.
Qed.

(** every statement sequence has one of the two shapes *)
Definition frame_stmts (f : (str * str) * list entry) : list (str * str) :=
  fst f :: label_statements (snd f).

Lemma never_closes_entries es l : wf_label es -> never_closes l ->
  never_closes (label_statements es ++ l).
Proof.
  intros H Hl. induction H as [|e es We _ IH]; [exact Hl|].
  cbn [label_statements flat_map]. rewrite <- app_assoc. apply NC_block; assumption.
Qed.

Lemma shape_invariant ss : exists ts (fr : list ((str * str) * list entry)),
  Forall wf_top ts /\
  Forall (fun f => opens_block (fst (fst f)) /\ wf_label (snd f)) fr /\
  ss = flat_map top_statements ts ++ flat_map frame_stmts fr.
Proof.
  induction ss as [|[k v] ss IH] using rev_ind.
  - exists [], []. repeat constructor.
  - destruct IH as (ts & fr & Ht & Hf & ->).
    destruct (str_in k PVL_BLOCK_INITIALS) eqn:Eo.
    + apply initials_iff in Eo. exists ts, (fr ++ [((k, v), [])]). repeat split; auto.
      * apply Forall_app; split; auto. constructor; [|constructor]. cbn. split; [exact Eo|constructor].
      * rewrite flat_map_app, <- app_assoc. reflexivity.
    + destruct (startswith $"END" k) eqn:Ee.
      * apply initials_false in Eo. apply end_iff in Ee.
        destruct fr as [|x fr] using rev_ind.
        -- exists (ts ++ [Stray k v]), []. repeat split; auto.
           ++ apply Forall_app; split; auto. constructor; [|constructor]. cbn. auto.
           ++ rewrite !flat_map_app. cbn. now rewrite ?app_nil_r.
        -- clear IHfr. apply Forall_app in Hf as [Hf Hx]. inversion Hx as [|? ? [Hx1 Hx2] _]; subst.
           destruct x as [[kw n] body]. cbn in Hx1, Hx2.
           set (e := Blk kw n body k v).
           assert (We : wf_entry e) by (apply wf_entry_blk; auto).
           assert (Hst : frame_stmts ((kw, n), body) ++ [(k, v)] = statements_of e).
           { unfold frame_stmts, e. cbn. unfold label_statements. reflexivity. }
           destruct fr as [|y fr] using rev_ind.
           ++ exists (ts ++ [Ent e]), []. repeat split; auto.
              ** apply Forall_app; split; auto.
              ** rewrite flat_map_app. cbn [flat_map app top_statements].
                 rewrite !app_nil_r, <- app_assoc.
                 rewrite Hst. rewrite flat_map_app. cbn [flat_map top_statements].
                 now rewrite app_nil_r.
           ++ clear IHfr. apply Forall_app in Hf as [Hf Hy]. inversion Hy as [|? ? [Hy1 Hy2] _]; subst.
              destruct y as [[kw' n'] body']. cbn in Hy1, Hy2.
              exists ts, (fr ++ [((kw', n'), body' ++ [e])]). repeat split; auto.
              ** apply Forall_app; split; auto. constructor; [|constructor]. cbn.
                 split; [exact Hy1|]. apply Forall_app; auto.
              ** rewrite !flat_map_app. cbn [flat_map]. rewrite !app_nil_r.
                 rewrite <- !app_assoc. rewrite Hst. f_equal. f_equal.
                 unfold frame_stmts; cbn [fst snd].
                 unfold label_statements. rewrite flat_map_app. cbn [flat_map].
                 now rewrite app_nil_r.
      * apply initials_false in Eo. apply end_false in Ee.
        set (e := Assign k v). assert (We : wf_entry e) by (split; assumption).
        destruct fr as [|x fr] using rev_ind.
        -- exists (ts ++ [Ent e]), []. repeat split; auto.
           ++ apply Forall_app; split; auto.
           ++ rewrite !flat_map_app. cbn. now rewrite ?app_nil_r.
        -- clear IHfr. apply Forall_app in Hf as [Hf Hx]. inversion Hx as [|? ? [Hx1 Hx2] _]; subst.
           destruct x as [[kw n] body]. cbn in Hx1, Hx2.
           exists ts, (fr ++ [((kw, n), body ++ [e])]). repeat split; auto.
           ++ apply Forall_app; split; auto. constructor; [|constructor]. cbn.
              split; [exact Hx1|]. apply Forall_app; auto.
           ++ rewrite !flat_map_app. cbn [flat_map]. rewrite !app_nil_r, <- !app_assoc.
              unfold frame_stmts; cbn [fst snd].
              unfold label_statements. rewrite flat_map_app. reflexivity.
Qed.

Lemma never_closes_frames (fr : list ((str * str) * list entry)) :
  Forall (fun f => opens_block (fst (fst f)) /\ wf_label (snd f)) fr ->
  never_closes (flat_map frame_stmts fr).
Proof.
  induction 1 as [|[[k v] body] fr [Hk Hb] _ IH]; [constructor|].
  cbn [flat_map]. unfold frame_stmts at 1. cbn [fst snd app].
  apply NC_open; [exact Hk|]. now apply never_closes_entries.
Qed.

Lemma every_sequence_has_a_shape ss :
  (exists ts, Forall wf_top ts /\ ss = flat_map top_statements ts) \/
  (exists ts k v rest, Forall wf_top ts /\ opens_block k /\ never_closes rest /\
     ss = flat_map top_statements ts ++ (k, v) :: rest).
Proof.
  destruct (shape_invariant ss) as (ts & fr & Ht & Hf & E).
  destruct fr as [|[[k v] body] fr].
  - left. exists ts. split; [exact Ht|]. rewrite E. cbn. now rewrite app_nil_r.
  - right. exists ts, k, v, (label_statements body ++ flat_map frame_stmts fr).
    inversion Hf as [|? ? [Hk Hb] Hfr]; subst. repeat split; auto.
    apply never_closes_entries; [exact Hb|]. now apply never_closes_frames.
Qed.

Lemma parse_tops_total ts : Forall wf_top ts ->
  parse_statements (flat_map top_statements ts) =
  Ok (denote (top_entries ts), flat_map completed_keys (top_entries ts), false).
Proof.
  intros H. unfold parse_statements, parser_init. rewrite parse_tops by exact H.
  reflexivity.
Qed.
