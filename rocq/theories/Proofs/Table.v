(** Lemmas about compute_offsets. *)
From Coq Require Import Lia Logic.FinFun.
From Verif.Base Require Import Py PyFacts Val.
From Verif.Model Require Import Files Table.
From Verif.Spec Require Import Table.
Open Scope Z_scope.

(** ** Block names *)
Lemma opt_str_eqb_eq a b : opt_str_eqb a b = true <-> a = b.
Proof.
  destruct a, b; cbn; split; intros H; try easy; try discriminate.
  - apply str_eqb_eq in H. now subst.
  - injection H as ->. apply str_eqb_refl.
Qed.
Lemma opt_str_eqb_neq a b : opt_str_eqb a b = false <-> a <> b.
Proof. rewrite <- opt_str_eqb_eq. destruct (opt_str_eqb a b); split; congruence. Qed.
Lemma filter_comm {A} (f g : A -> bool) l : filter f (filter g l) = filter g (filter f l).
Proof.
  induction l as [|x l IH]; [reflexivity|]. cbn [filter].
  destruct (f x) eqn:Ef, (g x) eqn:Eg; cbn [filter]; rewrite ?Ef, ?Eg; congruence.
Qed.
Lemma filter_id {A} (f : A -> bool) l : Forall (fun x => f x = true) l -> filter f l = l.
Proof. induction 1 as [|x l H _ IH]; [reflexivity|]. cbn [filter]. now rewrite H, IH. Qed.
Lemma filter_none {A} (f : A -> bool) l : Forall (fun x => f x = false) l -> filter f l = [].
Proof. induction 1 as [|x l H _ IH]; [reflexivity|]. cbn [filter]. now rewrite H. Qed.
Definition isnt (b x : option str) : bool := negb (opt_str_eqb b x).
Lemma uniq_run b n l : filter (isnt b) (uniq (repeat b n ++ l)) = filter (isnt b) (uniq l).
Proof.
  induction n as [|n IH]; [reflexivity|]. cbn [repeat app uniq filter].
  unfold isnt at 1. rewrite (proj2 (opt_str_eqb_eq b b) eq_refl). cbn [negb].
  fold (isnt b). rewrite IH. generalize (uniq l). clear. intros l.
  induction l as [|x l IH]; [reflexivity|]. cbn [filter]. destruct (isnt b x) eqn:E; [|exact IH].
  cbn [filter]. now rewrite E, IH.
Qed.

(** ** Segments: runs of rows of one block *)
Record seg := mkSeg { sg_name : option str; (* None: the table's own columns *)
  sg_reps : nat; sg_bytes : Z; sg_chunks : list (list frow) }.
Definition sg_rows (s : seg) : list frow := List.concat (sg_chunks s).
Definition sg_block (b0 : option str) (s : seg) : option str := match sg_name s with Some n => Some n | None => b0 end.
Definition seg_wf (b0 : option str) (s : seg) : Prop :=
  List.length (sg_chunks s) = sg_reps s /\ (1 <= sg_reps s)%nat /\
  (exists m, (0 < m)%nat /\ Forall (fun ch => List.length ch = m) (sg_chunks s)) /\
  Forall (fun r => r_block r = sg_block b0 s /\ r_reps r = Z.of_nat (sg_reps s) /\
                   (sg_name s <> None -> r_block_bytes r = Some (sg_bytes s))) (sg_rows s) /\
  match sg_name s with
  | None => sg_reps s = 1%nat
  | Some n => Some n <> b0 /\ ~ (exists a b, n = a ++ $"PLACEHOLDER" ++ b)
  end.
Fixpoint segs_ok (b0 : option str) (prev : Z) (segs : list seg) : Prop :=
  match segs with
  | [] => True
  | s :: segs' => seg_wf b0 s /\ (sg_name s <> None -> prev <= 1) /\ segs_ok b0 (Z.of_nat (sg_reps s)) segs'
  end.
Definition names_of (segs : list seg) : list (option str) :=
  flat_map (fun s => match sg_name s with Some n => [Some n] | None => [] end) segs.
Definition init (p : Z) (r : frow) : orow := mkO r (r_start r - 1 + p) (r_reps r).
Definition place (base : Z) (s : seg) : list orow :=
  List.concat (map (fun x => map (fun r => mkO r (r_start r - 1 + base + Z.of_nat (fst x) * sg_bytes s) (r_reps r)) (snd x))
                 (combine (seq 0 (sg_reps s)) (sg_chunks s))).
Definition row_end (o : orow) : Z := o_off o + r_bytes (o_row o).
Fixpoint place_segs (p : Z) (prev : orow) (segs : list seg) : list orow :=
  match segs with
  | [] => []
  | s :: segs' =>
    let out := match sg_name s with None => place p s | Some _ => place (row_end prev) s end in
    out ++ place_segs p (last out prev) segs'
  end.
Lemma sg_rows_nonempty b0 s : seg_wf b0 s -> sg_rows s <> [].
Proof.
  intros (H1 & H2 & (m & Hm & Hch) & _). unfold sg_rows. destruct (sg_chunks s) as [|ch chs]; [cbn in H1; lia|].
  inversion Hch; subst. destruct ch; [cbn in *; lia|discriminate].
Qed.
Lemma uniq_segs b0 segs prev : segs_ok b0 prev segs -> NoDup (names_of segs) ->
  filter (isnt b0) (uniq (map r_block (flat_map sg_rows segs))) = names_of segs.
Proof.
  revert prev. induction segs as [|s segs IH]; intros prev H Hnd; [reflexivity|].
  cbn [segs_ok] in H. destruct H as (Hwf & _ & Hrest). cbn [flat_map]. rewrite map_app.
  assert (E : map r_block (sg_rows s) = repeat (sg_block b0 s) (List.length (sg_rows s))).
  { assert (F : Forall (fun r => r_block r = sg_block b0 s) (sg_rows s)).
    { destruct Hwf as (_ & _ & _ & F & _). eapply Forall_impl; [|exact F]. cbn. intros r (Hr & _). exact Hr. }
    induction F as [|r l Hr _ IHl]; [reflexivity|]. cbn. now rewrite Hr, IHl. }
  rewrite E. assert (Hn := sg_rows_nonempty _ _ Hwf).
  destruct (List.length (sg_rows s)) as [|n] eqn:El; [destruct (sg_rows s); [easy|discriminate]|].
  unfold names_of in *. cbn [flat_map] in *. unfold sg_block in *. destruct (sg_name s) as [nm|] eqn:En.
  - cbn [repeat app uniq]. fold (isnt (Some nm)). rewrite uniq_run. cbn [filter].
    destruct Hwf as (_ & _ & _ & _ & W). rewrite En in W.
    unfold isnt at 1. rewrite (proj2 (opt_str_eqb_neq b0 (Some nm))) by (intros ->; now apply (proj1 W)). cbn [negb app].
    f_equal. rewrite filter_comm. inversion Hnd as [|x l Hin Hnd']; subst. rewrite (IH _ Hrest Hnd'). apply filter_id.
    apply Forall_forall. intros x Hx. unfold isnt. destruct (opt_str_eqb (Some nm) x) eqn:Ex; [|reflexivity].
    apply opt_str_eqb_eq in Ex. subst x. contradiction.
  - rewrite uniq_run. cbn [app]. now apply (IH _ Hrest).
Qed.

Lemma find_index (f : orow -> bool) a x b : Forall (fun o => f o = false) a -> f x = true ->
  find (fun i => match nth_error (a ++ x :: b) i with Some o => f o | None => false end)
    (seq 0 (List.length (a ++ x :: b))) = Some (List.length a).
Proof.
  intros Ha Hx.
  assert (G : forall k n pre, List.length pre = k ->
    Forall (fun o => f o = false) a ->
    find (fun i => match nth_error (pre ++ a ++ x :: b) i with Some o => f o | None => false end)
      (seq k (List.length (a ++ x :: b) + n)) = Some (k + List.length a)%nat).
  { clear Ha. induction a as [|y a IH]; intros k n pre Hk Ha.
    - cbn [app List.length Nat.add seq find]. rewrite nth_error_app2 by lia. rewrite <- Hk, Nat.sub_diag. cbn [nth_error].
      rewrite Hx. now rewrite Nat.add_0_r.
    - inversion Ha; subst. cbn [app List.length Nat.add seq find].
      rewrite nth_error_app2 by lia. rewrite Nat.sub_diag. cbn [nth_error]. rewrite H1.
      specialize (IH (S (List.length pre)) n (pre ++ [y])). rewrite <- app_assoc in IH. cbn [app] in IH.
      rewrite IH; [f_equal; lia|rewrite app_length; cbn; lia|assumption]. }
  specialize (G 0%nat 0%nat [] eq_refl Ha). rewrite Nat.add_0_r in G. cbn [app] in G. exact G.
Qed.
Lemma divide_even n m : (0 < n)%nat -> divide_numbers n (n * m) = List.concat (map (fun i => repeat i m) (seq 0 n)).
Proof.
  intros Hn. unfold divide_numbers. rewrite Nat.mul_comm, Nat.div_mul, Nat.mod_mul by lia.
  reflexivity.
Qed.
Lemma add_offsets_skip b am rows rest : Forall (fun o => in_block b o = false) rows ->
  add_offsets b am (rows ++ rest) = rows ++ add_offsets b am rest.
Proof.
  induction 1 as [|o l H _ IH]; [reflexivity|]. cbn [app add_offsets]. unfold in_block in H. rewrite H. now rewrite IH.
Qed.
Lemma add_offsets_nil b rows : add_offsets b [] rows = rows.
Proof. induction rows as [|o l IH]; [reflexivity|]. cbn [add_offsets]. rewrite IH. now destruct (opt_str_eqb _ _). Qed.
Lemma add_offsets_run b k m rows am rest : List.length rows = m -> Forall (fun o => in_block b o = true) rows ->
  add_offsets b (repeat k m ++ am) (rows ++ rest) =
  map (fun o => mkO (o_row o) (o_off o + k) (o_reps o)) rows ++ add_offsets b am rest.
Proof.
  intros <-. induction 1 as [|o l H _ IH]; [reflexivity|].
  cbn [List.length repeat app add_offsets map]. unfold in_block in H. rewrite H. now rewrite IH.
Qed.
Definition shifted (z : Z) (o : orow) : orow := mkO (o_row o) (o_off o + z) (o_reps o).
Lemma add_offsets_chunks b size chunks k m rest : Forall (fun ch => List.length ch = m) chunks ->
  Forall (fun o => in_block b o = true) (List.concat chunks) ->
  add_offsets b (map (fun i => Z.of_nat i * size) (List.concat (map (fun i => repeat i m) (seq k (List.length chunks)))))
    (List.concat chunks ++ rest) =
  List.concat (map (fun x => map (shifted (Z.of_nat (fst x) * size)) (snd x)) (combine (seq k (List.length chunks)) chunks)) ++ rest.
Proof.
  revert k. induction chunks as [|ch chs IH]; intros k Hm Hb.
  - cbn. apply add_offsets_nil.
  - inversion Hm; subst. cbn [List.concat] in Hb. apply Forall_app in Hb as [Hb1 Hb2].
    cbn [List.length seq map List.concat combine fst snd]. rewrite map_app, <- app_assoc.
    assert (E : map (fun i => Z.of_nat i * size) (repeat k (List.length ch)) = repeat (Z.of_nat k * size) (List.length ch)).
    { generalize (List.length ch). clear. intros n. induction n as [|n IH]; [reflexivity|]. cbn [repeat map]. now rewrite IH. }
    rewrite E, add_offsets_run by auto. rewrite IH by auto. now rewrite <- app_assoc.
Qed.
Lemma last_app_ne {A} (a b : list A) d e : b <> [] -> last (a ++ b) d = last b e.
Proof.
  intros H. destruct b as [|x b _] using rev_ind; [easy|]. now rewrite app_assoc, !last_last.
Qed.
Lemma place_one_chunk base s : sg_reps s = 1%nat -> List.length (sg_chunks s) = 1%nat ->
  place base s = map (init base) (sg_rows s).
Proof.
  intros Hr Hl. unfold place, sg_rows. rewrite Hr. destruct (sg_chunks s) as [|ch [|? ?]]; try discriminate.
  cbn [seq combine map List.concat fst snd]. rewrite !app_nil_r. apply map_ext. intros r. unfold init. f_equal. lia.
Qed.
Lemma place_rows base s : List.length (sg_chunks s) = sg_reps s -> map o_row (place base s) = sg_rows s.
Proof.
  intros Hl. unfold place, sg_rows. rewrite <- Hl. clear Hl. generalize (sg_bytes s) 0%nat. intros B k. revert k.
  induction (sg_chunks s) as [|ch chs IH]; intros k; [reflexivity|].
  cbn [List.length seq combine map List.concat fst snd]. rewrite map_app, IH, map_map. cbn [o_row]. now rewrite map_id.
Qed.
Lemma place_blocks base b0 s : seg_wf b0 s ->
  Forall (fun o => block_of o = sg_block b0 s /\ o_reps o = Z.of_nat (sg_reps s)) (place base s).
Proof.
  intros (H1 & H2 & _ & HF & _). apply Forall_forall. intros o Ho.
  assert (E := place_rows base s H1). 
  assert (In (o_row o) (sg_rows s)) by (rewrite <- E; now apply in_map).
  rewrite Forall_forall in HF. destruct (HF _ H) as (Hb & Hr & _). split; [exact Hb|]. rewrite <- Hr.
  unfold place in Ho. apply in_concat in Ho as (l & Hl & Ho). apply in_map_iff in Hl as (x & <- & _).
  apply in_map_iff in Ho as (r & <- & _). reflexivity.
Qed.
Lemma place_nonempty base b0 s : seg_wf b0 s -> place base s <> [].
Proof.
  intros H E. apply (sg_rows_nonempty _ _ H). rewrite <- (place_rows base s) by apply H. now rewrite E.
Qed.

Lemma map_other {A} (f g : A -> A) p l : Forall (fun o => p o = false) l -> (forall o, g o = if p o : bool then f o else o) -> map g l = l.
Proof. intros H Hg. induction H as [|x l Hx _ IH]; [reflexivity|]. cbn. now rewrite IH, Hg, Hx. Qed.
Lemma map_these {A} (f g : A -> A) p l : Forall (fun o => p o = true) l -> (forall o, g o = if p o : bool then f o else o) -> map g l = map f l.
Proof. intros H Hg. induction H as [|x l Hx _ IH]; [reflexivity|]. cbn. now rewrite IH, Hg, Hx. Qed.

Lemma block_step_seg b0 p done prev nm s rest :
  sg_name s = Some nm -> seg_wf b0 s -> done = rest ++ [prev] -> o_reps prev <= 1 ->
  Forall (fun o => in_block nm o = false) done -> forall after, Forall (fun o => in_block nm o = false) after ->
  block_step b0 p (done ++ map (init (opt0 p)) (sg_rows s) ++ after) (Some nm) =
  Ok (done ++ place (row_end prev) s ++ after).
Proof.
  intros En Hwf Edone Hrep Hdone after Hafter. unfold block_step.
  assert (Hne := sg_rows_nonempty _ _ Hwf).
  destruct Hwf as (Hl & Hpos & (m & Hm & Hch) & HF & Hnm). rewrite En in Hnm. destruct Hnm as [Hnb Hnp].
  unfold sg_block in HF. rewrite En in HF.
  assert (NP : contains $"PLACEHOLDER" nm = false).
  { destruct (contains _ nm) eqn:E; [|reflexivity]. apply contains_iff in E. contradiction. }
  assert (N1 : forall x, str_eqb nm ($"PLACEHOLDER_" ++ x) = false).
  { intros x. apply str_eqb_neq. intros ->. apply Hnp. exists [], ($"_" ++ x). reflexivity. }
  change ($"PLACEHOLDER_None") with ($"PLACEHOLDER_" ++ $"None"). rewrite !N1. cbn [orb]. rewrite NP.
  assert (Hin : Forall (fun o => in_block nm o = true) (map (init (opt0 p)) (sg_rows s))).
  { apply Forall_map. eapply Forall_impl; [|exact HF]. intros r (Hb & _). unfold in_block, block_of, init. cbn [o_row].
    rewrite Hb. cbn. apply str_eqb_refl. }
  assert (Hhere : filter (in_block nm) (done ++ map (init (opt0 p)) (sg_rows s) ++ after) = map (init (opt0 p)) (sg_rows s)).
  { rewrite !filter_app, (filter_none _ done) by assumption. rewrite (filter_none _ after) by assumption.
    rewrite filter_id by assumption. now rewrite app_nil_r. }
  rewrite Hhere.
  destruct (sg_rows s) as [|r0 rs] eqn:Ers; [easy|]. 
  assert (Hr0 : r_reps r0 = Z.of_nat (sg_reps s) /\ r_block_bytes r0 = Some (sg_bytes s)).
  { inversion HF; subst. destruct H1 as (_ & ? & Hbb). split; [assumption|]. apply Hbb. congruence. }
  cbn [map]. cbn [map] in Hhere, Hin.
  change (init (opt0 p) r0 :: map (init (opt0 p)) rs) with (map (init (opt0 p)) (r0 :: rs)) in *.
  assert (Hfind := find_index (in_block nm) done (init (opt0 p) r0) (map (init (opt0 p)) rs ++ after) Hdone).
  specialize (Hfind ltac:(now inversion Hin)).
  change (map (init (opt0 p)) (r0 :: rs) ++ after) with (init (opt0 p) r0 :: map (init (opt0 p)) rs ++ after).
  match goal with |- context [find ?f ?l] => change (find f l) with (find (fun i => match nth_error (done ++ init (opt0 p) r0 :: map (init (opt0 p)) rs ++ after) i with Some o => in_block nm o | None => false end) (seq 0 (Datatypes.length (done ++ init (opt0 p) r0 :: map (init (opt0 p)) rs ++ after)))) end.
  rewrite Hfind.
  assert (Hprev : exists i, List.length done = S i /\ nth_error (done ++ init (opt0 p) r0 :: map (init (opt0 p)) rs ++ after) i = Some prev).
  { subst done. rewrite app_length. cbn [List.length]. exists (List.length rest). split; [lia|].
    rewrite <- app_assoc, nth_error_app2 by lia. now rewrite Nat.sub_diag. }
  destruct Hprev as (i & -> & ->). cbn [rbind].
  cbn [init o_reps o_row]. rewrite (proj1 Hr0).
  rewrite (proj2 (Z.ltb_ge 1 (o_reps prev)) Hrep). cbn [andb].
  set (shift := o_off prev + r_bytes (o_row prev) - match p with Some q => q | None => 0 end).
  change (init (opt0 p) r0 :: map (init (opt0 p)) rs ++ after) with (map (init (opt0 p)) (r0 :: rs) ++ after).
  rewrite !map_app.
  assert (Hg : forall o, (fun o => if in_block nm o then mkO (o_row o) (o_off o + shift) (o_reps o) else o) o = if in_block nm o then shifted shift o else o) by reflexivity.
  rewrite (map_other (shifted shift) _ (in_block nm) done Hdone Hg).
  rewrite (map_other (shifted shift) _ (in_block nm) after Hafter Hg).
  rewrite (map_these (shifted shift) _ (in_block nm) _ Hin Hg).
  rewrite map_map.
  assert (Hs : forall r, shifted shift (init (opt0 p) r) = init (row_end prev) r).
  { intros r. unfold shifted, init, shift, row_end. cbn [o_row o_off o_reps]. f_equal. unfold opt0. destruct p; lia. }
  rewrite (map_ext _ _ Hs).
  destruct (Z.eqb_spec (Z.of_nat (sg_reps s)) 1) as [H1|H1].
  - rewrite <- Ers. rewrite <- place_one_chunk by lia. reflexivity.
  - destruct (Z.ltb_spec (Z.of_nat (sg_reps s)) 1); [lia|]. rewrite (proj2 Hr0).
    f_equal. rewrite add_offsets_skip by assumption. f_equal.
    rewrite <- Ers. unfold sg_rows. rewrite map_length. rewrite Nat2Z.id.
    assert (Hlen : List.length (List.concat (sg_chunks s)) = (sg_reps s * m)%nat).
    { rewrite <- Hl. clear - Hch. induction Hch as [|ch chs Hc _ IH]; [reflexivity|]. cbn [List.concat List.length]. rewrite app_length, IH, Hc. lia. }
    rewrite Hlen, divide_even by lia. rewrite (concat_map (init (row_end prev))) . rewrite <- Hl, <- (map_length (map (init (row_end prev))) (sg_chunks s)).
    rewrite add_offsets_chunks.
    + f_equal. unfold place. rewrite <- Hl, map_length. f_equal.
      generalize 0%nat. clear. induction (sg_chunks s) as [|ch chs IH]; intros k; [reflexivity|].
      cbn [List.length seq map combine fst snd]. rewrite map_map. f_equal. apply IH.
    + apply Forall_map. eapply Forall_impl; [|exact Hch]. intros ch. now rewrite map_length.
    + rewrite <- concat_map. fold (sg_rows s). rewrite Ers. apply Forall_map. eapply Forall_impl; [|exact HF].
      intros r (Hb & _). unfold in_block, block_of, init. cbn [o_row]. rewrite Hb. cbn. apply str_eqb_refl.
Qed.

Lemma segs_not_in b0 nm prev segs : segs_ok b0 prev segs -> Some nm <> b0 -> ~ In (Some nm) (names_of segs) ->
  forall p, Forall (fun o => in_block nm o = false) (map (init p) (flat_map sg_rows segs)).
Proof.
  intros H Hb Hn p. revert prev H Hn. induction segs as [|s segs IH]; intros prev H Hn; [constructor|].
  cbn [flat_map]. rewrite map_app. cbn [segs_ok] in H. destruct H as (Hwf & _ & Hr).
  unfold names_of in Hn. cbn [flat_map] in Hn. rewrite in_app_iff in Hn.
  apply Forall_app. split; [|eapply IH; eauto].
  destruct Hwf as (_ & _ & _ & HF & _). apply Forall_map. eapply Forall_impl; [|exact HF].
  intros r (Er & _). unfold in_block, block_of, init. cbn [o_row]. rewrite Er. apply opt_str_eqb_neq. unfold sg_block.
  destruct (sg_name s) as [n|]; [|congruence]. intros E. injection E as ->. apply Hn. left. now left.
Qed.
Lemma blocks_segs b0 p segs : forall done prev, segs_ok b0 (o_reps prev) segs -> NoDup (names_of segs) ->
  (exists rest, done = rest ++ [prev]) ->
  (forall nm, In (Some nm) (names_of segs) -> Forall (fun o => in_block nm o = false) done) ->
  blocks_loop b0 p (done ++ map (init (opt0 p)) (flat_map sg_rows segs)) (names_of segs) =
  Ok (done ++ place_segs (opt0 p) prev segs).
Proof.
  induction segs as [|s segs IH]; intros done prev Hok Hnd [rest Ed] Hdone; [reflexivity|].
  cbn [segs_ok] in Hok. destruct Hok as (Hwf & Hprev & Hok).
  cbn [flat_map place_segs]. rewrite map_app.
  assert (Hlast : forall base, last (place base s) prev = last (place base s) (mkO (mkRow [] None 0 0 None None None 0 None None None None) 0 0)
      /\ o_reps (last (place base s) prev) = Z.of_nat (sg_reps s) /\ exists front, place base s = front ++ [last (place base s) prev]).
  { intros base. assert (Hne := place_nonempty base _ _ Hwf). assert (HB := place_blocks base _ _ Hwf).
    destruct (place base s) as [|x l _] using rev_ind; [easy|]. rewrite !last_last. split; [reflexivity|].
    apply Forall_app in HB as [_ HB]. inversion HB; subst. split; [tauto|]. now exists l. }
  destruct (sg_name s) as [nm|] eqn:En.
  - unfold names_of in *. cbn [flat_map] in *. rewrite En in *. cbn [app] in *.
    fold (names_of segs) in *. inversion Hnd as [|x l Hin Hnd']; subst x l. cbn [blocks_loop].
    rewrite (block_step_seg b0 p done prev nm s rest); auto.
    + cbn [rbind]. destruct (Hlast (row_end prev)) as (_ & Hr & front & Hf).
      rewrite app_assoc. rewrite (IH (done ++ place (row_end prev) s) (last (place (row_end prev) s) prev)).
      * now rewrite <- app_assoc.
      * now rewrite Hr.
      * exact Hnd'.
      * exists (done ++ front). rewrite <- app_assoc. now rewrite <- Hf.
      * intros n Hn. apply Forall_app. split; [apply Hdone; now right|].
        eapply Forall_impl; [|exact (place_blocks _ _ _ Hwf)]. intros o [Ho _]. unfold in_block. rewrite Ho.
        apply opt_str_eqb_neq. unfold sg_block. rewrite En. intros E. injection E as ->. contradiction.
    + apply Hprev. congruence.
    + apply Hdone. now left.
    + apply (segs_not_in b0 nm (Z.of_nat (sg_reps s)) segs); auto.
      destruct Hwf as (_ & _ & _ & _ & W). rewrite En in W. tauto.
  - unfold names_of in *. cbn [flat_map] in *. rewrite En in *. cbn [app] in *. fold (names_of segs) in *.
    assert (Hone : sg_reps s = 1%nat) by (destruct Hwf as (_ & _ & _ & _ & W); now rewrite En in W).
    assert (Hl : List.length (sg_chunks s) = 1%nat) by (destruct Hwf as (W & _); lia).
    rewrite <- place_one_chunk by assumption. destruct (Hlast (opt0 p)) as (_ & Hr & front & Hf).
    rewrite app_assoc. rewrite (IH (done ++ place (opt0 p) s) (last (place (opt0 p) s) prev)).
    + now rewrite <- app_assoc.
    + now rewrite Hr.
    + exact Hnd.
    + exists (done ++ front). rewrite <- app_assoc. now rewrite <- Hf.
    + intros n Hn. apply Forall_app. split; [now apply Hdone|].
      eapply Forall_impl; [|exact (place_blocks _ _ _ Hwf)]. intros o [Ho _]. unfold in_block. rewrite Ho.
      apply opt_str_eqb_neq. unfold sg_block. rewrite En. intros ->.
      clear - Hok Hn. revert Hok Hn. generalize (Z.of_nat (sg_reps s)). induction segs as [|s' segs IH]; intros z Hok Hn; [easy|].
      cbn [segs_ok] in Hok. destruct Hok as (W & _ & Hok). unfold names_of in Hn. cbn [flat_map] in Hn. apply in_app_iff in Hn as [Hn|Hn].
      * destruct W as (_ & _ & _ & _ & W). destruct (sg_name s') as [n'|]; [|easy]. destruct Hn as [E|[]]. now apply (proj1 W).
      * eapply IH; eauto.
Qed.

(** ** Items *)
Lemma insert_end x acc : Forall (fun y => fst y < x) acc -> count_insert x acc = acc ++ [(x, 1%nat)].
Proof.
  induction 1 as [|[y n] acc H _ IH]; [reflexivity|]. cbn [count_insert app fst] in *.
  destruct (Z.eqb_spec x y); [lia|]. destruct (Z.ltb_spec x y); [lia|]. now rewrite IH.
Qed.
Lemma insert_same x n acc : Forall (fun y => fst y < x) acc -> count_insert x (acc ++ [(x, n)]) = acc ++ [(x, S n)].
Proof.
  induction 1 as [|[y k] acc H _ IH]; cbn [count_insert app fst] in *.
  - now rewrite Z.eqb_refl.
  - destruct (Z.eqb_spec x y); [lia|]. destruct (Z.ltb_spec x y); [lia|]. now rewrite IH.
Qed.
Lemma counts_run x k acc n : Forall (fun y => fst y < x) acc ->
  fold_left (fun a x => count_insert x a) (repeat x k) (acc ++ [(x, n)]) = acc ++ [(x, (n + k)%nat)].
Proof.
  intros H. revert n. induction k as [|k IH]; intros n; cbn [repeat fold_left].
  - now rewrite Nat.add_0_r.
  - rewrite insert_same by assumption. rewrite IH. do 3 f_equal. lia.
Qed.
Lemma counts_ascending vs acc : StronglySorted Z.lt (map fst (acc ++ vs)) -> Forall (fun v => (0 < snd v)%nat) vs ->
  fold_left (fun a x => count_insert x a) (flat_map (fun v : Z * nat => repeat (fst v) (snd v)) vs) acc = acc ++ vs.
Proof.
  revert acc. induction vs as [|[x n] vs IH]; intros acc Hs Hp; [cbn; now rewrite app_nil_r|].
  inversion Hp; subst. cbn [snd] in *. destruct n as [|n]; [lia|].
  cbn [flat_map fst snd repeat app fold_left]. rewrite fold_left_app.
  assert (Ha : Forall (fun y => fst y < x) acc).
  { clear - Hs. induction acc as [|[y k] acc IH]; [constructor|]. cbn [app map fst] in Hs. inversion Hs; subst.
    constructor; [|now apply IH]. cbn. rewrite map_app in H2. apply Forall_app in H2 as [_ H2]. now inversion H2. }
  rewrite insert_end by assumption. rewrite counts_run by assumption. rewrite IH; [now rewrite <- app_assoc| |assumption].
  now rewrite <- app_assoc.
Qed.
Record igroup := mkG { g_off : Z; g_size : option Z; g_rows : list orow }.
Definition g_sized (g : igroup) : bool := match g_size g with Some _ => true | None => false end.
Definition g_ok (g : igroup) : Prop :=
  g_rows g <> [] /\
  Forall (fun o => o_off o = g_off g /\ item_size (o_row o) = Ok (g_size g) /\
                   (g_sized g = true -> r_item_bytes (o_row o) <> None)) (g_rows g).
Fixpoint items_from (off size : Z) (k : nat) (l : list orow) : list orow :=
  match l with [] => [] | o :: l' => mkO (o_row o) (off + Z.of_nat k * size) (o_reps o) :: items_from off size (S k) l' end.
Definition g_out (g : igroup) : list orow :=
  match g_size g with None => g_rows g | Some s => items_from (g_off g) s 0 (g_rows g) end.
Lemma sized_ok gs : Forall g_ok gs ->
  sized (flat_map g_rows gs) = Ok (flat_map (fun g => map (fun o => (o, g_size g)) (g_rows g)) gs).
Proof.
  unfold sized. assert (G : forall (l : list (orow * option Z)), Forall (fun x => item_size (o_row (fst x)) = Ok (snd x)) l ->
    rmap (fun o => do s <- item_size (o_row o); Ok (o, s)) (map fst l) = Ok l).
  { induction 1 as [|[o s] l H _ IH]; [reflexivity|]. cbn [map rmap fst snd] in *. rewrite H. cbn [rbind]. now rewrite IH. }
  intros H. rewrite <- G.
  - f_equal. clear. induction gs as [|g gs IH]; [reflexivity|]. cbn [flat_map]. rewrite map_app, map_map, <- IH. cbn [fst].
    now rewrite map_id.
  - induction H as [|g gs [_ Hg] _ IH]; [constructor|]. cbn [flat_map]. apply Forall_app. split; [|exact IH].
    apply Forall_map. eapply Forall_impl; [|exact Hg]. cbn. tauto.
Qed.
Definition having {A} (x : A * option Z) : bool := match snd x with Some _ => true | None => false end.
Lemma having_groups gs : filter having (flat_map (fun g => map (fun o => (o, g_size g)) (g_rows g)) gs) =
  flat_map (fun g => map (fun o => (o, g_size g)) (g_rows g)) (filter g_sized gs).
Proof.
  induction gs as [|g gs IH]; [reflexivity|]. cbn [flat_map filter]. rewrite filter_app, IH.
  unfold g_sized at 2. destruct (g_size g) as [s|] eqn:E.
  - cbn [flat_map]. f_equal. rewrite E. apply filter_id. apply Forall_map. apply Forall_forall. reflexivity.
  - now rewrite filter_none by (apply Forall_map; apply Forall_forall; reflexivity).
Qed.
Lemma map_const_ {A B} (f : A -> B) b l : Forall (fun x => f x = b) l -> map f l = repeat b (List.length l).
Proof. induction 1 as [|x l H _ IH]; [reflexivity|]. cbn. now rewrite H, IH. Qed.
Lemma items_offs off s k l : map o_off (items_from off s k l) = map (fun i => Z.of_nat i * s + off) (seq k (List.length l)).
Proof. revert k. induction l as [|o l IH]; intros k; [reflexivity|]. cbn. rewrite IH. f_equal. lia. Qed.
Lemma skipn_exact {A} (a b : list A) n : List.length a = n -> skipn n (a ++ b) = b.
Proof. intros <-. rewrite skipn_app, skipn_all, Nat.sub_diag. reflexivity. Qed.
Lemma assign_unsized l rest offs : assign_offsets (map (fun o => (o, None)) l ++ rest) offs = l ++ assign_offsets rest offs.
Proof. induction l as [|o l IH]; [reflexivity|]. cbn. now rewrite IH. Qed.
Lemma assign_sized off s k l rest offs :
  assign_offsets (map (fun o => (o, Some s)) l ++ rest) (map (fun i => Z.of_nat i * s + off) (seq k (List.length l)) ++ offs) =
  items_from off s k l ++ assign_offsets rest offs.
Proof. revert k. induction l as [|o l IH]; intros k; [reflexivity|]. cbn. rewrite IH. do 2 f_equal. lia. Qed.
Lemma item_phase gs : Forall g_ok gs -> StronglySorted Z.lt (map g_off (filter g_sized gs)) ->
  item_offsets (flat_map g_rows gs) = Ok (flat_map g_out gs).
Proof.
  intros Hok Hs. unfold item_offsets.
  destruct (existsb _ (flat_map g_rows gs)) eqn:Ex.
  - rewrite sized_ok by assumption. cbn [rbind]. f_equal.
    change (filter _ (flat_map (fun g => map (fun o => (o, g_size g)) (g_rows g)) gs)) with
      (filter having (flat_map (fun g => map (fun o => (o, g_size g)) (g_rows g)) gs)).
    rewrite having_groups.
    set (sg := filter g_sized gs) in *.
    assert (Hsg : Forall (fun g => g_ok g /\ g_sized g = true) sg).
    { apply Forall_forall. intros g Hg. apply filter_In in Hg as [Hg1 Hg2]. rewrite Forall_forall in Hok. now split; [apply Hok|]. }
    assert (E1 : map (fun x : orow * option Z => o_off (fst x)) (flat_map (fun g => map (fun o => (o, g_size g)) (g_rows g)) sg) =
      flat_map (fun v : Z * nat => repeat (fst v) (snd v)) (map (fun g => (g_off g, List.length (g_rows g))) sg)).
    { clear - Hsg. induction Hsg as [|g l [[_ Hg] _] _ IH]; [reflexivity|]. cbn [flat_map map fst snd]. rewrite map_app, IH. f_equal.
      rewrite map_map. cbn [fst]. apply map_const_. eapply Forall_impl; [|exact Hg]. cbn. tauto. }
    rewrite E1. unfold value_counts. rewrite counts_ascending; cycle 1.
    { cbn [app]. rewrite map_map. exact Hs. }
    { apply Forall_map. eapply Forall_impl; [|exact Hsg]. intros g [[Hn _] _]. cbn. destruct (g_rows g); [easy|cbn; lia]. }
    cbn [app].
    assert (E2 : group_offsets (map (fun g => (g_off g, List.length (g_rows g))) sg)
        (map (fun x : orow * option Z => match snd x with Some s => s | None => 0 end)
           (flat_map (fun g => map (fun o => (o, g_size g)) (g_rows g)) sg)) =
      flat_map (fun g => map (fun i => Z.of_nat i * match g_size g with Some s => s | None => 0 end + g_off g) (seq 0 (List.length (g_rows g)))) sg).
    { clear - Hsg. induction Hsg as [|g l [[Hn Hg] Hz] _ IH]; [reflexivity|].
      cbn [flat_map map group_offsets fst snd]. rewrite map_app, map_map. cbn [snd]. f_equal.
      - destruct (g_rows g) as [|o os]; [easy|]. cbn [map hd app]. reflexivity.
      - rewrite skipn_exact by (now rewrite map_length). exact IH. }
    rewrite E2. unfold sg. clear - Hok. induction Hok as [|g gs Hg _ IH]; [reflexivity|].
    cbn [flat_map filter]. unfold g_sized at 1. unfold g_out. destruct (g_size g) as [s|] eqn:Eg.
    + cbn [flat_map]. rewrite Eg. rewrite assign_sized. f_equal. exact IH.
    + rewrite assign_unsized. f_equal. exact IH.
  - f_equal. induction Hok as [|g gs [Hn Hg] Hok IH]; [reflexivity|]. cbn [flat_map] in *.
    rewrite existsb_app in Ex. apply orb_false_iff in Ex as [E1 E2]. f_equal; [|apply IH; auto].
    + unfold g_out. destruct (g_size g) as [s|] eqn:Eg; [exfalso|reflexivity].
      destruct (g_rows g) as [|o os]; [easy|]. cbn [existsb] in E1. apply orb_false_iff in E1 as [E1 _].
      inversion Hg; subst. destruct H1 as (_ & _ & Hb). unfold g_sized in Hb. rewrite Eg in Hb.
      destruct (r_item_bytes (o_row o)); [discriminate|]. now apply Hb.
    + clear - Hs. cbn [filter] in Hs. destruct (g_sized g); [|exact Hs]. cbn in Hs. now inversion Hs.
Qed.

(** ** From the table to rows *)
Definition context := (option str * Z * option Z)%type.
Definition count (c : column) : nat := match c_items c with None => 1 | Some (n, _, _) => Z.to_nat n end.
Section Shape.
Context {X : Type}.
Variable P : context -> column -> X -> Prop.
Definition col_shape (cx : context) (c : column) (l : list X) : Prop := List.length l = count c /\ Forall (P cx c) l.
Definition cols_shape (cx : context) (cols : list column) (l : list X) : Prop :=
  exists ll, l = List.concat ll /\ Forall2 (col_shape cx) cols ll.
Definition elem_shape (cx : context) (e : element) (l : list X) : Prop :=
  match e with
  | Column c => col_shape cx c l
  | Container n _ b r cols => exists ll, l = List.concat ll /\ List.length ll = Z.to_nat r /\ Forall (cols_shape (Some n, r, Some b) cols) ll
  end.
Definition table_shape (cx : context) (t : list element) (l : list X) : Prop :=
  exists ll, l = List.concat ll /\ Forall2 (elem_shape cx) t ll.
End Shape.
Lemma Forall2_length {A B} {R : A -> B -> Prop} {l l'} : Forall2 R l l' -> List.length l = List.length l'.
Proof. induction 1; cbn; congruence. Qed.
Lemma Forall2_concat_inv {A B} (R : A -> B -> Prop) ll l' : Forall2 R (List.concat ll) l' ->
  exists ll', l' = List.concat ll' /\ Forall2 (Forall2 R) ll ll'.
Proof.
  revert l'. induction ll as [|l ll IH]; intros l' H; cbn [List.concat] in H.
  - inversion H. exists []. split; [reflexivity|constructor].
  - apply Forall2_app_inv_l in H as (a & b & Ha & Hb & ->). destruct (IH _ Hb) as (ll' & -> & Hll).
    exists (a :: ll'). split; [reflexivity|]. now constructor.
Qed.
Section Transfer.
Context {X Y : Type}.
Variables (P : context -> column -> X -> Prop) (Q : context -> column -> Y -> Prop) (R : X -> Y -> Prop).
Hypothesis PQ : forall cx c x y, P cx c x -> R x y -> Q cx c y.
Lemma col_transfer cx c l l' : col_shape P cx c l -> Forall2 R l l' -> col_shape Q cx c l'.
Proof.
  intros [Hl HF] H. split; [now rewrite <- (Forall2_length H)|].
  clear Hl. induction H as [|x y l l' Hr _ IH]; [constructor|]. inversion HF; subst. constructor; eauto.
Qed.
Lemma list_transfer {C} (S1 : C -> list X -> Prop) (S2 : C -> list Y -> Prop) cs ll ll' :
  (forall c l l', S1 c l -> Forall2 R l l' -> S2 c l') ->
  Forall2 S1 cs ll -> Forall2 (Forall2 R) ll ll' -> Forall2 S2 cs ll'.
Proof.
  intros H H1. revert ll'. induction H1 as [|c l cs ll Hc _ IH]; intros ll' H2; inversion H2; subst; constructor; eauto.
Qed.
Lemma cols_transfer cx cols l l' : cols_shape P cx cols l -> Forall2 R l l' -> cols_shape Q cx cols l'.
Proof.
  intros (ll & -> & H1) H. apply Forall2_concat_inv in H as (ll' & -> & H2). exists ll'. split; [reflexivity|].
  eapply list_transfer; eauto. apply col_transfer.
Qed.
Lemma elem_transfer cx e l l' : elem_shape P cx e l -> Forall2 R l l' -> elem_shape Q cx e l'.
Proof.
  destruct e as [c|n s b r cols]; [apply col_transfer|].
  intros (ll & -> & Hl & H1) H. apply Forall2_concat_inv in H as (ll' & -> & H2). exists ll'. split; [reflexivity|].
  split; [now rewrite <- (Forall2_length H2)|]. clear Hl.
  induction H2; inversion H1; subst; constructor; [|now apply IHForall2]. eapply cols_transfer; eauto.
Qed.
Lemma table_transfer cx t l l' : table_shape P cx t l -> Forall2 R l l' -> table_shape Q cx t l'.
Proof.
  intros (ll & -> & H1) H. apply Forall2_concat_inv in H as (ll' & -> & H2). exists ll'. split; [reflexivity|].
  eapply list_transfer; eauto. apply elem_transfer.
Qed.
End Transfer.

Definition item_fields (c : column) : option Z * option Z :=
  match c_items c with None => (None, None) | Some (_, w, d) => (Some w, d) end.
Definition row_keys (r : frow) := (r_type r, r_scale r, r_shift r).
Definition col_keys (c : column) := (option_map PStr (c_type c), c_scale c, c_shift c).
Definition core_is (cx : context) (c : column) (r : frow) : Prop :=
  (r_block r, r_reps r, r_block_bytes r) = cx /\ r_start r = c_start c /\ r_bytes r = c_bytes c /\
  (r_item_bytes r, r_item_offset r) = item_fields c /\
  row_keys r = col_keys c.
Definition size_of (c : column) : option Z := match c_items c with None => None | Some (_, w, d) => Some (item_step w d) end.
Definition spot_ok (x : Z * column) (g : igroup) : Prop :=
  g_off g = fst x + (c_start (snd x) - 1) /\ g_size g = size_of (snd x) /\ List.length (g_rows g) = count (snd x) /\
  Forall (fun o => o_off o = g_off g /\ r_start (o_row o) = c_start (snd x) /\ r_bytes (o_row o) = c_bytes (snd x) /\
                   (r_item_bytes (o_row o), r_item_offset (o_row o)) = item_fields (snd x)) (g_rows g).
Definition put (B : Z) (r : frow) : orow := mkO r (r_start r - 1 + B) (r_reps r).
Lemma put_cols cx cols ch B : cols_shape core_is cx cols ch ->
  exists gs, map (put B) ch = flat_map g_rows gs /\ Forall2 spot_ok (map (fun c => (B, c)) cols) gs.
Proof.
  intros (ll & -> & H). induction H as [|c l cols ll [Hl Hc] _ IH]; [exists []; split; [reflexivity|constructor]|].
  destruct IH as (gs & E & HF).
  exists (mkG (B + (c_start c - 1)) (size_of c) (map (put B) l) :: gs). cbn [List.concat flat_map map g_rows]. split.
  - now rewrite map_app, E.
  - constructor; [|exact HF]. unfold spot_ok. cbn [g_off g_size g_rows fst snd]. split; [reflexivity|]. split; [reflexivity|].
    rewrite map_length. split; [exact Hl|]. apply Forall_map. eapply Forall_impl; [|exact Hc].
    intros r (_ & Hs & Hb & Hi & Hk). cbn. rewrite Hs. repeat split; auto. lia.
Qed.
Definition seg_for (cx : context) (e : element) (s : seg) : Prop :=
  match e with
  | Column c => exists l, s = mkSeg None 1 0 [l] /\ col_shape core_is cx c l
  | Container n _ b r cols => exists ll, s = mkSeg (Some n) (Z.to_nat r) b ll /\ List.length ll = Z.to_nat r /\
      Forall (cols_shape core_is (Some n, r, Some b) cols) ll
  end.
Lemma segs_of cx t l : table_shape core_is cx t l -> exists segs, l = flat_map sg_rows segs /\ Forall2 (seg_for cx) t segs.
Proof.
  intros (ll & -> & H). induction H as [|e l t ll He _ IH]; [exists []; split; [reflexivity|constructor]|].
  destruct IH as (segs & E & HF). cbn [List.concat]. rewrite E. destruct e as [c|n s b r cols].
  - exists (mkSeg None 1 0 [l] :: segs). cbn [flat_map]. unfold sg_rows at 2. cbn [sg_chunks List.concat]. rewrite app_nil_r.
    split; [reflexivity|]. constructor; [|exact HF]. now exists l.
  - destruct He as (chs & -> & Hl & Hc). exists (mkSeg (Some n) (Z.to_nat r) b chs :: segs). split; [reflexivity|].
    constructor; [|exact HF]. exists chs. auto.
Qed.
Lemma count_pos c : good_column c -> (0 < count c)%nat.
Proof. intros [_ H]. unfold count. destruct (c_items c) as [[[n w] d]|]; lia. Qed.
Lemma cols_length cx cols l : cols_shape core_is cx cols l -> List.length l = fold_right (fun c n => (count c + n)%nat) 0%nat cols.
Proof.
  intros (ll & -> & H). induction H as [|c l cols ll [Hl _] _ IH]; [reflexivity|]. cbn [List.concat fold_right]. now rewrite app_length, Hl, IH.
Qed.
Lemma seg_for_wf b0 bb e s : seg_for (b0, 1, bb) e s -> good_element e ->
  (forall n s b r cols, e = Container n s b r cols -> Some n <> b0) -> seg_wf b0 s.
Proof.
  destruct e as [c|n st b r cols]; cbn [seg_for good_element].
  - intros (l & -> & Hl & Hc) Hg _. unfold seg_wf, sg_rows, sg_block. cbn [sg_chunks sg_reps sg_name List.length List.concat].
    rewrite app_nil_r. split; [reflexivity|]. split; [lia|]. split.
    { exists (count c). split; [now apply count_pos|]. repeat constructor. exact Hl. }
    split; [|reflexivity]. eapply Forall_impl; [|exact Hc]. intros x (E & _). injection E as -> -> ->.
    repeat split; congruence.
  - intros (ll & -> & Hl & Hc) (Hr & Hne & Hg & Hp) Hn. unfold seg_wf, sg_rows, sg_block. cbn [sg_chunks sg_reps sg_name sg_bytes].
    split; [exact Hl|]. split; [lia|]. split.
    { exists (fold_right (fun c n => (count c + n)%nat) 0%nat cols). split.
      - destruct cols as [|c cols]; [easy|]. inversion Hg; subst. cbn [fold_right]. assert (Hc' := count_pos _ H1). lia.
      - eapply Forall_impl; [|exact Hc]. intros ch. apply cols_length. }
    split; [|split; [eapply Hn; reflexivity|exact Hp]].
    apply Forall_concat. eapply Forall_impl; [|exact Hc]. intros ch (lls & -> & HF). apply Forall_concat.
    clear - HF Hr. induction HF as [|c l cols lls [_ Hl] _ IH]; [constructor|]. constructor; [|exact IH].
    eapply Forall_impl; [|exact Hl]. intros x (E & _). injection E as -> -> ->. repeat split; auto. lia.
Qed.
Definition prev_ok (e : element) (z : Z) : Prop := ~ repeats e -> z <= 1.
Lemma segs_for_ok b0 bb t segs : Forall2 (seg_for (b0, 1, bb)) t segs -> Forall good_element t ->
  (forall n, Some n = b0 -> ~ In n (container_names t)) ->
  forall e z, adjoined e t -> prev_ok e z -> segs_ok b0 z segs.
Proof.
  induction 1 as [|e' s t segs Hs _ IH]; intros Hg Hn e z Ha Hz; [exact I|].
  inversion Hg; subst. cbn [segs_ok].
  assert (Hwf : seg_wf b0 s).
  { eapply seg_for_wf; eauto. intros n st b r cols -> E. apply (Hn n E). cbn. now left. }
  split; [exact Hwf|].
  assert (Hn' : forall n, Some n = b0 -> ~ In n (container_names t)).
  { intros n E Hin. apply (Hn n E). unfold container_names. cbn [flat_map]. apply in_app_iff. now right. }
  inversion Ha; subst.
  - destruct Hs as (l & -> & _). split; [cbn; congruence|]. cbn [sg_reps]. eapply IH; eauto. intros _. cbn. lia.
  - destruct Hs as (l & -> & _). split; [auto|]. cbn [sg_reps]. eapply IH; eauto.
    intros Hr. cbn [repeats] in Hr. destruct H1 as [? _]. lia.
Qed.
Lemma names_for cx t segs : Forall2 (seg_for cx) t segs -> names_of segs = map Some (container_names t).
Proof.
  induction 1 as [|e s t segs Hs _ IH]; [reflexivity|]. unfold names_of, container_names in *. cbn [flat_map]. rewrite map_app, IH.
  destruct e as [c|n st b r cols]; destruct Hs as (l & -> & _); reflexivity.
Qed.
Lemma last_map_put B l d : l <> [] -> exists r, In r l /\ last (map (put B) l) d = put B r /\ exists f, l = f ++ [r].
Proof.
  intros H. destruct l as [|x l _] using rev_ind; [easy|]. exists x. rewrite map_app. cbn [map]. rewrite last_last.
  split; [apply in_app_iff; right; now left|]. split; [reflexivity|]. now exists l.
Qed.
Lemma place_elem p e s base d b0 bb : seg_for (b0, 1, bb) e s -> good_element e ->
  (forall n st b r cols, e = Container n st b r cols -> base = p + (st - 1)) -> (forall c, e = Column c -> base = p) ->
  (exists gs, place base s = flat_map g_rows gs /\ Forall2 spot_ok (places p e) gs) /\
  (~ repeats e -> row_end (last (place base s) d) = p + element_end e).
Proof.
  intros Hs Hg Hb1 Hb2. destruct e as [c|n st b r cols].
  - destruct Hs as (l & -> & Hl & Hc). rewrite (Hb2 c eq_refl). cbn [places repeats element_end].
    assert (E : place p (mkSeg None 1 0 [l]) = map (put p) l).
    { unfold place. cbn. rewrite app_nil_r. apply map_ext. intros x. unfold put. f_equal. lia. }
    rewrite E. split.
    + destruct (put_cols (b0, 1, bb) [c] l p) as (gs & E2 & HF).
      { exists [l]. cbn. rewrite app_nil_r. split; [reflexivity|]. repeat constructor; auto. }
      exists gs. split; [exact E2|exact HF].
    + intros _. assert (Hp := count_pos _ Hg). destruct (last_map_put p l d) as (x & Hx & -> & _); [destruct l; [cbn in Hl; lia|discriminate]|].
      rewrite Forall_forall in Hc. destruct (Hc _ Hx) as (_ & H1 & H2 & _). unfold row_end, column_end, put. cbn. rewrite H1, H2. lia.
  - destruct Hs as (ll & -> & Hl & Hc). destruct Hg as (Hr & Hne & Hg & _). rewrite (Hb1 _ _ _ _ _ eq_refl). cbn [places element_end repeats].
    unfold place. cbn [sg_reps sg_bytes sg_chunks]. rewrite <- Hl. split.
    + generalize 0%nat. clear Hl. induction Hc as [|ch ll Hch _ IH]; intros k; [exists []; split; [reflexivity|constructor]|].
      destruct (IH (S k)) as (gs & E & HF). destruct (put_cols _ _ _ (p + (st - 1) + Z.of_nat k * b) Hch) as (gs0 & E0 & HF0).
      exists (gs0 ++ gs). cbn [List.length seq combine map List.concat flat_map fst snd]. split.
      * rewrite flat_map_app, <- E0, E. f_equal. apply map_ext. intros x. unfold put. f_equal. lia.
      * now apply Forall2_app.
    + intros Hrep. assert (Er : r = 1) by lia. subst r. change (Z.to_nat 1) with 1%nat in Hl.
      destruct ll as [|ch [|? ?]]; try discriminate. cbn [List.length seq combine map List.concat fst snd]. rewrite app_nil_r.
      inversion Hc; subst. destruct H1 as (lls & -> & HF).
      destruct cols as [|c cols _] using rev_ind; [easy|].
      apply Forall2_app_inv_l in HF as (a & q & _ & Hq & ->). inversion Hq as [|? lc ? ? [Hlc Hcc] Hnil]; subst. inversion Hnil; subst.
      apply Forall_app in Hg as [_ Hg]. inversion Hg; subst. assert (Hp := count_pos _ H1).
      rewrite concat_app. cbn [List.concat]. rewrite app_nil_r, map_app.
      rewrite (last_app_ne _ _ d d) by (destruct lc; [cbn in Hlc; lia|discriminate]).
      assert (E : map (fun r => mkO r (r_start r - 1 + (p + (st - 1)) + Z.of_nat 0 * b) (r_reps r)) lc = map (put (p + (st - 1))) lc).
      { apply map_ext. intros x. unfold put. f_equal. lia. }
      rewrite E. destruct (last_map_put (p + (st - 1)) lc d) as (x & Hx & -> & _); [destruct lc; [cbn in Hlc; lia|discriminate]|].
      rewrite Forall_forall in Hcc. destruct (Hcc _ Hx) as (_ & HA & HB & _).
      rewrite rev_app_distr. cbn [rev app]. unfold row_end, column_end, put. cbn. rewrite HA, HB. lia.
Qed.
Lemma place_table p b0 bb t segs : Forall2 (seg_for (b0, 1, bb)) t segs -> Forall good_element t ->
  forall e prev, adjoined e t -> (~ repeats e -> row_end prev = p + element_end e) ->
  exists gs, place_segs p prev segs = flat_map g_rows gs /\ Forall2 spot_ok (table_places p t) gs.
Proof.
  induction 1 as [|e' s t segs Hs _ IH]; intros Hg e prev Ha Hp; [exists []; split; [reflexivity|constructor]|].
  inversion Hg; subst. cbn [place_segs]. unfold table_places. cbn [flat_map]. fold (table_places p t). inversion Ha; subst.
  - destruct Hs as (l & Es & Hs'). assert (En : sg_name s = None) by (now rewrite Es). rewrite En.
    destruct (place_elem p (Column c) s p prev b0 bb) as [(gs1 & E1 & F1) Hend]; [now exists l|assumption|discriminate|reflexivity|].
    destruct (IH H2 (Column c) (last (place p s) prev)) as (gs2 & E2 & F2); [assumption|assumption|].
    exists (gs1 ++ gs2). rewrite flat_map_app, <- E1, <- E2. split; [reflexivity|]. now apply Forall2_app.
  - destruct Hs as (ll & Es & Hs'). assert (En : sg_name s = Some n) by (now rewrite Es). rewrite En.
    destruct (place_elem p (Container n s0 b r cols) s (row_end prev) prev b0 bb) as [(gs1 & E1 & F1) Hend]; [now exists ll|assumption| |discriminate|].
    { intros ? ? ? ? ? [= <- <- <- <- <-]. rewrite (Hp H5). lia. }
    destruct (IH H2 (Container n s0 b r cols) (last (place (row_end prev) s) prev)) as (gs2 & E2 & F2); [assumption|assumption|].
    exists (gs1 ++ gs2). rewrite flat_map_app, <- E1, <- E2. split; [reflexivity|]. now apply Forall2_app.
Qed.

(** ** [compute_offsets] on the rows of a table *)
Lemma places_shift p e : places p e = map (fun x => (fst x + p, snd x)) (places 0 e).
Proof.
  destruct e as [c|n s b r cols]; cbn [places map fst snd]; [reflexivity|].
  generalize (seq 0 (Z.to_nat r)). intros l. induction l as [|k l IH]; [reflexivity|]. cbn [flat_map]. rewrite map_app, IH, map_map.
  cbn [fst snd]. f_equal. apply map_ext. intros c. f_equal. lia.
Qed.
Lemma table_places_shift p t : table_places p t = map (fun x => (fst x + p, snd x)) (table_places 0 t).
Proof.
  unfold table_places. induction t as [|e t IH]; [reflexivity|]. cbn [flat_map]. rewrite map_app, <- IH. now rewrite places_shift.
Qed.
Lemma places_good p t : Forall good_element t -> Forall (fun x => good_column (snd x)) (table_places p t).
Proof.
  unfold table_places. induction 1 as [|e t He _ IH]; [constructor|]. cbn [flat_map]. apply Forall_app. split; [|exact IH].
  destruct e as [c|n s b r cols]; cbn [places]; [now constructor|].
  destruct He as (_ & _ & Hc & _). apply Forall_forall. intros x Hx. apply in_flat_map in Hx as (k & _ & Hx).
  apply in_map_iff in Hx as (c & <- & Hin). cbn. rewrite Forall_forall in Hc. now apply Hc.
Qed.
Lemma spot_g_ok x g : good_column (snd x) -> spot_ok x g -> g_ok g.
Proof.
  intros Hg (H1 & H2 & H3 & H4). assert (Hc := count_pos _ Hg). split; [destruct (g_rows g); [cbn in H3; lia|discriminate]|].
  eapply Forall_impl; [|exact H4]. intros o (Ho & _ & _ & Hi). split; [exact Ho|].
  unfold item_fields in Hi. rewrite H2. unfold size_of, g_sized, item_size. rewrite H2. unfold size_of.
  destruct Hg as [_ Hg]. destruct (c_items (snd x)) as [[[n w] d]|].
  - injection Hi as -> ->. destruct d as [d|]; cbn [item_step] in *.
    + destruct (Z.ltb_spec d w); [lia|]. split; [reflexivity|discriminate].
    + split; [reflexivity|discriminate].
  - injection Hi as -> ->. split; [reflexivity|discriminate].
Qed.
Definition cell_of (o : orow) : Z * Z := (o_off o, cell_width (o_row o)).
Lemma spot_cells x g : spot_ok x g -> map cell_of (g_out g) = column_cells (fst x) (snd x).
Proof.
  intros (H1 & H2 & H3 & H4). unfold g_out, column_cells, cell_of. rewrite H2. unfold size_of, count, item_fields in *.
  destruct (c_items (snd x)) as [[[n w] d]|].
  - rewrite <- H3, H1. clear H1 H2 H3. generalize 0%nat. induction H4 as [|o l (Ho & _ & _ & Hi) _ IH]; intros k; [reflexivity|].
    cbn [items_from map List.length seq o_off o_row]. rewrite IH. f_equal. unfold cell_width. injection Hi as -> _. f_equal.
  - destruct (g_rows g) as [|o [|? ?]]; try discriminate. inversion H4; subst. destruct H5 as (Ho & _ & Hb & Hi).
    cbn [map]. unfold cell_width. injection Hi as -> _. now rewrite Ho, H1, Hb.
Qed.
Lemma items_rows off s k l : map o_row (items_from off s k l) = map o_row l.
Proof. revert k. induction l as [|o l IH]; intros k; [reflexivity|]. cbn. now rewrite IH. Qed.
Lemma g_out_rows g : map o_row (g_out g) = map o_row (g_rows g).
Proof. unfold g_out. destruct (g_size g); [apply items_rows|reflexivity]. Qed.
Lemma flat_map_rows gs : map o_row (flat_map g_out gs) = map o_row (flat_map g_rows gs).
Proof. induction gs as [|g gs IH]; [reflexivity|]. cbn [flat_map]. now rewrite !map_app, IH, g_out_rows. Qed.
Lemma sorted_map (f : Z -> Z) l : (forall a b, a < b -> f a < f b) -> StronglySorted Z.lt l -> StronglySorted Z.lt (map f l).
Proof.
  intros Hf. induction 1 as [|x l _ IH H]; [constructor|]. cbn. constructor; [exact IH|]. apply Forall_map.
  eapply Forall_impl; [|exact H]. intros y. apply Hf.
Qed.
Lemma spots_sorted p t gs : Forall2 spot_ok (table_places p t) gs -> ascending t -> StronglySorted Z.lt (map g_off (filter g_sized gs)).
Proof.
  intros HF Ha. unfold ascending in Ha. apply (sorted_map (fun z => z + (p - 1))) in Ha; [|intros; lia].
  rewrite map_map in Ha. rewrite table_places_shift in HF.
  assert (E : map (fun x => fst x + c_start (snd x) + (p - 1))
      (filter (fun x => match c_items (snd x) with Some _ => true | None => false end) (table_places 0 t)) = map g_off (filter g_sized gs)).
  { clear Ha. revert gs HF. induction (table_places 0 t) as [|x l IH]; intros gs HF; inversion HF; subst; [reflexivity|].
    destruct H1 as (E1 & E2 & _). cbn [fst snd] in *. cbn [filter]. unfold g_sized at 1. rewrite E2. unfold size_of.
    destruct (c_items (snd x)) as [[[n w] d]|]; [|now apply IH]. cbn [map]. rewrite <- IH by assumption. f_equal. rewrite E1. lia. }
  now rewrite <- E.
Qed.
Lemma uniq_head b l : uniq (b :: l) = b :: filter (isnt b) (uniq (b :: l)).
Proof.
  cbn [uniq filter]. unfold isnt at 1. rewrite (proj2 (opt_str_eqb_eq b b) eq_refl). cbn [negb].
  f_equal. fold (isnt b). symmetry. generalize (uniq l). clear. intros l. induction l as [|x l IH]; [reflexivity|].
  cbn [filter]. destruct (isnt b x) eqn:E; [|exact IH]. cbn [filter]. now rewrite E, IH.
Qed.
Lemma compute_table info b0 bb t rows : table_shape core_is (b0, 1, bb) t rows -> good_table b0 t ->
  Forall (fun r => r_name r <> $"PLACEHOLDER_0") rows ->
  exists out tail, compute_offsets info rows = Ok (out, tail) /\ tail_row info out = Ok tail /\
    map cell_of out = table_cells (opt0 (i_prefix info)) t /\ map o_row out = rows.
Proof.
  intros Hshape ((c & t' & -> & Hadj) & Hg & Hnd & Hnb & Hasc) Hnp.
  apply segs_of in Hshape as (segs & Erows & HF).
  assert (HF0 := HF). destruct segs as [|s segs']; [inversion HF|]. assert (Hs : seg_for (b0, 1, bb) (Column c) s) by (now inversion HF). assert (HF' : Forall2 (seg_for (b0, 1, bb)) t' segs') by (now inversion HF).
  assert (Hnb' : forall n, Some n = b0 -> ~ In n (container_names (Column c :: t'))) by (intros n E; apply Hnb; congruence).
  assert (Hok : segs_ok b0 1 (s :: segs')).
  { apply (segs_for_ok b0 bb _ _ HF Hg Hnb' (Column c)); [now constructor|]. intros _. lia. }
  assert (Hnames := names_for _ _ _ HF).
  assert (Hndn : NoDup (names_of (s :: segs'))).
  { rewrite Hnames. apply Injective_map_NoDup; [|exact Hnd]. intros u v E; congruence. }
  unfold compute_offsets. set (p := opt0 (i_prefix info)).
  change (map (fun r => mkO r (r_start r - 1 + p) (r_reps r)) rows) with (map (init p) rows).
  rewrite (filter_id _ (map (init p) rows)); cycle 1.
  { apply Forall_map. eapply Forall_impl; [|exact Hnp]. intros r Hr. cbn [init o_row]. apply negb_true_iff, str_eqb_neq, Hr. }
  assert (Eb : map block_of (map (init p) rows) = map r_block rows) by (rewrite map_map; reflexivity).
  rewrite Eb, Erows.
  assert (Hu : uniq (map r_block (flat_map sg_rows (s :: segs'))) = b0 :: names_of (s :: segs')).
  { destruct Hs as (l & Es & Hl & Hc). assert (Hp : (0 < count c)%nat) by (inversion Hg; now apply count_pos).
    assert (Hd : exists r0 rs, flat_map sg_rows (s :: segs') = r0 :: rs /\ r_block r0 = b0).
    { rewrite Es. cbn [flat_map]. unfold sg_rows at 1. cbn [sg_chunks List.concat]. destruct l as [|r0 l]; [cbn in Hl; lia|].
      cbn [app]. eexists _, _. split; [reflexivity|]. inversion Hc; subst. destruct H1 as (E & _). congruence. }
    destruct Hd as (r0 & rs & Ed & Er). rewrite <- (uniq_segs b0 _ 1 Hok Hndn). rewrite Ed. cbn [map]. rewrite Er. apply uniq_head. }
  rewrite Hu.
  (* the first segment is the table's own *)
  assert (Hone : place p s = map (init p) (sg_rows s)).
  { destruct Hs as (l & -> & _). apply place_one_chunk; reflexivity. }
  assert (Hwf : seg_wf b0 s) by (cbn in Hok; tauto).
  assert (Hname : names_of (s :: segs') = names_of segs').
  { destruct Hs as (l & -> & _). reflexivity. }
  assert (Hlast : exists front prev, place p s = front ++ [prev] /\ o_reps prev = 1 /\ row_end prev = p + element_end (Column c)).
  { assert (Hne := place_nonempty p _ _ Hwf). assert (HB := place_blocks p _ _ Hwf).
    assert (Hend := proj2 (place_elem p (Column c) s p (mkO (mkRow [] None 0 0 None None None 0 None None None None) 0 0) b0 bb Hs ltac:(now inversion Hg) ltac:(discriminate) ltac:(reflexivity))).
    cbn [repeats] in Hend. specialize (Hend (fun f => f)).
    destruct (place p s) as [|x l _] using rev_ind; [easy|]. exists l, x. rewrite last_last in Hend.
    split; [reflexivity|]. split; [|exact Hend]. apply Forall_app in HB as [_ HB]. inversion HB; subst.
    destruct Hs as (? & -> & _). tauto. }
  destruct Hlast as (front & prev & Epl & Hrep & Hend).
  cbn [flat_map]. rewrite map_app, <- Hone, Epl, Hname.
  assert (Hbl := blocks_segs b0 (i_prefix info) segs' (front ++ [prev]) prev). rewrite Hname in Hndn.
  fold p in Hbl. rewrite Hbl; cycle 1.
  { rewrite Hrep. cbn [segs_ok] in Hok. destruct Hok as (_ & _ & Hok). destruct Hs as (? & -> & _). exact Hok. }
  { exact Hndn. }
  { now exists front. }
  { intros nm Hnm. rewrite <- Epl. eapply Forall_impl; [|exact (place_blocks p _ _ Hwf)]. intros o [Ho _].
    unfold in_block. rewrite Ho. apply opt_str_eqb_neq. destruct Hs as (? & -> & _). cbn [sg_block sg_name]. intros E.
    rewrite <- Hname, Hnames in Hnm. apply in_map_iff in Hnm as (n & [= ->] & Hn). now apply (Hnb' nm). }
  cbn [rbind]. fold p. rewrite <- Epl.
  destruct (place_elem p (Column c) s p prev b0 bb Hs) as [(gs1 & G1 & F1) _]; [now inversion Hg|discriminate|reflexivity|].
  destruct (place_table p b0 bb t' segs' HF' ltac:(now inversion Hg) (Column c) prev Hadj) as (gs2 & G2 & F2); [now intros _|].
  assert (FS : Forall2 spot_ok (table_places p (Column c :: t')) (gs1 ++ gs2)) by (now apply Forall2_app).
  rewrite G1, G2, <- flat_map_app.
  assert (Hpl := places_good p _ Hg).
  rewrite item_phase; cycle 1.
  { clear - FS Hpl. induction FS; inversion Hpl; subst; constructor; eauto using spot_g_ok. }
  { eapply spots_sorted; eauto. }
  cbn [rbind]. destruct (tail_row info (flat_map g_out (gs1 ++ gs2))) as [tail|er] eqn:Et; cycle 1.
  { exfalso. unfold tail_row in Et. destruct (rev (flat_map g_out (gs1 ++ gs2))) as [|o l] eqn:Er; [|discriminate].
    apply (f_equal (@rev _)) in Er. rewrite rev_involutive in Er. cbn in Er.
    apply (f_equal (map o_row)) in Er. rewrite flat_map_rows, flat_map_app, map_app in Er. rewrite <- G1, Epl, map_app in Er. cbn in Er.
    destruct (map o_row front); discriminate. }
  exists (flat_map g_out (gs1 ++ gs2)), tail. cbn [rbind]. split; [reflexivity|]. split; [exact Et|]. split.
  - unfold table_cells. clear - FS. induction FS as [|x g xs gs Hx _ IH]; [reflexivity|]. cbn [flat_map]. rewrite map_app, IH.
    f_equal. now apply spot_cells.
  - rewrite flat_map_rows, flat_map_app, map_app, <- G1, <- G2, place_rows by apply Hwf. cbn [flat_map]. f_equal.
    clear - Hok. cbn [segs_ok] in Hok. destruct Hok as (_ & _ & Hok). revert Hok. generalize (Z.of_nat (sg_reps s)). revert prev.
    induction segs' as [|s' segs IH]; intros prev z Hok; [reflexivity|]. cbn [segs_ok place_segs flat_map] in *.
    destruct Hok as (W & _ & Hok). rewrite map_app. erewrite IH by eauto. f_equal.
    destruct (sg_name s'); apply place_rows; apply W.
Qed.
