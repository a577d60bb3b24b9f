(** The manifest of a PDS4 table: parents, columns and skip factors of its fields (C44, C45, C63). *)
From Coq Require Import ZArith Lia.
From Verif.Base Require Import Py PyFacts.
From Verif.Model Require Import Types Scaling Pds4Types Pds4Tables.
From Verif.Spec Require Import Pds4Tables.
Open Scope nat_scope.

(** ** Induction over forests *)
Section ForestInd.
  Context (P : list item -> Prop) (Hnil : P []) (Hfld : forall l n F, P F -> P (Fld l n :: F))
    (Hgrp : forall r l n cs F, P cs -> P F -> P (Grp r l n cs :: F)).
  Fixpoint item_ind' (i : item) : forall F, P F -> P (i :: F) :=
    match i with
    | Fld l n => Hfld l n
    | Grp r l n cs => fun F HF => Hgrp r l n cs F
        ((fix go (cs : list item) : P cs := match cs with [] => Hnil | c :: cs => item_ind' c cs (go cs) end) cs) HF
    end.
  Fixpoint forest_ind (F : list item) : P F := match F with [] => Hnil | i :: F => item_ind' i F (forest_ind F) end.
End ForestInd.

Fixpoint size_item (i : item) : nat := match i with Fld _ _ => 1 | Grp _ _ _ cs => S (list_sum (map size_item cs)) end.
Definition size (F : list item) : nat := list_sum (map size_item F).
Lemma size_fld l n F : size (Fld l n :: F) = S (size F). Proof. reflexivity. Qed.
Lemma size_grp r l n cs F : size (Grp r l n cs :: F) = S (size cs + size F). Proof. reflexivity. Qed.
Lemma flatten_fld lvl l n F : flatten lvl (Fld l n :: F) = mkE lvl None l n :: flatten lvl F. Proof. reflexivity. Qed.
Lemma flatten_grp lvl r l n cs F : flatten lvl (Grp r l n cs :: F) = mkE lvl (Some r) l n :: flatten (S lvl) cs ++ flatten lvl F. Proof. reflexivity. Qed.
Lemma flatten_length F : forall lvl, length (flatten lvl F) = size F.
Proof.
  induction F as [|l n F IH|r l n cs F IHc IH] using forest_ind; intros lvl; [reflexivity| |].
  - rewrite flatten_fld, size_fld. cbn [length]. now rewrite IH.
  - rewrite flatten_grp, size_grp. cbn [length]. now rewrite app_length, IHc, IH.
Qed.
Lemma flatten_level F : forall lvl, Forall (fun e => lvl <= group_level e) (flatten lvl F).
Proof.
  induction F as [|l n F IH|r l n cs F IHc IH] using forest_ind; intros lvl; [constructor| |].
  - rewrite flatten_fld. constructor; [cbn; lia|apply IH].
  - rewrite flatten_grp. constructor; [cbn; lia|]. apply Forall_app. split; [|apply IH].
    eapply Forall_impl; [|apply IHc]. cbn. lia.
Qed.

(** ** Direct children, all descendants *)
Fixpoint kids (s : nat) (F : list item) : list nat := match F with [] => [] | i :: F => s :: kids (s + size_item i) F end.
Definition stops (lvl : nat) (post : list entry) : Prop := match post with [] => True | e :: _ => group_level e < lvl end.
Lemma scan_deep lvl s E X : Forall (fun e => lvl < group_level e) E -> scan lvl true s (E ++ X) = scan lvl true (s + length E) X.
Proof.
  revert s. induction E as [|e E IH]; intros s F; cbn [app length]; [now rewrite Nat.add_0_r|]. inversion F; subst. cbn [scan].
  rewrite (proj2 (Nat.leb_le _ _)) by lia. destruct (Nat.eqb_spec (group_level e) lvl); [lia|]. cbn [orb negb app]. rewrite IH by assumption. f_equal. lia.
Qed.
Lemma scan_stop lvl b s post : stops lvl post -> scan lvl b s post = [].
Proof. destruct post as [|e post]; [reflexivity|]. cbn [stops scan]. intros H. now rewrite (proj2 (Nat.leb_gt _ _)). Qed.
Lemma scan_direct lvl F : forall s post, stops lvl post -> scan lvl true s (flatten lvl F ++ post) = kids s F.
Proof.
  induction F as [|i F IH]; intros s post St; [now apply scan_stop|]. unfold flatten. cbn [flat_map kids]. fold (flatten lvl F).
  rewrite <- app_assoc. destruct i as [l n|r l n cs]; cbn [flatten_item app scan group_level].
  - rewrite Nat.leb_refl, Nat.eqb_refl. cbn [orb app]. f_equal. cbn [size_item]. rewrite IH by exact St. f_equal. lia.
  - rewrite Nat.leb_refl, Nat.eqb_refl. cbn [orb app]. f_equal. fold (flatten (S lvl) cs).
    rewrite scan_deep by (eapply Forall_impl; [|apply flatten_level]; cbn; lia). rewrite IH by exact St. f_equal. rewrite flatten_length. cbn [size_item]. fold (size cs). lia.
Qed.
Lemma scan_all lvl E : forall s post, Forall (fun e => lvl <= group_level e) E -> stops lvl post -> scan lvl false s (E ++ post) = seq s (length E).
Proof.
  induction E as [|e E IH]; intros s post F St; cbn [app length seq]; [now apply scan_stop|]. inversion F; subst. cbn [scan].
  rewrite (proj2 (Nat.leb_le _ _)) by assumption. cbn [negb]. rewrite orb_true_r. cbn [app]. f_equal. now apply IH.
Qed.

(** [m] has the forest [F] at index [s], level [lvl] *)
Definition At (m : list entry) (s lvl : nat) (F : list item) : Prop :=
  exists pre post, m = pre ++ flatten lvl F ++ post /\ length pre = s /\ stops lvl post.
Lemma at_root g : At (flatten 0 g) 0 0 g.
Proof. exists [], []. cbn [app length]. rewrite app_nil_r. now repeat split. Qed.
Lemma at_ent_fld m s lvl l n F : At m s lvl (Fld l n :: F) -> ent m s = mkE lvl None l n.
Proof. intros (pre & post & -> & <- & _). unfold ent. rewrite app_nth2, Nat.sub_diag by lia. reflexivity. Qed.
Lemma at_ent_grp m s lvl r l n cs F : At m s lvl (Grp r l n cs :: F) -> ent m s = mkE lvl (Some r) l n.
Proof. intros (pre & post & -> & <- & _). unfold ent. rewrite app_nth2, Nat.sub_diag by lia. reflexivity. Qed.
Lemma at_tail_fld m s lvl l n F : At m s lvl (Fld l n :: F) -> At m (S s) lvl F.
Proof.
  intros (pre & post & -> & <- & St). exists (pre ++ [mkE lvl None l n]), post. rewrite flatten_fld, <- app_assoc. split; [reflexivity|]. split; [rewrite app_length; cbn; lia|exact St].
Qed.
Lemma at_tail_grp m s lvl r l n cs F : At m s lvl (Grp r l n cs :: F) -> At m (S s + size cs) lvl F.
Proof.
  intros (pre & post & -> & <- & St). exists (pre ++ mkE lvl (Some r) l n :: flatten (S lvl) cs), post. rewrite flatten_grp, <- !app_assoc. cbn [app]. rewrite <- app_assoc.
  split; [reflexivity|]. split; [rewrite app_length; cbn [length]; rewrite flatten_length; lia|exact St].
Qed.
Lemma at_in_grp m s lvl r l n cs F : At m s lvl (Grp r l n cs :: F) -> At m (S s) (S lvl) cs.
Proof.
  intros (pre & post & -> & <- & St). exists (pre ++ [mkE lvl (Some r) l n]), (flatten lvl F ++ post). rewrite flatten_grp, <- !app_assoc. cbn [app]. rewrite <- app_assoc.
  split; [reflexivity|]. split; [rewrite app_length; cbn; lia|]. destruct F as [|[l' n'|r' l' n' cs'] F]; cbn [flatten flat_map flatten_item app stops group_level]; try lia.
  destruct post; cbn [stops] in *; [exact Logic.I|lia].
Qed.
Lemma at_size m s lvl F : At m s lvl F -> s + size F <= length m.
Proof. intros (pre & post & -> & <- & _). rewrite !app_length, flatten_length. lia. Qed.
Lemma at_children m p lvl r l n cs F b : At m p lvl (Grp r l n cs :: F) ->
  children m (Some p) b = if b then kids (S p) cs else seq (S p) (size cs).
Proof.
  intros A. pose proof (at_ent_grp _ _ _ _ _ _ _ _ A) as E. destruct (at_in_grp _ _ _ _ _ _ _ _ A) as (pre & post & -> & L & St).
  unfold children. rewrite E. cbn [group_level]. rewrite <- L, skipn_app, skipn_all, Nat.sub_diag. cbn [skipn app].
  destruct b; [now apply scan_direct|]. rewrite scan_all; [now rewrite flatten_length|apply flatten_level|exact St].
Qed.
Lemma root_children g : children (flatten 0 g) None true = kids 0 g.
Proof. unfold children. rewrite <- (app_nil_r (flatten 0 g)). now apply scan_direct. Qed.

(** ** Columns *)
(** the manifest index of the field of each column *)
Fixpoint cidx_item (s : nat) (i : item) : list nat :=
  match i with
  | Fld _ _ => [s]
  | Grp r _ _ cs => concat (repeat ((fix go (s : nat) (cs : list item) : list nat :=
                      match cs with [] => [] | c :: cs => cidx_item s c ++ go (s + size_item c) cs end) (S s) cs) r)
  end.
Fixpoint cidx (s : nat) (F : list item) : list nat := match F with [] => [] | i :: F => cidx_item s i ++ cidx (s + size_item i) F end.
Lemma cidx_fld s l n F : cidx s (Fld l n :: F) = s :: cidx (S s) F.
Proof. cbn [cidx cidx_item size_item app]. now rewrite Nat.add_1_r. Qed.
Lemma cidx_grp s r l n cs F : cidx s (Grp r l n cs :: F) = concat (repeat (cidx (S s) cs) r) ++ cidx (S s + size cs) F.
Proof.
  cbn [cidx cidx_item]. change (size_item (Grp r l n cs)) with (S (size cs)). replace (s + S (size cs)) with (S s + size cs) by lia. f_equal. 
Qed.
(** index of the first, or the length *)
Fixpoint first (f : nat) (l : list nat) : nat := match l with [] => 0 | x :: l => if x =? f then 0 else S (first f l) end.
Definition others (f : nat) (l : list nat) : nat := length (filter (fun x => negb (x =? f)) l).
Lemma first_app_in f a b : In f a -> first f (a ++ b) = first f a.
Proof. induction a as [|x a IH]; [intros []|]. cbn [app first]. destruct (Nat.eqb_spec x f); [reflexivity|]. intros [H|H]; [contradiction|]. now rewrite IH. Qed.
Lemma first_notin f a : ~ In f a -> first f a = length a.
Proof. induction a as [|x a IH]; [reflexivity|]. cbn [first length]. intros N. destruct (Nat.eqb_spec x f); [exfalso; apply N; now left|]. rewrite IH; [reflexivity|]. intros H; apply N; now right. Qed.
Lemma first_app_notin f a b : ~ In f a -> first f (a ++ b) = length a + first f b.
Proof. induction a as [|x a IH]; [reflexivity|]. cbn [first length app]. intros N. destruct (Nat.eqb_spec x f); [exfalso; apply N; now left|]. rewrite IH; [reflexivity|]. intros H; apply N; now right. Qed.
Lemma others_app f a b : others f (a ++ b) = others f a + others f b.
Proof. unfold others. now rewrite filter_app, app_length. Qed.
Lemma others_repeat f w r : others f (concat (repeat w r)) = others f w * r.
Proof. induction r as [|r IH]; cbn [repeat concat]; [cbn; lia|]. rewrite others_app, IH. lia. Qed.
Lemma cidx_range F : forall s x, In x (cidx s F) -> s <= x < s + size F.
Proof.
  induction F as [|l n F IH|r l n cs F IHc IH] using forest_ind; intros s x; [intros []| |].
  - rewrite cidx_fld, size_fld. intros [<-|H]; [lia|]. apply IH in H. lia.
  - rewrite cidx_grp, size_grp. intros H. apply in_app_or in H as [H|H].
    + apply in_concat in H as (w & Hw & H). apply repeat_spec in Hw. subst w. apply IHc in H. lia.
    + apply IH in H. lia.
Qed.

Lemma skip_factor_S fuel m f p : skip_factor (S fuel) m f p =
  fold_left (fun skip c => match group (ent m c) with None => if c =? f then skip else skip + 1 | Some r => skip + skip_factor fuel m f c * r end) (children m (Some p) true) 0.
Proof. reflexivity. Qed.
Lemma skip_fold m f F : forall s lvl acc fuel, At m s lvl F -> size F <= fuel ->
  fold_left (fun skip c => match group (ent m c) with None => if c =? f then skip else skip + 1 | Some r => skip + skip_factor fuel m f c * r end) (kids s F) acc
  = acc + others f (cidx s F).
Proof.
  induction F as [|l n F IH|r l n cs F IHc IH] using forest_ind; intros s lvl acc fuel A L.
  - cbn. lia.
  - cbn [kids fold_left size_item]. rewrite (at_ent_fld _ _ _ _ _ _ A). cbn [group]. rewrite size_fld in L. rewrite Nat.add_1_r.
    rewrite (IH (S s) lvl); [|exact (at_tail_fld _ _ _ _ _ _ A)|lia]. rewrite cidx_fld. unfold others. cbn [filter]. destruct (s =? f); cbn [negb length]; lia.
  - cbn [kids fold_left]. rewrite (at_ent_grp _ _ _ _ _ _ _ _ A). cbn [group]. rewrite size_grp in L. change (size_item (Grp r l n cs)) with (S (size cs)).
    replace (s + S (size cs)) with (S s + size cs) by lia. rewrite (IH (S s + size cs) lvl); [|exact (at_tail_grp _ _ _ _ _ _ _ _ A)|lia].
    rewrite cidx_grp, others_app, others_repeat. destruct fuel as [|fuel]; [lia|]. rewrite skip_factor_S, (at_children _ _ _ _ _ _ _ _ true A).
    rewrite (IHc (S s) (S lvl) 0 fuel); [|exact (at_in_grp _ _ _ _ _ _ _ _ A)|lia]. lia.
Qed.
Lemma skip_factor_ok m f p lvl r l n cs F : At m p lvl (Grp r l n cs :: F) -> skip_factor (length m) m f p = others f (cidx (S p) cs).
Proof.
  intros A. pose proof (at_size _ _ _ _ A) as L. rewrite size_grp in L. destruct (length m) as [|k] eqn:E; [lia|]. rewrite skip_factor_S, (at_children _ _ _ _ _ _ _ _ true A).
  rewrite (skip_fold m f cs (S p) (S lvl) 0 k); [reflexivity|exact (at_in_grp _ _ _ _ _ _ _ _ A)|lia].
Qed.

Definition off_loop (fuel : nat) (m : list entry) (field : nat) : list nat -> nat -> nat :=
  fix loop (l : list nat) (offset_num : nat) : nat :=
         match l with
         | [] => offset_num
         | c :: l =>
             if c =? field then offset_num
             else match group (ent m c) with
                  | None => loop l (offset_num + 1)
                  | Some r =>
                      let offset_add := field_offset fuel m field (Some c) in
                      if in_list field (children m (Some c) false) then offset_num + offset_add
                      else loop l (offset_num + offset_add * r)
                  end
         end.
Lemma field_offset_S fuel m f p : field_offset (S fuel) m f p = off_loop fuel m f (children m p true) 0.
Proof. reflexivity. Qed.
Lemma in_list_seq f s n : in_list f (seq s n) = true <-> s <= f < s + n.
Proof.
  unfold in_list. rewrite existsb_exists. split.
  - intros (x & H & E). apply Nat.eqb_eq in E. subst x. now apply in_seq.
  - intros H. exists f. split; [now apply in_seq|apply Nat.eqb_refl].
Qed.
(** manifest indices of the fields *)
Fixpoint fidx_item (s : nat) (i : item) : list nat :=
  match i with
  | Fld _ _ => [s]
  | Grp r _ _ cs => (fix go (s : nat) (cs : list item) : list nat :=
                      match cs with [] => [] | c :: cs => fidx_item s c ++ go (s + size_item c) cs end) (S s) cs
  end.
Fixpoint fidx (s : nat) (F : list item) : list nat := match F with [] => [] | i :: F => fidx_item s i ++ fidx (s + size_item i) F end.
Lemma fidx_fld s l n F : fidx s (Fld l n :: F) = s :: fidx (S s) F.
Proof. cbn [fidx fidx_item size_item app]. now rewrite Nat.add_1_r. Qed.
Lemma fidx_grp s r l n cs F : fidx s (Grp r l n cs :: F) = fidx (S s) cs ++ fidx (S s + size cs) F.
Proof.
  cbn [fidx fidx_item]. change (size_item (Grp r l n cs)) with (S (size cs)). replace (s + S (size cs)) with (S s + size cs) by lia. f_equal.
Qed.
Lemma fidx_range F : forall s x, In x (fidx s F) -> s <= x < s + size F.
Proof.
  induction F as [|l n F IH|r l n cs F IHc IH] using forest_ind; intros s x; [intros []| |].
  - rewrite fidx_fld, size_fld. intros [<-|H]; [lia|]. apply IH in H. lia.
  - rewrite fidx_grp, size_grp. intros H. apply in_app_or in H as [H|H]; [apply IHc in H|apply IH in H]; lia.
Qed.
Lemma all_repeated_cs r l n cs F : all_repeated (Grp r l n cs :: F) -> 1 <= r /\ all_repeated cs /\ all_repeated F.
Proof.
  intros H. inversion H as [|? ? Hg Hf]; subst. cbn [repeated] in Hg. destruct Hg as [R G]. split; [exact R|]. split; [|exact Hf].
  clear -G. induction cs as [|c cs IH]; constructor; [apply G|apply IH, G].
Qed.
Lemma fidx_cidx F : all_repeated F -> forall s x, In x (fidx s F) <-> In x (cidx s F).
Proof.
  induction F as [|l n F IH|r l n cs F IHc IH] using forest_ind; intros A s x; [reflexivity| |].
  - rewrite fidx_fld, cidx_fld. inversion A; subst. cbn [In]. now rewrite IH.
  - apply all_repeated_cs in A as (R & Ac & Af). rewrite fidx_grp, cidx_grp, !in_app_iff, (IHc Ac), (IH Af).
    assert (E : In x (cidx (S s) cs) <-> In x (concat (repeat (cidx (S s) cs) r))); [|now rewrite E].
    rewrite in_concat. split.
    + intros H. exists (cidx (S s) cs). split; [|exact H]. destruct r; [lia|now left].
    + intros (w & Hw & H). apply repeat_spec in Hw. now subst w.
Qed.
Lemma off_fold m f F : forall s lvl acc fuel, At m s lvl F -> all_repeated F -> (s <= f < s + size F -> In f (cidx s F)) -> size F <= fuel ->
  off_loop fuel m f (kids s F) acc = acc + first f (cidx s F).
Proof.
  induction F as [|l n F IH|r l n cs F IHc IH] using forest_ind; intros s lvl acc fuel A R Hf L.
  - cbn. lia.
  - cbn [kids off_loop size_item]. rewrite (at_ent_fld _ _ _ _ _ _ A). cbn [group]. rewrite size_fld in L. rewrite Nat.add_1_r, cidx_fld. cbn [first].
    destruct (Nat.eqb_spec s f) as [E|N]; [lia|]. fold (off_loop fuel m f). inversion R; subst. rewrite (IH (S s) lvl); [lia|exact (at_tail_fld _ _ _ _ _ _ A)|assumption| |lia].
    intros B. rewrite size_fld, cidx_fld in Hf. destruct Hf as [H|H]; [lia|contradiction|exact H].
  - cbn [kids off_loop]. rewrite (at_ent_grp _ _ _ _ _ _ _ _ A). cbn [group]. rewrite size_grp in L, Hf. change (size_item (Grp r l n cs)) with (S (size cs)).
    replace (s + S (size cs)) with (S s + size cs) by lia. fold (off_loop fuel m f). cbv zeta.
    rewrite cidx_grp in *. pose proof R as R0. apply all_repeated_cs in R as (R & Rc & Rf).
    assert (Ic : In f (concat (repeat (cidx (S s) cs) r)) <-> In f (cidx (S s) cs)).
    { rewrite in_concat. split; [intros (w & Hw & H); apply repeat_spec in Hw; now subst w|]. intros H. exists (cidx (S s) cs). split; [destruct r; [lia|now left]|exact H]. }
    destruct (Nat.eqb_spec s f) as [E|N].
    { exfalso. subst f. destruct (in_app_or _ _ _ (Hf ltac:(lia))) as [H|H]; [rewrite Ic in H|]; apply cidx_range in H; lia. }
    destruct fuel as [|fuel]; [lia|]. rewrite field_offset_S, (at_children _ _ _ _ _ _ _ _ true A), (at_children _ _ _ _ _ _ _ _ false A).
    rewrite (IHc (S s) (S lvl) 0 fuel); [|exact (at_in_grp _ _ _ _ _ _ _ _ A)|exact Rc| |lia].
    2: { intros B. destruct (in_app_or _ _ _ (Hf ltac:(lia))) as [H|H]; [now rewrite <- Ic|]. apply cidx_range in H. lia. }
    destruct (in_list f (seq (S s) (size cs))) eqn:I.
    + apply in_list_seq in I. destruct (in_app_or _ _ _ (Hf ltac:(lia))) as [H|H]; [|apply cidx_range in H; lia].
      rewrite (first_app_in f _ _ H). rewrite Ic in H. destruct r as [|r]; [lia|]. cbn [repeat concat]. rewrite first_app_in by exact H. lia.
    + assert (I' : ~ In f (cidx (S s) cs)). { intros H. apply cidx_range in H. apply in_list_seq in H. congruence. }
      rewrite first_app_notin by (rewrite Ic; exact I'). rewrite (IH (S s + size cs) lvl); [|exact (at_tail_grp _ _ _ _ _ _ _ _ A)|exact Rf| |lia].
      * rewrite (first_notin f (cidx (S s) cs) I'). assert (X : length (concat (repeat (cidx (S s) cs) r)) = length (cidx (S s) cs) * r).
        { clear. induction r as [|r IH]; cbn [repeat concat]; [cbn; lia|]. rewrite app_length, IH. lia. }
        rewrite X. lia.
      * intros B. destruct (in_app_or _ _ _ (Hf ltac:(lia))) as [H|H]; [|exact H]. rewrite Ic in H. contradiction.
Qed.
Lemma field_offset_ok g f : all_repeated g -> In f (fidx 0 g) -> field_offset (S (length (flatten 0 g))) (flatten 0 g) f None = first f (cidx 0 g).
Proof.
  intros R H. rewrite field_offset_S, root_children. rewrite (off_fold _ f g 0 0 0); [reflexivity|apply at_root|exact R| |rewrite flatten_length; lia].
  intros _. now apply fidx_cidx.
Qed.

(** ** The groups of a field, outermost first: index, repetitions, columns skipped *)
Record gstep := mkG { g_idx : nat; g_rep : nat; g_skip : nat }.
Section Path.
Context (f : nat).
Fixpoint path_item (s : nat) (i : item) : list gstep :=
  match i with
  | Fld _ _ => []
  | Grp r _ _ cs => mkG s r (others f (cidx (S s) cs)) ::
      (fix go (s : nat) (cs : list item) : list gstep :=
         match cs with [] => [] | c :: cs => if f <? s + size_item c then path_item s c else go (s + size_item c) cs end) (S s) cs
  end.
Fixpoint path (s : nat) (F : list item) : list gstep :=
  match F with [] => [] | i :: F => if f <? s + size_item i then path_item s i else path (s + size_item i) F end.
End Path.
Lemma path_fld f s l n F : s <= f -> path f s (Fld l n :: F) = if f =? s then [] else path f (S s) F.
Proof.
  intros L. cbn [path size_item path_item]. rewrite Nat.add_1_r. destruct (Nat.eqb_spec f s) as [->|N].
  - now rewrite (proj2 (Nat.ltb_lt _ _)) by lia.
  - now rewrite (proj2 (Nat.ltb_ge _ _)) by lia.
Qed.
Lemma path_grp f s r l n cs F : path f s (Grp r l n cs :: F) =
  if f <? S s + size cs then mkG s r (others f (cidx (S s) cs)) :: path f (S s) cs else path f (S s + size cs) F.
Proof.
  cbn [path]. change (size_item (Grp r l n cs)) with (S (size cs)). replace (s + S (size cs)) with (S s + size cs) by lia.
  destruct (f <? S s + size cs); reflexivity.
Qed.

(** ** Parents *)
Lemma parents_step m s lvl r l n cs F : At m s lvl (Grp r l n cs :: F) -> forall i, S s <= i < S s + size cs -> group_level (ent m i) = S lvl -> parent_of m i = Some s.
Proof.
  intros A i B Li. unfold parent_of. rewrite Li.
  assert (Lv : forall j, S s <= j < S s + size cs -> S lvl <= group_level (ent m j)).
  { intros j Hj. destruct (at_in_grp _ _ _ _ _ _ _ _ A) as (pre & post & E & Lp & _). unfold ent. rewrite E, app_nth2 by lia. rewrite app_nth1 by (rewrite flatten_length; lia).
    pose proof (flatten_level cs (S lvl)) as G. rewrite Forall_forall in G. apply G. apply nth_In. rewrite flatten_length. lia. }
  clear Li. assert (K : forall k, S s + k <= S s + size cs -> parent_below m (S lvl) (S s + k) = Some s).
  { induction k as [|k IH]; intros Lk.
    - rewrite Nat.add_0_r. cbn [parent_below]. rewrite (at_ent_grp _ _ _ _ _ _ _ _ A). cbn [group_level is_group group]. now rewrite Nat.eqb_refl.
    - replace (S s + S k) with (S (S s + k)) by lia. cbn [parent_below]. specialize (Lv (S s + k) ltac:(lia)).
      destruct (Nat.eqb_spec (S (group_level (ent m (S s + k)))) (S lvl)); [lia|]. cbn [andb]. apply IH. lia. }
  replace i with (S s + (i - S s)) by lia. apply K. lia.
Qed.
Definition Ctx (m : list entry) (s lvl : nat) (F : list item) (ps : list nat) : Prop :=
  At m s lvl F /\ forall i, s <= i < s + size F -> group_level (ent m i) = lvl -> parents_n m lvl i = ps.
Lemma ctx_root g : Ctx (flatten 0 g) 0 0 g [].
Proof. split; [apply at_root|reflexivity]. Qed.
Lemma ctx_tail_fld m s lvl l n F ps : Ctx m s lvl (Fld l n :: F) ps -> Ctx m (S s) lvl F ps.
Proof. intros [A P]. split; [exact (at_tail_fld _ _ _ _ _ _ A)|]. intros i B. apply P. rewrite size_fld. lia. Qed.
Lemma ctx_tail_grp m s lvl r l n cs F ps : Ctx m s lvl (Grp r l n cs :: F) ps -> Ctx m (S s + size cs) lvl F ps.
Proof. intros [A P]. split; [exact (at_tail_grp _ _ _ _ _ _ _ _ A)|]. intros i B. apply P. rewrite size_grp. lia. Qed.
Lemma ctx_in_grp m s lvl r l n cs F ps : Ctx m s lvl (Grp r l n cs :: F) ps -> Ctx m (S s) (S lvl) cs (s :: ps).
Proof.
  intros [A P]. split; [exact (at_in_grp _ _ _ _ _ _ _ _ A)|]. intros i B Li. cbn [parents_n]. rewrite (parents_step _ _ _ _ _ _ _ _ A i B Li). f_equal.
  apply P; [rewrite size_grp; lia|]. now rewrite (at_ent_grp _ _ _ _ _ _ _ _ A).
Qed.
Lemma ent_field m f F : forall s lvl, At m s lvl F -> In f (fidx s F) -> is_group (ent m f) = false.
Proof.
  induction F as [|l n F IH|r l n cs F IHc IH] using forest_ind; intros s lvl A H; [destruct H| |].
  - rewrite fidx_fld in H. destruct H as [<-|H]; [now rewrite (at_ent_fld _ _ _ _ _ _ A)|]. exact (IH _ _ (at_tail_fld _ _ _ _ _ _ A) H).
  - rewrite fidx_grp in H. apply in_app_or in H as [H|H]; [exact (IHc _ _ (at_in_grp _ _ _ _ _ _ _ _ A) H)|exact (IH _ _ (at_tail_grp _ _ _ _ _ _ _ _ A) H)].
Qed.
Lemma path_parents m f F : forall s lvl ps, Ctx m s lvl F ps -> In f (fidx s F) ->
  parents m f = rev (map g_idx (path f s F)) ++ ps /\
  Forall (fun g => repetitions (ent m (g_idx g)) = g_rep g /\ skip_factor (length m) m f (g_idx g) = g_skip g) (path f s F).
Proof.
  induction F as [|l n F IH|r l n cs F IHc IH] using forest_ind; intros s lvl ps C H; [destruct H| |].
  - assert (Ls : s <= f) by (apply fidx_range in H; lia). rewrite path_fld by exact Ls. rewrite fidx_fld in H. destruct (Nat.eqb_spec f s) as [->|N].
    + cbn [map rev app]. split; [|constructor]. unfold parents. destruct C as [A P]. specialize (P s ltac:(rewrite size_fld; lia)). rewrite (at_ent_fld _ _ _ _ _ _ A) in *.
      cbn [group_level] in *. now apply P.
    + destruct H as [H|H]; [congruence|]. exact (IH _ _ _ (ctx_tail_fld _ _ _ _ _ _ _ C) H).
  - rewrite path_grp. rewrite fidx_grp in H. apply in_app_or in H as [H|H]; pose proof (fidx_range _ _ _ H) as B.
    + rewrite (proj2 (Nat.ltb_lt _ _)) by lia. destruct (IHc _ _ _ (ctx_in_grp _ _ _ _ _ _ _ _ _ C) H) as [E G]. split.
      * rewrite E. cbn [map rev g_idx]. now rewrite <- app_assoc.
      * constructor; [|exact G]. cbn [g_idx g_rep g_skip]. destruct C as [A _]. rewrite (at_ent_grp _ _ _ _ _ _ _ _ A). split; [reflexivity|exact (skip_factor_ok _ _ _ _ _ _ _ _ _ A)].
    + rewrite (proj2 (Nat.ltb_ge _ _)) by lia. exact (IH _ _ _ (ctx_tail_grp _ _ _ _ _ _ _ _ _ C) H).
Qed.
Lemma shape_ok g f : In f (fidx 0 g) -> group_shape (flatten 0 g) f = map g_rep (path f 0 g) /\ skip_factors (flatten 0 g) f = map g_skip (path f 0 g).
Proof.
  intros H. destruct (path_parents _ f g 0 0 [] (ctx_root g) H) as [E G]. unfold group_shape, skip_factors. rewrite E, app_nil_r, rev_involutive, !map_map.
  rewrite Forall_forall in G. split; apply map_ext_in; intros x Hx; now apply G.
Qed.

(** ** The columns of a field *)
Fixpoint occ (n f : nat) (l : list nat) : list nat := match l with [] => [] | x :: l => if x =? f then n :: occ (S n) f l else occ (S n) f l end.
Lemma occ_app n f a b : occ n f (a ++ b) = occ n f a ++ occ (n + length a) f b.
Proof.
  revert n. induction a as [|x a IH]; intros n; cbn [app occ length]; [now rewrite Nat.add_0_r|]. rewrite IH. replace (S n + length a) with (n + S (length a)) by lia.
  destruct (x =? f); reflexivity.
Qed.
Lemma occ_shift n k f l : occ (n + k) f l = map (Nat.add k) (occ n f l).
Proof.
  revert n. induction l as [|x l IH]; intros n; cbn [occ map]; [reflexivity|]. change (S (n + k)) with (S n + k). rewrite IH. destruct (x =? f); [cbn [map]; f_equal; lia|reflexivity].
Qed.
Lemma occ_notin n f l : ~ In f l -> occ n f l = [].
Proof. revert n. induction l as [|x l IH]; intros n N; cbn [occ]; [reflexivity|]. destruct (Nat.eqb_spec x f) as [->|]; [exfalso; apply N; now left|]. apply IH. intros H; apply N; now right. Qed.
Lemma occ_repeat n f w r : occ n f (concat (repeat w r)) = flat_map (fun j => occ (n + j * length w) f w) (seq 0 r).
Proof.
  revert n. induction r as [|r IH]; intros n; [reflexivity|]. cbn [repeat concat seq flat_map]. rewrite occ_app, IH. cbn [Nat.mul]. rewrite Nat.add_0_r. f_equal.
  rewrite <- seq_shift, flat_map_concat_map, flat_map_concat_map, map_map. f_equal. apply map_ext. intros j. f_equal. lia.
Qed.
Lemma occ_others n f l : length (occ n f l) + others f l = length l.
Proof. revert n. unfold others. induction l as [|x l IH]; intros n; cbn [occ filter length]; [reflexivity|]. specialize (IH (S n)). destruct (x =? f); cbn [negb length]; lia. Qed.
Lemma fold_mul l : forall a, fold_left Nat.mul l a = a * fold_left Nat.mul l 1.
Proof. induction l as [|x l IH]; intros a; cbn [fold_left]; [lia|]. rewrite (IH (a * x)), (IH (1 * x)). lia. Qed.
Lemma prod_cons n l : prod_n (n :: l) = n * prod_n l.
Proof. unfold prod_n. cbn [fold_left]. rewrite fold_mul. lia. Qed.
Lemma flat_map_length {A B} (f : A -> list B) l k : (forall x, In x l -> length (f x) = k) -> length (flat_map f l) = length l * k.
Proof. induction l as [|x l IH]; intros H; cbn [flat_map length]; [reflexivity|]. rewrite app_length, IH, H; [lia|now left|intros; apply H; now right]. Qed.
Lemma positions_length l : length (positions l) = prod_n l.
Proof.
  induction l as [|n l IH]; [reflexivity|]. cbn [positions]. rewrite (flat_map_length _ _ (prod_n l)); [rewrite seq_length, prod_cons; reflexivity|]. intros x _. now rewrite map_length.
Qed.
Definition gcols (c : nat) (a : nat) (shape skips : list nat) : list nat :=
  map (fun ip => c + fst ip + dot skips (snd ip)) (combine (seq a (prod_n shape)) (positions shape)).
Lemma combine_app {A B} (a a' : list A) (b b' : list B) : length a = length b -> combine (a ++ a') (b ++ b') = combine a b ++ combine a' b'.
Proof. revert b. induction a as [|x a IH]; intros [|y b] H; try discriminate; [reflexivity|]. cbn [combine app]. f_equal. apply IH. now injection H. Qed.
Lemma combine_map_r {A B C} (f : B -> C) (a : list A) b : combine a (map f b) = map (fun p => (fst p, f (snd p))) (combine a b).
Proof. revert b. induction a as [|x a IH]; intros [|y b]; cbn [combine map]; try reflexivity. now rewrite IH. Qed.
Lemma gcols_shift c a shape skips : gcols c a shape skips = gcols (c + a) 0 shape skips.
Proof.
  unfold gcols. rewrite <- (Nat.add_0_r a) at 1. generalize 0 as z. generalize (prod_n shape) as k. generalize (positions shape) as ps. 
  induction ps as [|p ps IH]; intros k z; destruct k as [|k]; cbn [seq combine map fst snd]; try reflexivity. f_equal; [lia|]. rewrite <- Nat.add_succ_r. apply IH.
Qed.
Lemma gcols_cons c r shape sk skips : gcols c 0 (r :: shape) (sk :: skips) = flat_map (fun j => gcols (c + j * (sk + prod_n shape)) 0 shape skips) (seq 0 r).
Proof.
  unfold gcols at 1. rewrite prod_cons. cbn [positions].
  enough (H : forall r j a, map (fun ip => c + fst ip + dot (sk :: skips) (snd ip)) (combine (seq (a) (r * prod_n shape)) (flat_map (fun i => map (cons i) (positions shape)) (seq j r)))
     = flat_map (fun j' => gcols (c + a + (j' - j) * prod_n shape + j' * sk) 0 shape skips) (seq j r)).
  { rewrite H. rewrite !flat_map_concat_map. f_equal. apply map_ext. intros j. f_equal. lia. }
  clear r. induction r as [|r IH]; intros j a; [reflexivity|]. cbn [seq flat_map Nat.mul]. rewrite seq_app, combine_app by (now rewrite seq_length, map_length, positions_length).
  rewrite map_app. f_equal.
  - rewrite combine_map_r, map_map. cbn [fst snd dot]. replace (c + a + (j - j) * prod_n shape + j * sk) with ((c + j * sk) + a) by lia. rewrite <- gcols_shift. unfold gcols. apply map_ext.
    intros [i p]. cbn [fst snd]. lia.
  - rewrite IH. rewrite !flat_map_concat_map. f_equal. apply map_ext_in. intros j' Hj. apply in_seq in Hj. f_equal. replace (j' - j) with (S (j' - S j)) by lia. lia.
Qed.
Lemma occ_first n f l : In f l -> occ n f l = (n + first f l) :: occ (S (n + first f l)) f (skipn (S (first f l)) l).
Proof.
  revert n. induction l as [|x l IH]; intros n; [intros []|]. cbn [occ first]. destruct (Nat.eqb_spec x f) as [->|N].
  - intros _. now rewrite Nat.add_0_r.
  - intros [H|H]; [contradiction|]. rewrite (IH (S n) H). cbn [skipn]. replace (S n + first f l) with (n + S (first f l)) by lia. reflexivity.
Qed.
Lemma columns_ok f F : forall s n, all_repeated F -> In f (fidx s F) ->
  occ n f (cidx s F) = gcols (n + first f (cidx s F)) 0 (map g_rep (path f s F)) (map g_skip (path f s F)).
Proof.
  induction F as [|l k F IH|r l k cs F IHc IH] using forest_ind; intros s n R H; [destruct H| |].
  - assert (Ls : s <= f) by (apply fidx_range in H; lia). rewrite path_fld by exact Ls. rewrite fidx_fld in H. rewrite cidx_fld. inversion R as [|? ? _ RF]; subst. cbn [occ first].
    rewrite (Nat.eqb_sym s f). destruct (Nat.eqb_spec f s) as [->|N].
    + rewrite occ_notin by (intros I; apply cidx_range in I; lia). unfold gcols. cbn. f_equal. lia.
    + destruct H as [H|H]; [congruence|]. rewrite (IH _ _ RF H). f_equal. lia.
  - apply all_repeated_cs in R as (R & Rc & Rf). rewrite path_grp. rewrite fidx_grp in H. rewrite cidx_grp. apply in_app_or in H as [H|H]; pose proof (fidx_range _ _ _ H) as B.
    + rewrite (proj2 (Nat.ltb_lt _ _)) by lia. cbn [map g_rep g_skip]. rewrite occ_app, (occ_notin _ f (cidx (S s + size cs) F)), app_nil_r by (intros I; apply cidx_range in I; lia).
      rewrite gcols_cons, occ_repeat. pose proof (proj1 (fidx_cidx cs Rc (S s) f) H) as Ic.
      assert (W : length (cidx (S s) cs) = others f (cidx (S s) cs) + prod_n (map g_rep (path f (S s) cs))).
      { pose proof (occ_others 0 f (cidx (S s) cs)) as O. rewrite (IHc (S s) 0 Rc H) in O. unfold gcols in O. rewrite map_length, combine_length, seq_length, positions_length in O. lia. }
      rewrite (first_app_in f (concat (repeat (cidx (S s) cs) r))) by (destruct r; [lia|]; cbn [repeat concat]; apply in_or_app; now left).
      assert (Fr : first f (concat (repeat (cidx (S s) cs) r)) = first f (cidx (S s) cs)) by (destruct r; [lia|]; cbn [repeat concat]; now apply first_app_in).
      rewrite Fr. rewrite !flat_map_concat_map. f_equal. apply map_ext. intros j. rewrite (IHc (S s) _ Rc H). f_equal. rewrite <- W. lia.
    + rewrite (proj2 (Nat.ltb_ge _ _)) by lia. rewrite occ_app, occ_notin, app_nil_l.
      2: { rewrite in_concat. intros (w & Hw & I). apply repeat_spec in Hw. subst w. apply cidx_range in I. lia. }
      rewrite (IH _ _ Rf H). f_equal. rewrite first_app_notin; [lia|]. rewrite in_concat. intros (w & Hw & I). apply repeat_spec in Hw. subst w. apply cidx_range in I. lia.
Qed.
Lemma group_columns_ok g f : all_repeated g -> In f (fidx 0 g) ->
  group_columns (field_offset (S (length (flatten 0 g))) (flatten 0 g) f None) (group_shape (flatten 0 g) f) (skip_factors (flatten 0 g) f) = occ 0 f (cidx 0 g).
Proof.
  intros R H. rewrite field_offset_ok by assumption. destruct (shape_ok g f H) as [-> ->]. rewrite (columns_ok f g 0 0 R H). reflexivity.
Qed.

(** ** The last column *)
Lemma dot_comm a b : dot a b = dot b a.
Proof. revert b. induction a as [|x a IH]; intros [|y b]; cbn [dot]; try reflexivity. rewrite IH. lia. Qed.
Lemma prod_pos l : Forall (fun n => 1 <= n) l -> 1 <= prod_n l.
Proof. induction 1 as [|n l Hn Hl IH]; [cbn; lia|]. rewrite prod_cons. nia. Qed.
Lemma max_gcols shape : Forall (fun n => 1 <= n) shape -> forall skips c, length skips = length shape ->
  In (max_column c shape skips) (gcols c 0 shape skips) /\ forall x, In x (gcols c 0 shape skips) -> x <= max_column c shape skips.
Proof.
  unfold max_column. induction 1 as [|r shape Hr Hs IH]; intros skips c L.
  - destruct skips; [|discriminate]. cbn. split; [left; lia|]. intros x [<-|[]]. lia.
  - destruct skips as [|sk skips]; [discriminate|]. rewrite gcols_cons, prod_cons. cbn [map dot]. pose proof (prod_pos _ Hs) as Pp. injection L as L. split.
    + apply in_flat_map. exists (r - 1). split; [apply in_seq; lia|]. destruct (IH skips (c + (r - 1) * (sk + prod_n shape)) L) as [I _].
      match goal with |- In ?x _ => match type of I with In ?y _ => replace x with y; [exact I|] end end. nia.
    + intros x Hx. apply in_flat_map in Hx as (j & Hj & Hx). apply in_seq in Hj. destruct (IH skips (c + j * (sk + prod_n shape)) L) as [_ M]. specialize (M x Hx).
      assert (j * (sk + prod_n shape) <= (r - 1) * (sk + prod_n shape)) by (apply Nat.mul_le_mono_r; lia). nia.
Qed.
Lemma path_rep f F : forall s, all_repeated F -> In f (fidx s F) -> Forall (fun g => 1 <= g_rep g) (path f s F).
Proof.
  induction F as [|l k F IH|r l k cs F IHc IH] using forest_ind; intros s R H; [destruct H| |].
  - assert (Ls : s <= f) by (apply fidx_range in H; lia). rewrite path_fld by exact Ls. rewrite fidx_fld in H. inversion R as [|? ? _ RF]; subst.
    destruct (Nat.eqb_spec f s) as [->|N]; [constructor|]. destruct H as [H|H]; [congruence|]. now apply IH.
  - apply all_repeated_cs in R as (R & Rc & Rf). rewrite path_grp. rewrite fidx_grp in H. apply in_app_or in H as [H|H]; pose proof (fidx_range _ _ _ H) as B.
    + rewrite (proj2 (Nat.ltb_lt _ _)) by lia. constructor; [exact R|now apply IHc].
    + rewrite (proj2 (Nat.ltb_ge _ _)) by lia. now apply IH.
Qed.
Lemma max_column_ok g f : all_repeated g -> In f (fidx 0 g) ->
  let mx := max_column (field_offset (S (length (flatten 0 g))) (flatten 0 g) f None) (group_shape (flatten 0 g) f) (skip_factors (flatten 0 g) f) in
  In mx (occ 0 f (cidx 0 g)) /\ forall x, In x (occ 0 f (cidx 0 g)) -> x <= mx.
Proof.
  intros R H. rewrite <- group_columns_ok by assumption. destruct (shape_ok g f H) as [-> ->]. apply max_gcols; [|now rewrite !map_length].
  apply Forall_map. now apply path_rep.
Qed.
Lemma prod_shape g f : all_repeated g -> In f (fidx 0 g) -> 1 <= prod_n (group_shape (flatten 0 g) f) /\
  prod_n (group_shape (flatten 0 g) f) = length (occ 0 f (cidx 0 g)).
Proof.
  intros R H. rewrite <- group_columns_ok by assumption. destruct (shape_ok g f H) as [-> ->]. split; [apply prod_pos, Forall_map; now apply path_rep|].
  unfold group_columns. rewrite map_length, combine_length, seq_length, positions_length. lia.
Qed.

(** ** Fields *)
Lemma ent_group m s lvl r l n cs F : At m s lvl (Grp r l n cs :: F) -> is_group (ent m s) = true.
Proof. intros A. now rewrite (at_ent_grp _ _ _ _ _ _ _ _ A). Qed.
Lemma field_indices_at m F : forall s lvl, At m s lvl F -> filter (fun i => negb (is_group (ent m i))) (seq s (size F)) = fidx s F.
Proof.
  induction F as [|l n F IH|r l n cs F IHc IH] using forest_ind; intros s lvl A; [reflexivity| |].
  - rewrite size_fld, fidx_fld. cbn [seq filter]. rewrite (at_ent_fld _ _ _ _ _ _ A). cbn [is_group group negb]. f_equal. exact (IH _ _ (at_tail_fld _ _ _ _ _ _ A)).
  - rewrite size_grp, fidx_grp. cbn [seq filter]. rewrite (ent_group _ _ _ _ _ _ _ _ A). cbn [negb]. rewrite seq_app, filter_app.
    rewrite (IHc _ _ (at_in_grp _ _ _ _ _ _ _ _ A)), (IH _ _ (at_tail_grp _ _ _ _ _ _ _ _ A)). reflexivity.
Qed.
Lemma field_indices_ok g : field_indices (flatten 0 g) = fidx 0 g.
Proof. unfold field_indices. rewrite flatten_length. exact (field_indices_at _ g 0 0 (at_root g)). Qed.
Lemma fidx_nodup F : forall s, NoDup (fidx s F).
Proof.
  assert (NA : forall a b : list nat, NoDup a -> NoDup b -> (forall x, In x a -> ~ In x b) -> NoDup (a ++ b)).
  { intros a b Ha Hb D. induction Ha as [|x a N Ha IH]; [exact Hb|]. cbn [app]. constructor.
    - intros I. apply in_app_or in I as [I|I]; [contradiction|]. apply (D x); [now left|exact I].
    - apply IH. intros y Hy. apply D. now right. }
  induction F as [|l n F IH|r l n cs F IHc IH] using forest_ind; intros s; [constructor| |].
  - rewrite fidx_fld. constructor; [|apply IH]. intros I. apply fidx_range in I. lia.
  - rewrite fidx_grp. apply NA; [apply IHc|apply IH|]. intros x I J. apply fidx_range in I, J. lia.
Qed.
Lemma fields_fld l n F : fields_of (Fld l n :: F) = S (fields_of F). Proof. reflexivity. Qed.
Lemma fields_grp r l n cs F : fields_of (Grp r l n cs :: F) = fields_of cs + fields_of F. Proof. reflexivity. Qed.
Lemma fidx_length F : forall s, length (fidx s F) = fields_of F.
Proof.
  induction F as [|l n F IH|r l n cs F IHc IH] using forest_ind; intros s; [reflexivity| |].
  - rewrite fidx_fld, fields_fld. cbn [length]. now rewrite IH.
  - rewrite fidx_grp, fields_grp, app_length. now rewrite IHc, IH.
Qed.
Lemma owners_fld k l n F : owners_from k (Fld l n :: F) = k :: owners_from (S k) F.
Proof. cbn [owners_from owners_item fields_in app]. now rewrite Nat.add_1_r. Qed.
Lemma owners_grp k r l n cs F : owners_from k (Grp r l n cs :: F) = concat (repeat (owners_from k cs) r) ++ owners_from (k + fields_of cs) F.
Proof. reflexivity. Qed.
Lemma concat_repeat_map {A B} (f : A -> B) w r : concat (repeat (map f w) r) = map f (concat (repeat w r)).
Proof. induction r as [|r IH]; cbn [repeat concat map]; [reflexivity|]. now rewrite map_app, IH. Qed.
Lemma cidx_owners F : forall s pre post, cidx s F = map (fun k => nth k (pre ++ fidx s F ++ post) 0) (owners_from (length pre) F).
Proof.
  induction F as [|l n F IH|r l n cs F IHc IH] using forest_ind; intros s pre post; [reflexivity| |].
  - rewrite cidx_fld, fidx_fld, owners_fld. cbn [map app]. f_equal; [rewrite app_nth2, Nat.sub_diag by lia; reflexivity|].
    rewrite (IH (S s) (pre ++ [s]) post), app_length. cbn [length]. rewrite Nat.add_1_r, <- app_assoc. reflexivity.
  - rewrite cidx_grp, fidx_grp, owners_grp, map_app, <- app_assoc. f_equal.
    + rewrite (IHc (S s) pre (fidx (S s + size cs) F ++ post)), concat_repeat_map. reflexivity.
    + rewrite (IH (S s + size cs) (pre ++ fidx (S s) cs) post), app_length, fidx_length, <- app_assoc. reflexivity.
Qed.
Lemma cidx_owners0 g : cidx 0 g = map (fun k => nth k (fidx 0 g) 0) (owners g).
Proof. rewrite (cidx_owners g 0 [] []). cbn [app length]. now rewrite app_nil_r. Qed.
Lemma owners_lt F : forall k x, In x (owners_from k F) -> k <= x < k + fields_of F.
Proof.
  induction F as [|l n F IH|r l n cs F IHc IH] using forest_ind; intros k x; [intros []| |].
  - rewrite owners_fld, fields_fld. intros [<-|H]; [lia|]. apply IH in H. lia.
  - rewrite owners_grp, fields_grp. intros H. apply in_app_or in H as [H|H].
    + apply in_concat in H as (w & Hw & H). apply repeat_spec in Hw. subst w. apply IHc in H. lia.
    + apply IH in H. lia.
Qed.
Lemma occ_map n (h : nat -> nat) k l : (forall x, In x l -> h x = h k -> x = k) -> occ n (h k) (map h l) = occ n k l.
Proof.
  revert n. induction l as [|x l IH]; intros n I; cbn [map occ]; [reflexivity|]. rewrite IH by (intros y Hy; apply I; now right).
  destruct (Nat.eqb_spec (h x) (h k)) as [E|E]; destruct (Nat.eqb_spec x k) as [E'|E']; try reflexivity.
  - exfalso. apply E', I; [now left|exact E].
  - subst. contradiction.
Qed.
(** the columns of field number [k] *)
Lemma occ_owners g k : k < fields_of g -> occ 0 (nth k (fidx 0 g) 0) (cidx 0 g) = occ 0 k (owners g).
Proof.
  intros L. rewrite cidx_owners0. apply (occ_map 0 (fun k => nth k (fidx 0 g) 0)). intros x Hx E. apply owners_lt in Hx. cbn [Nat.add] in Hx.
  apply (proj1 (NoDup_nth (fidx 0 g) 0) (fidx_nodup g 0)); rewrite ?fidx_length; [lia|lia|exact E].
Qed.
Lemma fidx_in g k : k < fields_of g -> In (nth k (fidx 0 g) 0) (fidx 0 g).
Proof. intros L. apply nth_In. now rewrite fidx_length. Qed.
Lemma values_of_occ {A} k own (vals : list A) x : length own = length vals -> values_of k own vals = map (fun c => nth c vals x) (occ 0 k own).
Proof.
  intros L. enough (H : forall n pre, length pre = n -> values_of k own vals = map (fun c => nth c (pre ++ vals) x) (occ n k own)) by exact (H 0 [] eq_refl).
  revert vals L. induction own as [|o own IH]; intros [|v vals] L n pre Lp; try discriminate; [reflexivity|]. unfold values_of in *. cbn [combine filter map occ fst].
  specialize (IH vals ltac:(now injection L) (S n) (pre ++ [v]) ltac:(rewrite app_length; cbn; lia)). rewrite <- app_assoc in IH. cbn [app] in IH.
  destruct (o =? k); [|exact IH]. cbn [map snd]. f_equal; [|exact IH]. rewrite app_nth2, Lp, Nat.sub_diag by lia. reflexivity.
Qed.
Lemma count_sum (L l : list nat) : NoDup L -> (forall x, In x l -> In x L) -> list_sum (map (fun f => length (occ 0 f l)) L) = length l.
Proof.
  intros N. assert (S0 : forall n f l, length (occ (S n) f l) = length (occ n f l)).
  { clear. intros n f l. rewrite <- (Nat.add_1_r n), occ_shift, map_length. reflexivity. }
  induction l as [|x l IH]; intros I; cbn [length].
  - clear. induction L as [|y L IH]; [reflexivity|exact IH].
  - rewrite <- IH by (intros; apply I; now right). specialize (I x (or_introl eq_refl)). clear IH.
    induction L as [|y L IHL]; [destruct I|]. inversion N; subst. cbn [map list_sum fold_right]. fold (list_sum (map (fun f => length (occ 0 f (x :: l))) L)). fold (list_sum (map (fun f => length (occ 0 f l)) L)).
    cbn [occ]. destruct (Nat.eqb_spec x y) as [->|Nx].
    + cbn [length]. rewrite S0. assert (E : map (fun f => length (if y =? f then 0 :: occ 1 f l else occ 1 f l)) L = map (fun f => length (occ 0 f l)) L).
      { apply map_ext_in. intros z Hz. destruct (Nat.eqb_spec y z) as [->|]; [contradiction|apply S0]. }
      cbn [occ] in *. rewrite E. lia.
    + destruct I as [I|I]; [congruence|]. rewrite S0. specialize (IHL H2 I). cbn [occ] in IHL. rewrite IHL. lia.
Qed.
Lemma fold_sum {A} (h : A -> nat) l : forall z, fold_left (fun n i => n + h i) l z = z + list_sum (map h l).
Proof. induction l as [|x l IH]; intros z; cbn [fold_left map list_sum fold_right]; [lia|]. rewrite IH. unfold list_sum. lia. Qed.
Lemma num_columns_ok g : all_repeated g -> num_columns (flatten 0 g) = length (owners g).
Proof.
  intros R. unfold num_columns. rewrite fold_sum, field_indices_ok. cbn [Nat.add].
  replace (length (owners g)) with (length (cidx 0 g)) by (now rewrite cidx_owners0, map_length).
  rewrite <- (count_sum (fidx 0 g) (cidx 0 g)); [|apply fidx_nodup|intros x Hx; now apply fidx_cidx].
  f_equal. apply map_ext_in. intros f Hf. apply prod_shape; assumption.
Qed.

(** ** Fields outside groups *)
Lemma ungrouped f F : forall s, In f (fidx s F) -> path f s F = [] -> exists a b, cidx s F = a ++ f :: b /\ Forall (fun x => x < f) a /\ ~ In f b.
Proof.
  induction F as [|l k F IH|r l k cs F IHc IH] using forest_ind; intros s H P; [destruct H| |].
  - assert (Ls : s <= f) by (apply fidx_range in H; lia). rewrite path_fld in P by exact Ls. rewrite fidx_fld in H. rewrite cidx_fld.
    destruct (Nat.eqb_spec f s) as [->|N].
    + exists [], (cidx (S s) F). split; [reflexivity|]. split; [constructor|]. intros I. apply cidx_range in I. lia.
    + destruct H as [H|H]; [congruence|]. destruct (IH _ H P) as (a & b & -> & Fa & Nb). exists (s :: a), b. split; [reflexivity|]. split; [|exact Nb]. constructor; [lia|exact Fa].
  - rewrite path_grp in P. rewrite fidx_grp in H. rewrite cidx_grp. apply in_app_or in H as [H|H]; pose proof (fidx_range _ _ _ H) as B.
    + rewrite (proj2 (Nat.ltb_lt _ _)) in P by lia. discriminate.
    + rewrite (proj2 (Nat.ltb_ge _ _)) in P by lia. destruct (IH _ H P) as (a & b & -> & Fa & Nb). exists (concat (repeat (cidx (S s) cs) r) ++ a), b.
      rewrite <- app_assoc. split; [reflexivity|]. split; [|exact Nb]. apply Forall_app. split; [|exact Fa]. apply Forall_forall. intros x Hx.
      apply in_concat in Hx as (w & Hw & I). apply repeat_spec in Hw. subst w. apply cidx_range in I. lia.
Qed.
Lemma grouped_path g k : k < fields_of g -> path (nth k (fidx 0 g) 0) 0 g <> [] -> nth_error (grouped g) k = Some true.
Proof.
  enough (H : forall s k, k < fields_of g -> path (nth k (fidx s g) 0) s g <> [] -> nth_error (grouped g) k = Some true) by apply H.
  clear k. induction g as [|i g IH]; intros s k L P; [cbn in L; lia|]. destruct i as [l n|r l n cs].
  - rewrite fidx_fld in P. rewrite fields_fld in L. change (grouped (Fld l n :: g)) with (false :: grouped g). destruct k as [|k]; cbn [nth nth_error] in *.
    + rewrite path_fld, Nat.eqb_refl in P by lia. contradiction.
    + assert (I : In (nth k (fidx (S s) g) 0) (fidx (S s) g)) by (apply nth_In; rewrite fidx_length; lia). apply fidx_range in I.
      rewrite path_fld in P by lia. destruct (Nat.eqb_spec (nth k (fidx (S s) g) 0) s); [lia|]. apply (IH (S s)); [lia|exact P].
  - rewrite fidx_grp in P. rewrite fields_grp in L. change (grouped (Grp r l n cs :: g)) with (repeat true (fields_of cs) ++ grouped g).
    destruct (Nat.lt_ge_cases k (fields_of cs)) as [C|C].
    + rewrite nth_error_app1 by (now rewrite repeat_length). now apply nth_error_repeat.
    + rewrite nth_error_app2, repeat_length by (now rewrite repeat_length). rewrite app_nth2 in P by (now rewrite fidx_length). rewrite fidx_length in P.
      assert (I : In (nth (k - fields_of cs) (fidx (S s + size cs) g) 0) (fidx (S s + size cs) g)) by (apply nth_In; rewrite fidx_length; lia). apply fidx_range in I.
      rewrite path_grp, (proj2 (Nat.ltb_ge _ _)) in P by lia. apply (IH (S s + size cs)); [lia|exact P].
Qed.
Lemma fidx_lt F : forall s i j, i < j -> j < fields_of F -> nth i (fidx s F) 0 < nth j (fidx s F) 0.
Proof.
  induction F as [|l n F IH|r l n cs F IHc IH] using forest_ind; intros s i j Hij Hj; [cbn in Hj; lia| |].
  - rewrite fidx_fld, fields_fld in *. destruct j as [|j]; [lia|]. destruct i as [|i]; cbn [nth]; [|apply IH; lia].
    assert (I : In (nth j (fidx (S s) F) 0) (fidx (S s) F)) by (apply nth_In; rewrite fidx_length; lia). apply fidx_range in I. lia.
  - rewrite fidx_grp, fields_grp in *. destruct (Nat.lt_ge_cases j (fields_of cs)) as [C|C].
    + rewrite !app_nth1 by (rewrite fidx_length; lia). apply IHc; lia.
    + rewrite (app_nth2 _ _ 0 (n := j)) by (rewrite fidx_length; lia). rewrite fidx_length. destruct (Nat.lt_ge_cases i (fields_of cs)) as [D|D].
      * rewrite app_nth1 by (rewrite fidx_length; lia).
        assert (I : In (nth i (fidx (S s) cs) 0) (fidx (S s) cs)) by (apply nth_In; rewrite fidx_length; lia). apply fidx_range in I.
        assert (J : In (nth (j - fields_of cs) (fidx (S s + size cs) F) 0) (fidx (S s + size cs) F)) by (apply nth_In; rewrite fidx_length; lia). apply fidx_range in J. lia.
      * rewrite app_nth2 by (rewrite fidx_length; lia). rewrite fidx_length. apply IH; lia.
Qed.
Lemma occ_in n f l c : In c (occ n f l) <-> n <= c /\ nth_error l (c - n) = Some f.
Proof.
  revert n. induction l as [|x l IH]; intros n; cbn [occ].
  - split; [intros []|]. intros [_ H]. destruct (c - n); discriminate.
  - destruct (Nat.eqb_spec x f) as [->|N].
    + cbn [In]. rewrite IH. split.
      * intros [<-|[L H]]; [split; [lia|now rewrite Nat.sub_diag]|]. split; [lia|]. replace (c - n) with (S (c - S n)) by lia. exact H.
      * intros [L H]. destruct (Nat.eq_dec n c) as [|Ne]; [now left|right]. split; [lia|]. replace (c - n) with (S (c - S n)) in H by lia. exact H.
    + rewrite IH. split.
      * intros [L H]. split; [lia|]. replace (c - n) with (S (c - S n)) by lia. exact H.
      * intros [L H]. destruct (Nat.eq_dec n c) as [->|Ne]; [rewrite Nat.sub_diag in H; cbn in H; congruence|]. split; [lia|]. replace (c - n) with (S (c - S n)) in H by lia. exact H.
Qed.
Lemma owner_before g k c : k < fields_of g -> path (nth k (fidx 0 g) 0) 0 g = [] -> nth_error (owners g) c = Some k -> c = 0 \/ nth (c - 1) (owners g) 0 < k.
Proof.
  intros L P H. destruct c as [|c]; [now left|right]. cbn [Nat.sub]. rewrite Nat.sub_0_r. set (f := nth k (fidx 0 g) 0) in *.
  destruct (ungrouped f g 0 (fidx_in g k L) P) as (a & b & E & Fa & Nb).
  assert (Ec : nth_error (cidx 0 g) (S c) = Some f) by (rewrite cidx_owners0, nth_error_map, H; reflexivity).
  assert (La : S c = length a).
  { destruct (Nat.lt_trichotomy (S c) (length a)) as [X|[X|X]]; [exfalso| exact X|exfalso].
    - rewrite E, nth_error_app1 in Ec by exact X. apply nth_error_In in Ec. rewrite Forall_forall in Fa. specialize (Fa _ Ec). lia.
    - rewrite E, nth_error_app2 in Ec by lia. destruct (S c - length a) as [|q] eqn:Q; [lia|]. cbn [nth_error] in Ec. apply Nb. now apply nth_error_In in Ec. }
  assert (X : nth c (cidx 0 g) 0 < f).
  { rewrite E, app_nth1 by lia. rewrite Forall_forall in Fa. apply Fa, nth_In. lia. }
  assert (Lo : S c < length (owners g)) by (apply nth_error_Some; congruence).
  assert (Y : nth c (cidx 0 g) 0 = nth (nth c (owners g) 0) (fidx 0 g) 0).
  { rewrite cidx_owners0. rewrite (nth_indep _ 0 (nth 0 (fidx 0 g) 0)) by (rewrite map_length; lia). apply (map_nth (fun k => nth k (fidx 0 g) 0)). }
  rewrite Y in X. destruct (Nat.lt_ge_cases (nth c (owners g) 0) k) as [|G]; [assumption|exfalso].
  assert (I : In (nth c (owners g) 0) (owners g)) by (apply nth_In; lia). apply owners_lt in I. cbn [Nat.add] in I.
  destruct (Nat.eq_dec (nth c (owners g) 0) k) as [e|e]; [rewrite e in X; unfold f in X; lia|].
  pose proof (fidx_lt g 0 k (nth c (owners g) 0) ltac:(lia) ltac:(lia)). unfold f in X. lia.
Qed.
