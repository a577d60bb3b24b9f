(** Lemmas about format files and labels of tables. *)
From Coq Require Import Lia.
From Verif.Base Require Import Py PyFacts Val.
From Verif.Model Require Import Files Table.
From Verif.Spec Require Import Table.
From Verif.Proofs Require Import Files Table.
Open Scope Z_scope.

(** ** Format files *)
Lemma is_word_iff c : is_word c = true <-> word_char c.
Proof.
  unfold is_word, word_char, is_upper, is_lower, is_digit.
  destruct c as [[] [] [] [] [] [] [] []]; vm_compute; split; intros H; auto; try discriminate; try lia.
Qed.
Lemma is_structure_iff k : is_structure k = true <-> structure_pointer k.
Proof.
  unfold is_structure, structure_pointer. destruct k as [|a rest].
  { split; [discriminate|]. intros [H|(w & _ & _ & H)]; discriminate. }
  destruct (Ascii.eqb_spec a "^") as [->|Ha]; cycle 1.
  { split.
    - intros H. exfalso. apply Ha. destruct a as [[] [] [] [] [] [] [] []]; try discriminate. reflexivity.
    - intros [H|(w & _ & _ & H)]; injection H as -> _; congruence. }
  rewrite orb_true_iff, !andb_true_iff, str_eqb_eq, endswith_iff, Z.ltb_lt, forallb_forall. split.
  - intros [->|[[(w & ->) Hl] Hw]]; [now left|right]. exists w. rewrite app_length in Hl. cbn in Hl.
    split; [destruct w; [cbn in Hl; lia|discriminate]|]. split; [|reflexivity].
    apply Forall_forall. intros x Hx. apply is_word_iff, Hw, in_app_iff. now left.
  - intros [H|(w & Hn & Hw & H)].
    + left. injection H as ->. reflexivity.
    + right. injection H as ->. split; [split; [now exists w|]|].
      * rewrite app_length. cbn. destruct w; [easy|cbn; lia].
      * intros x Hx. apply in_app_iff in Hx as [Hx|Hx]; [rewrite Forall_forall in Hw; apply is_word_iff; auto|].
        cbn in Hx. repeat (destruct Hx as [<-|Hx]; [reflexivity|]). destruct Hx.
Qed.
Section Splice.
Variable load : pv -> res (list (str * pv)).
(** one pass, written recursively *)
Fixpoint splice (block : list (str * pv)) : res (list (str * pv)) :=
  match block with
  | [] => Ok []
  | (k, v) :: block' =>
    if is_structure k then
      do fmt <- load v; do fmt <- unwrap_table fmt; do rest <- splice block'; Ok (fmt ++ rest)
    else do rest <- splice block'; Ok ((k, v) :: rest)
  end.
Lemma inject_splice block : inject_format_files load block = splice block.
Proof.
  unfold inject_format_files.
  set (assemble := fix assemble (fns : list (nat * (str * pv))) (last_ix : nat) : res (list (str * pv)) :=
    match fns with
    | [] => Ok (skipn last_ix block)
    | (ix, (_, format_fn)) :: fns' =>
      do fmt <- load format_fn; do fmt <- unwrap_table fmt;
      do rest <- assemble fns' (S ix);
      Ok (firstn (ix - last_ix) (skipn last_ix block) ++ fmt ++ rest)
    end).
  assert (G : forall post mid pre, block = pre ++ mid ++ post -> Forall (fun kv => is_structure (fst kv) = false) mid ->
    assemble (filter (fun x => is_structure (fst (snd x))) (combine (seq (List.length (pre ++ mid)) (List.length post)) post)) (List.length pre) =
    do rest <- splice post; Ok (mid ++ rest)).
  { induction post as [|[k v] post IH]; intros mid pre E Hm.
    - cbn. rewrite E. rewrite skipn_exact by reflexivity. reflexivity.
    - cbn [List.length seq combine filter fst snd splice]. destruct (is_structure k) eqn:Ek.
      + cbn [assemble]. fold assemble. destruct (load v) as [fmt|e]; [|reflexivity]. cbn [rbind].
        destruct (unwrap_table fmt) as [fmt'|e]; [|reflexivity]. cbn [rbind].
        assert (Hpost := IH [] (pre ++ mid ++ [(k, v)])). rewrite app_nil_r in Hpost.
        assert (El : List.length (pre ++ mid ++ [(k, v)]) = S (List.length (pre ++ mid))).
        { rewrite app_assoc, app_length. cbn. lia. }
        rewrite El in Hpost. rewrite Hpost; [|rewrite E; now rewrite <- !app_assoc|constructor].
        destruct (splice post) as [rest|e]; [|reflexivity]. cbn [rbind app]. f_equal.
        assert (Ef : firstn (List.length (pre ++ mid) - List.length pre) (skipn (List.length pre) block) = mid).
        { rewrite E, skipn_exact by reflexivity. rewrite app_length. replace (_ + _ - _)%nat with (List.length mid) by lia.
          rewrite firstn_app, firstn_all, Nat.sub_diag. cbn. apply app_nil_r. }
        now rewrite Ef.
      + assert (Hpost := IH (mid ++ [(k, v)]) pre). 
        assert (El : List.length (pre ++ mid ++ [(k, v)]) = S (List.length (pre ++ mid))).
        { rewrite app_assoc, app_length. cbn. lia. }
        rewrite El in Hpost. rewrite Hpost.
        * destruct (splice post) as [rest|e]; [|reflexivity]. cbn [rbind]. now rewrite <- app_assoc.
        * rewrite E. now rewrite <- app_assoc.
        * apply Forall_app. split; [exact Hm|]. now constructor. }
  specialize (G block [] [] eq_refl ltac:(constructor)). cbn [app List.length] in G. rewrite G.
  destruct (splice block); reflexivity.
Qed.
Lemma unwrap_stands fmt items : unwrap_table fmt = Ok items <-> stands_for fmt items.
Proof.
  assert (Hbare : forall f i, (forall k v, f = [(k, v)] -> ~ mentions_table k) -> stands_for f i <-> i = f).
  { intros f i Hf. split.
    - inversion 1; subst; [|reflexivity]. exfalso. eapply Hf; eauto.
    - intros ->. now constructor. }
  assert (Hc : forall k, mentions_table k <-> contains $"TABLE" k = true) by (intros k; symmetry; apply contains_iff).
  destruct fmt as [|[k v] [|x fmt]]; cbn [unwrap_table].
  - rewrite Hbare by discriminate. split; congruence.
  - destruct (contains $"TABLE" k) eqn:E.
    + split.
      * intros H. constructor; [now apply Hc|]. destruct v; cbn in H; try discriminate; injection H as ->; auto.
      * inversion 1; subst.
        { match goal with H : _ \/ _ |- _ => destruct H as [->| ->]; reflexivity end. }
        { exfalso. match goal with H : forall k v, _ |- _ => apply (H k v eq_refl) end. now apply Hc. }
    + rewrite Hbare; [split; congruence|]. intros k' v' [= -> _]. rewrite Hc. congruence.
  - rewrite Hbare by discriminate. split; congruence.
Qed.
Definition contents (v : pv) : option (list (str * pv)) := match load v with Ok f => Some f | Err _ => None end.
Lemma not_structure k : is_structure k = false <-> ~ structure_pointer k.
Proof. rewrite <- is_structure_iff. destruct (is_structure k); split; congruence. Qed.
Lemma expands_app a b a' b' : expands contents a a' -> expands contents b b' -> expands contents (a ++ b) (a' ++ b').
Proof.
  induction 1; intros Hb; cbn [app]; [exact Hb|constructor; auto|]. rewrite <- app_assoc. econstructor; eauto.
Qed.
Lemma expands_app_inv a b r : expands contents (a ++ b) r -> exists a' b', r = a' ++ b' /\ expands contents a a' /\ expands contents b b'.
Proof.
  revert r. induction a as [|[k v] a IH]; intros r H.
  - exists [], r. repeat split; [constructor|exact H].
  - cbn [app] in H. inversion H; subst.
    + destruct (IH _ H5) as (a' & b' & -> & Ha & Hb). exists ((k, v) :: a'), b'. split; [reflexivity|]. split; [now constructor|exact Hb].
    + destruct (IH _ H8) as (a' & b' & -> & Ha & Hb). exists (items' ++ a'), b'. split; [now rewrite app_assoc|]. split; [|exact Hb].
      econstructor; eauto.
Qed.
Lemma expands_plain l : Forall (fun kv => is_structure (fst kv) = false) l -> expands contents l l.
Proof. induction 1 as [|[k v] l H _ IH]; constructor; [now apply not_structure|exact IH]. Qed.
Lemma splice_expands l l1 r : splice l = Ok l1 -> expands contents l1 r -> expands contents l r.
Proof.
  revert l1 r. induction l as [|[k v] l IH]; intros l1 r; cbn [splice].
  - intros [= <-]. easy.
  - destruct (is_structure k) eqn:Ek.
    + destruct (load v) as [fmt|e] eqn:El; [|discriminate]. cbn [rbind].
      destruct (unwrap_table fmt) as [items|e] eqn:Eu; [|discriminate]. cbn [rbind].
      destruct (splice l) as [rest|e] eqn:Es; [|discriminate]. cbn [rbind]. intros [= <-] H.
      apply expands_app_inv in H as (a' & b' & -> & Ha & Hb).
      apply ex_file with (file := fmt) (items := items); [now apply is_structure_iff|unfold contents; now rewrite El|now apply unwrap_stands|exact Ha|eauto].
    + destruct (splice l) as [rest|e] eqn:Es; [|discriminate]. cbn [rbind]. intros [= <-] H. inversion H; subst.
      * constructor; eauto.
      * exfalso. apply not_structure in Ek. contradiction.
Qed.
Lemma inject_sound fuel l r : inject_all load fuel l = Ok r -> expands contents l r.
Proof.
  revert l. induction fuel as [|fuel IH]; intros l; [discriminate|]. cbn [inject_all].
  destruct (existsb _ l) eqn:E.
  - rewrite inject_splice. destruct (splice l) as [l1|e] eqn:Es; [|discriminate]. cbn [rbind]. intros H. eapply splice_expands; eauto.
  - intros [= <-]. apply expands_plain. apply Forall_forall. intros kv Hkv.
    destruct (is_structure (fst kv)) eqn:Ek; [|reflexivity]. exfalso. rewrite <- not_true_iff_false in E. apply E.
    apply existsb_exists. now exists kv.
Qed.
(** depth of nesting *)
Inductive deep : nat -> list (str * pv) -> list (str * pv) -> Prop :=
| deep_nil n : deep n [] []
| deep_keep n k v l l' : is_structure k = false -> deep n l l' -> deep n ((k, v) :: l) ((k, v) :: l')
| deep_file n k v l l' file items items' : is_structure k = true -> load v = Ok file -> unwrap_table file = Ok items ->
    deep n items items' -> deep (S n) l l' -> deep (S n) ((k, v) :: l) (items' ++ l').
Lemma deep_mono n l r : deep n l r -> forall m, (n <= m)%nat -> deep m l r.
Proof.
  induction 1; intros m Hm; [constructor|constructor; auto|]. destruct m; [lia|]. econstructor; eauto. apply IHdeep1. lia.
Qed.
Lemma expands_deep l r : expands contents l r -> exists n, deep n l r.
Proof.
  induction 1 as [|k v l l' Hk _ [n IH]|k v l l' file items items' Hk Hv Hs _ [n IH1] _ [m IH2]].
  - exists 0%nat. constructor.
  - exists n. constructor; [now apply not_structure|exact IH].
  - exists (S (max n m)). unfold contents in Hv. destruct (load v) as [f|e] eqn:El; [|discriminate]. injection Hv as ->.
    apply deep_file with (file := file) (items := items).
    + now apply is_structure_iff.
    + exact El.
    + now apply unwrap_stands.
    + eapply deep_mono; [exact IH1|lia].
    + eapply deep_mono; [exact IH2|lia].
Qed.
Lemma deep_app n a b a' b' : deep n a a' -> deep n b b' -> deep n (a ++ b) (a' ++ b').
Proof. induction 1; intros Hb; cbn [app]; [exact Hb|constructor; auto|]. rewrite <- app_assoc. econstructor; eauto. Qed.
Lemma deep_plain n l : Forall (fun kv => is_structure (fst kv) = false) l -> deep n l l.
Proof. induction 1 as [|[k v] l H _ IH]; constructor; auto. Qed.
Lemma deep_out n l r : deep n l r -> Forall (fun kv => is_structure (fst kv) = false) r.
Proof. induction 1; [constructor|constructor; auto|]. apply Forall_app. auto. Qed.
Lemma deep_splice n l r : deep (S n) l r -> exists l1, splice l = Ok l1 /\ deep n l1 r.
Proof.
  remember (S n) as m. intros H. revert n Heqm. induction H; intros q Hq.
  - exists []. split; [reflexivity|constructor].
  - destruct (IHdeep _ Hq) as (l1 & E & Hd). exists ((k, v) :: l1). cbn [splice]. rewrite H, E. split; [reflexivity|]. now constructor.
  - injection Hq as ->. destruct (IHdeep2 _ eq_refl) as (l1 & E & Hd). exists (items ++ l1). cbn [splice].
    rewrite H, H0. cbn [rbind]. rewrite H1. cbn [rbind]. rewrite E. split; [reflexivity|]. now apply deep_app.
Qed.
Lemma existsb_structure l : existsb (fun kv => is_structure (fst kv)) l = false <-> Forall (fun kv : str * pv => is_structure (fst kv) = false) l.
Proof.
  induction l as [|kv l IH]; [split; [constructor|reflexivity]|]. cbn [existsb]. rewrite orb_false_iff, IH. split.
  - intros [H1 H2]. now constructor.
  - inversion 1; subst. auto.
Qed.
Lemma deep_flat l r : Forall (fun kv => is_structure (fst kv) = false) l -> forall n, deep n l r -> l = r.
Proof. intros HF n H. induction H; [reflexivity| |]; inversion HF; subst; cbn in *; [f_equal; auto|congruence]. Qed.
Lemma inject_complete n l r : deep n l r -> forall fuel, (n < fuel)%nat -> inject_all load fuel l = Ok r.
Proof.
  revert l. induction n as [|n IH]; intros l H fuel Hf; (destruct fuel as [|fuel]; [lia|]); cbn [inject_all].
  - assert (Hp : Forall (fun kv => is_structure (fst kv) = false) l).
    { remember 0%nat as z. clear - H Heqz. induction H; [constructor|constructor; auto|discriminate]. }
    rewrite (proj2 (existsb_structure l) Hp). f_equal. eapply deep_flat; eauto.
  - destruct (existsb _ l) eqn:E.
    + rewrite inject_splice. destruct (deep_splice _ _ _ H) as (l1 & -> & Hd). cbn [rbind]. apply IH; [exact Hd|lia].
    + f_equal. eapply deep_flat; eauto. now apply existsb_structure.
Qed.
End Splice.

(** ** Rows of a label *)
Lemma dget_set {A} (d : list (str * A)) k v k' : dict_get (dict_set d k v) k' = if str_eqb k k' then Some v else dict_get d k'.
Proof.
  unfold dict_get. induction d as [|[x w] d IH]; cbn [dict_set find fst].
  - destruct (str_eqb k k'); reflexivity.
  - destruct (str_eqb_spec x k) as [->|Hx]; cbn [find fst snd].
    + destruct (str_eqb k k'); reflexivity.
    + destruct (str_eqb_spec x k') as [->|Hk].
      * rewrite (proj2 (str_eqb_neq k k')) by congruence. reflexivity.
      * exact IH.
Qed.
Lemma dict_has_eq {A} (d : list (str * A)) k : dict_has d k = match dict_get d k with Some _ => true | None => false end.
Proof.
  unfold dict_has, dict_get. induction d as [|kv m IH]; [reflexivity|]. cbn [existsb find].
  destruct (str_eqb (fst kv) k); [reflexivity|exact IH].
Qed.
Lemma md_has_dict m k : md_has m k = dict_has m k. Proof. reflexivity. Qed.
Lemma md_get_dict m k : md_get m k = dict_get m k. Proof. reflexivity. Qed.
Lemma to_dict_get m k : dict_get (to_dict m) k = md_get m k.
Proof.
  unfold to_dict. assert (G : forall d, dict_get (fold_left (fun (d : field) kv => if dict_has d (fst kv) then d else d ++ [kv]) m d) k =
    match dict_get d k with Some v => Some v | None => md_get m k end).
  { induction m as [|[x w] m IH]; intros d; cbn [fold_left fst].
    - unfold md_get. cbn. destruct (dict_get d k); reflexivity.
    - rewrite IH. rewrite dict_has_eq. unfold md_get. cbn [find fst snd].
      destruct (dict_get d x) as [v0|] eqn:Ex.
      + destruct (dict_get d k) as [v1|] eqn:Ek; [reflexivity|]. destruct (str_eqb_spec x k); [congruence|reflexivity].
      + assert (Ea : dict_get (d ++ [(x, w)]) k = match dict_get d k with Some v => Some v | None => if str_eqb x k then Some w else None end).
        { clear. unfold dict_get. induction d as [|kv d IH]; cbn [app find fst snd]; [now destruct (str_eqb x k)|].
          destruct (str_eqb (fst kv) k); [reflexivity|exact IH]. }
        rewrite Ea. destruct (dict_get d k); [reflexivity|]. destruct (str_eqb x k); reflexivity. }
  rewrite G. reflexivity.
Qed.
Definition obj_of (m : multidict) (info : field) : field := dict_or (to_dict m) info.
Lemma obj_get m nm reps bytes k : ~ In k [$"BLOCK_NAME"; $"BLOCK_REPETITIONS"; $"BLOCK_BYTES"] ->
  dict_get (obj_of m [($"BLOCK_NAME", nm); ($"BLOCK_REPETITIONS", reps); ($"BLOCK_BYTES", bytes)]) k = md_get m k.
Proof.
  intros H. unfold obj_of, dict_or. cbn [fold_left fst snd]. rewrite !dget_set, to_dict_get.
  repeat (match goal with |- context [str_eqb ?a k] => rewrite (proj2 (str_eqb_neq a k)) by (intros <-; apply H; cbn; auto) end).
  reflexivity.
Qed.
Definition field_is (cx : context) (c : column) (f : field) : Prop :=
  name_of f = c_name c /\
  forall n, exists r, row_of_field (dict_set f $"NAME" (PStr n)) = Ok r /\ core_is cx c r /\ r_name r = n.
Definition name_value (n : option str) : pv := match n with Some s => PStr s | None => PNone end.
Definition int_value (n : option Z) : pv := match n with Some z => PInt z | None => PNone end.
Lemma column_field m c blk reps bb : says_column m c ->
  field_is (blk, reps, bb) c (obj_of m [($"BLOCK_NAME", name_value blk); ($"BLOCK_REPETITIONS", PInt reps); ($"BLOCK_BYTES", int_value bb)]).
Proof.
  intros (Hn & Hs & Ht1 & Ht2 & Ht3 & _ & _ & _ & Hi). unfold holds, lacks in *.
  set (f := obj_of m _).
  assert (Hf : forall k, ~ In k [$"BLOCK_NAME"; $"BLOCK_REPETITIONS"; $"BLOCK_BYTES"] -> dict_get f k = md_get m k) by (intros k Hk; now apply obj_get).
  assert (HB : dict_get f $"BLOCK_NAME" = Some (name_value blk) /\ dict_get f $"BLOCK_REPETITIONS" = Some (PInt reps) /\
    dict_get f $"BLOCK_BYTES" = Some (int_value bb)).
  { unfold f, obj_of, dict_or. cbn [fold_left fst snd]. rewrite !dget_set. repeat split; reflexivity. }
  clearbody f. destruct HB as (HB1 & HB2 & HB3).
  assert (F : forall k, In k [$"NAME"; $"START_BYTE"; $"BYTES"; $"ITEMS"; $"ITEM_BYTES"; $"ITEM_OFFSET"; $"DATA_TYPE"; $"SCALING_FACTOR"; $"OFFSET"] -> dict_get f k = md_get m k).
  { intros k Hk. apply Hf. intros Hin. cbn in Hk, Hin. 
    repeat (destruct Hk as [<-|Hk]; [repeat (destruct Hin as [Hin|Hin]; [discriminate|]); exact Hin|]). exact Hk. }
  split.
  { unfold name_of. rewrite F by (cbn; auto). now rewrite Hn. }
  intros n. unfold row_of_field, opt_int. rewrite !dget_set. cbn [str_eqb ch_eqb Ascii.eqb Bool.eqb].
  repeat match goal with |- context [str_eqb ?a ?b] => let r := eval vm_compute in (str_eqb a b) in change (str_eqb a b) with r end. cbv iota.
  rewrite HB1, HB2, HB3. rewrite !F by (cbn; tauto). rewrite Hs, Ht1, Ht2, Ht3. cbn [rbind].
  assert (E1 : match name_value blk with PStr s => Ok (Some s) | PNone => Ok None | _ => Err TypeError end = Ok blk) by (destruct blk; reflexivity).
  assert (E3 : match int_value bb with PInt z => Ok (Some z) | PNone => Ok None | _ => Err TypeError end = Ok bb) by (destruct bb; reflexivity).
  rewrite E1. cbn [rbind]. rewrite E3. cbn [rbind].
  destruct (c_items c) as [[[ni w] d]|] eqn:Ec.
  - destruct Hi as (Hi1 & Hi2 & Hi3 & Hi4). rewrite Hi1, Hi2. cbn [rbind].
    assert (E2 : match md_get m $"ITEM_OFFSET" with Some (PInt z) => Ok (Some z) | Some PNone | None => Ok None | Some _ => Err TypeError end = Ok d).
    { unfold may_hold, holds, lacks in Hi3. destruct d; rewrite Hi3; reflexivity. }
    rewrite E2. cbn [rbind].
    destruct Hi4 as [Hb|[Hb He]]; rewrite Hb; cbn [rbind]; eexists; (split; [reflexivity|]); (split; [|reflexivity]);
      unfold core_is, item_fields; rewrite Ec; cbn; repeat split; auto.
  - destruct Hi as (Hi1 & Hi2 & Hi3 & Hi4). rewrite Hi1, Hi2, Hi3, Hi4. cbn [rbind].
    eexists; (split; [reflexivity|]); (split; [|reflexivity]). unfold core_is, item_fields; rewrite Ec; cbn; repeat split; auto.
Qed.
Lemma lacks_has m k : lacks m k -> md_has m k = false.
Proof. unfold lacks. intros H. rewrite md_has_dict, dict_has_eq, <- md_get_dict. now rewrite H. Qed.
Lemma concat_repeat_one {A} (x : A) n : List.concat (repeat [x] n) = repeat x n.
Proof. induction n as [|n IH]; [reflexivity|]. cbn. now rewrite IH. Qed.
Section Loop.
Variable load : pv -> res (list (str * pv)).
Variable bits : field -> multidict -> res field.
Lemma in_params k : In k part_keywords -> str_in k structured_parameters = true.
Proof. intros H. now apply str_in_iff. Qed.
Lemma column_step rec blk reps bb k v c fs nd rp :
  says_column_item k v c -> (match c_items c with Some (n, _, _) => 1 <= n | None => True end) ->
  exists l rp', format_step load bits rec [($"BLOCK_NAME", name_value blk); ($"BLOCK_REPETITIONS", PInt reps); ($"BLOCK_BYTES", int_value bb)]
      (mkF fs nd false rp) (k, v) = Ok (mkF (fs ++ l) nd false rp') /\ col_shape field_is (blk, reps, bb) c l.
Proof.
  intros (Hk & m & -> & Hsay) Hn. unfold format_step.
  assert (K : str_in k structured_parameters = true /\ str_eqb k $"ARRAY" = false /\
     str_in k [$"COLUMN"; $"FIELD"; $"ELEMENT"; $"PRIMITIVE_ARRAY"] = true).
  { cbn in Hk. destruct Hk as [<-|[<-|[<-|[]]]]; vm_compute; auto. }
  destruct K as (K1 & K2 & K3). rewrite K1. cbn [negb]. rewrite K2. cbn [rbind]. rewrite K3. cbn [as_multi_ rbind].
  assert (Hf := column_field m c blk reps bb Hsay).
  destruct Hsay as (_ & _ & _ & _ & _ & H1 & H2 & H3 & Hi). rewrite (lacks_has _ _ H1). cbn [rbind].
  fold (obj_of m [($"BLOCK_NAME", name_value blk); ($"BLOCK_REPETITIONS", PInt reps); ($"BLOCK_BYTES", int_value bb)]).
  set (f := obj_of m _) in *. rewrite !dict_has_eq. unfold f at 1 2. rewrite !obj_get by (cbn; intros [|[|[|[]]]]; discriminate).
  unfold lacks in H2, H3. rewrite H2, H3. cbn [rbind f_fields f_needs f_add f_reps add_placeholder_if]. 
  unfold append_object. cbn [f_fields f_needs f_add f_reps]. unfold get_or. unfold holds, lacks in Hi.
  destruct (c_items c) as [[[n w] d]|] eqn:Ec.
  - destruct Hi as (Hi & _). rewrite Hi. cbn [rbind]. rewrite repeat_spec, concat_repeat_one.
    eexists _, _. split; [reflexivity|]. unfold col_shape, count. rewrite Ec, repeat_length. split; [lia|].
    apply Forall_forall. intros x Hx. apply List.repeat_spec in Hx. now subst.
  - destruct Hi as (_ & Hi & _). rewrite Hi. cbn [rbind]. eexists _, _. split; [reflexivity|].
    unfold col_shape, count. rewrite Ec. split; [reflexivity|]. now constructor.
Qed.
Lemma other_step rec info k v st : ~ In k part_keywords -> format_step load bits rec info st (k, v) = Ok st.
Proof.
  intros H. unfold format_step.
  assert (E : str_in k structured_parameters = false) by (now apply str_in_false). now rewrite E.
Qed.
Definition items_ok (c : column) : Prop := match c_items c with Some (n, _, _) => 1 <= n | None => True end.
Notation info_of blk reps bb := [($"BLOCK_NAME", name_value blk); ($"BLOCK_REPETITIONS", PInt reps); ($"BLOCK_BYTES", int_value bb)].
Lemma columns_loop rec blk reps bb m cols : parts says_column_item m cols -> Forall items_ok cols -> forall fs nd rp,
  exists l rp', format_loop load bits rec (info_of blk reps bb) m (mkF fs nd false rp) = Ok (mkF (fs ++ l) nd false rp') /\
    cols_shape field_is (blk, reps, bb) cols l.
Proof.
  induction 1 as [|k v m cols Hk _ _ IH|k v m c cols Hk Hs _ IH]; intros Hi fs nd rp; cbn [format_loop].
  - exists [], rp. rewrite app_nil_r. split; [reflexivity|]. exists []. split; [reflexivity|constructor].
  - rewrite other_step by assumption. cbn [rbind]. auto.
  - inversion Hi; subst. destruct (column_step rec blk reps bb k v c fs nd rp Hs) as (l & rp' & E & Hl); [assumption|].
    rewrite E. cbn [rbind]. destruct (IH ltac:(assumption) (fs ++ l) nd rp') as (l2 & rp2 & E2 & (ll & -> & HF)).
    exists (l ++ List.concat ll), rp2. rewrite E2, <- app_assoc. split; [reflexivity|]. exists (l :: ll). split; [reflexivity|]. now constructor.
Qed.
Lemma parts_plain {A} (says : str -> pv -> A -> Prop) m l : parts says m l -> Forall (fun kv => is_structure (fst kv) = false) m.
Proof.
  induction 1 as [|k v m l _ Hk _ IH|k v m x l Hk _ _ IH]; constructor; auto; cbn [fst].
  - now apply not_structure.
  - cbn in Hk. repeat (destruct Hk as [<-|Hk]; [reflexivity|]). destruct Hk.
Qed.
Lemma inject_plain fuel m : Forall (fun kv => is_structure (fst kv) = false) m -> (0 < fuel)%nat -> inject_all load fuel m = Ok m.
Proof. intros H Hf. destruct fuel; [lia|]. cbn [inject_all]. now rewrite (proj2 (existsb_structure m) H). Qed.
Lemma container_block fuel name m blk reps bytes cols : (2 <= fuel)%nat -> name <> $"CONTAINER" ->
  holds m $"NAME" (PStr blk) -> holds m $"BYTES" (PInt bytes) -> holds m $"REPETITIONS" (PInt reps) ->
  parts says_column_item m cols -> Forall items_ok cols ->
  exists l, read_format_block load bits fuel m name = Ok (l, false) /\ cols_shape field_is (Some blk, reps, Some bytes) cols l.
Proof.
  intros Hf Hn H1 H2 H3 Hp Hi. destruct fuel as [|fuel]; [lia|]. cbn [read_format_block].
  rewrite inject_plain by (eauto using parts_plain; lia). cbn [rbind].
  assert (E : block_info m = info_of (Some blk) reps (Some bytes)).
  { unfold block_info, get_or, holds in *. now rewrite H1, H2, H3. }
  rewrite E. destruct (columns_loop (fun d => read_format_block load bits fuel d name) (Some blk) reps (Some bytes) m cols Hp Hi [] false PNone)
    as (l & rp & -> & Hl). cbn [rbind f_fields f_needs app].
  rewrite (proj2 (str_eqb_neq name _) Hn). cbn [rbind]. exists l. auto.
Qed.
Definition elem_items_ok (e : element) : Prop :=
  match e with Column c => items_ok c | Container _ _ _ r cols => 1 <= r /\ Forall items_ok cols end.
Lemma element_step fuel name blk reps bb k v e fs nd rp : (2 <= fuel)%nat -> name <> $"CONTAINER" ->
  says_element k v e -> elem_items_ok e ->
  exists l nd' rp', format_step load bits (fun d => read_format_block load bits fuel d name) (info_of blk reps bb)
      (mkF fs nd false rp) (k, v) = Ok (mkF (fs ++ l) nd' false rp') /\ elem_shape field_is (blk, reps, bb) e l.
Proof.
  intros Hf Hn Hs Hi. destruct e as [c|n st b r cols].
  - destruct (column_step (fun d => read_format_block load bits fuel d name) blk reps bb k v c fs nd rp Hs Hi) as (l & rp' & E & Hl).
    exists l, nd, rp'. auto.
  - destruct Hs as (Hk & m & -> & H1 & H2 & H3 & H4 & Hp). destruct Hi as [Hr Hi].
    destruct (container_block fuel name m n r b cols Hf Hn H1 H3 H4 Hp Hi) as (inner & E & Hin).
    unfold format_step.
    assert (K : str_in k structured_parameters = true /\ str_eqb k $"ARRAY" = false /\
     str_in k [$"COLUMN"; $"FIELD"; $"ELEMENT"; $"PRIMITIVE_ARRAY"] = false /\ str_in k [$"CONTAINER"; $"COLLECTION"; $"ARRAY"] = true).
    { cbn in Hk. destruct Hk as [<-|[<-|[]]]; vm_compute; auto. }
    destruct K as (K1 & K2 & K3 & K4). rewrite K1. cbn [negb]. rewrite K2. cbn [rbind]. rewrite K3, K4. cbn [as_multi_ rbind].
    rewrite E. cbn [rbind]. rewrite K2. cbn [f_fields f_needs f_add f_reps add_placeholder_if rbind].
    unfold append_object. cbn [f_fields f_needs f_add f_reps]. unfold get_or. unfold holds in H4. rewrite H4. cbn [rbind].
    rewrite repeat_spec. eexists _, _, _. split; [reflexivity|]. cbn [elem_shape].
    exists (repeat inner (Nat.max 1 (Z.to_nat r))). split; [reflexivity|]. rewrite repeat_length. split; [lia|].
    apply Forall_forall. intros x Hx. apply List.repeat_spec in Hx. now subst.
Qed.
Lemma elements_loop fuel name blk reps bb m t : (2 <= fuel)%nat -> name <> $"CONTAINER" ->
  parts says_element m t -> Forall elem_items_ok t -> forall fs nd rp,
  exists l nd' rp', format_loop load bits (fun d => read_format_block load bits fuel d name) (info_of blk reps bb) m (mkF fs nd false rp) =
      Ok (mkF (fs ++ l) nd' false rp') /\ table_shape field_is (blk, reps, bb) t l.
Proof.
  intros Hf Hn. induction 1 as [|k v m t Hk _ _ IH|k v m e t Hk Hs _ IH]; intros Hi fs nd rp; cbn [format_loop].
  - exists [], nd, rp. rewrite app_nil_r. split; [reflexivity|]. exists []. split; [reflexivity|constructor].
  - rewrite other_step by assumption. cbn [rbind]. auto.
  - inversion Hi; subst. destruct (element_step fuel name blk reps bb k v e fs nd rp Hf Hn Hs) as (l & nd' & rp' & E & Hl); [assumption|].
    rewrite E. cbn [rbind]. destruct (IH ltac:(assumption) (fs ++ l) nd' rp') as (l2 & nd2 & rp2 & E2 & (ll & -> & HF)).
    exists (l ++ List.concat ll), nd2, rp2. rewrite E2, <- app_assoc. split; [reflexivity|]. exists (l :: ll). split; [reflexivity|]. now constructor.
Qed.
Lemma table_fields fuel name m blk bb t : (3 <= fuel)%nat -> name <> $"CONTAINER" -> says_table m t ->
  named m blk -> may_hold m $"BYTES" bb -> Forall elem_items_ok t ->
  exists l nd, read_format_block load bits fuel m name = Ok (l, nd) /\ table_shape field_is (blk, 1, bb) t l.
Proof.
  intros Hf Hn [Hp Hr] H1 H2 Hi. destruct fuel as [|fuel]; [lia|]. cbn [read_format_block].
  rewrite inject_plain by (eauto using parts_plain; lia). cbn [rbind].
  assert (E : block_info m = info_of blk 1 bb).
  { unfold block_info, get_or, holds, lacks, named, may_hold, holds, lacks in *. rewrite H1, Hr. destruct blk, bb; rewrite H2; reflexivity. }
  rewrite E. destruct (elements_loop fuel name blk 1 bb m t ltac:(lia) Hn Hp Hi [] false PNone) as (l & nd & rp & -> & Hl).
  cbn [rbind f_fields f_needs app]. rewrite (proj2 (str_eqb_neq name _) Hn). cbn [rbind]. exists l, nd. auto.
Qed.
End Loop.

(** ** Names *)
Lemma rename_length all seen rows : List.length (rename_from all seen rows) = List.length rows.
Proof. revert seen. induction rows as [|[n s] rows IH]; intros seen; [reflexivity|]. cbn. now rewrite IH. Qed.
Lemma count_occ_ names n : count_name names n = occurrences names n. Proof. reflexivity. Qed.
Lemma rename_nth all rows : forall seen i, nth_error (rename_from all seen rows) i =
  match nth_error rows i with
  | Some (n, _) => Some (if (count_name (map fst all) n =? 1)%nat then n
                         else group_base all n ++ $"_" ++ str_of_nat (count_name (map fst (firstn i rows)) n + count_name seen n))
  | None => None
  end.
Proof.
  induction rows as [|[n s] rows IH]; intros seen i; destruct i as [|i]; cbn [rename_from nth_error firstn map fst]; try reflexivity.
  rewrite IH. destruct (nth_error rows i) as [[n' s']|]; [|reflexivity]. destruct (count_name (map fst all) n' =? 1)%nat; [reflexivity|].
  do 4 f_equal. unfold count_name. cbn [filter]. destruct (str_eqb n' n); cbn [List.length]; lia.
Qed.
Lemma row_names_ok rows t cx l : table_shape (fun cx c x => field_is cx c x) cx t l -> Forall good_element t ->
  rows = map (fun f => (name_of f, start_text f)) l ->
  Forall (fun n => n <> $"PLACEHOLDER_0") (reindex_names rows).
Proof.
  intros Hsh Hg Er. assert (Hn : Forall (fun r => forall rest, fst r <> $"PLACEHOLDER" ++ rest) rows).
  { subst rows. apply Forall_map. cbn [fst]. destruct Hsh as (ll & -> & HF). apply Forall_concat.
    induction HF as [|e l t ll He _ IH]; [constructor|]. inversion Hg; subst. constructor; [|auto].
    assert (Hc : forall cx cols l, cols_shape field_is cx cols l -> Forall good_column cols -> Forall (fun f => forall rest, name_of f <> $"PLACEHOLDER" ++ rest) l).
    { clear. intros cx cols l (ll & -> & HF) Hg. apply Forall_concat. induction HF as [|c l cols ll [_ Hl] _ IH]; [constructor|].
      inversion Hg; subst. constructor; [|auto]. eapply Forall_impl; [|exact Hl]. intros f [Hf _]. rewrite Hf. apply H1. }
    destruct e as [c|n s b r cols].
    - apply (Hc cx [c]); [|now constructor]. exists [l]. cbn. rewrite app_nil_r. split; [reflexivity|]. now constructor.
    - destruct He as (chs & -> & _ & Hch). apply Forall_concat. eapply Forall_impl; [|exact Hch]. intros ch Hchs.
      eapply Hc; [exact Hchs|]. cbn in H1. tauto. }
  apply Forall_forall. intros x Hx. apply In_nth_error in Hx as [i Hi]. unfold reindex_names in Hi. rewrite rename_nth in Hi.
  destruct (nth_error rows i) as [[n s]|] eqn:E; [|discriminate]. apply nth_error_In in E. rewrite Forall_forall in Hn.
  specialize (Hn _ E). cbn [fst] in Hn.
  destruct (count_name (map fst rows) n =? 1)%nat.
  - injection Hi as <-. intros ->. now apply (Hn $"_0").
  - injection Hi as <-. unfold group_base. destruct (str_eqb n $"RESERVED") eqn:Er2.
    + apply str_eqb_eq in Er2. destruct (find _ rows) as [r|]; [discriminate|]. subst n. discriminate.
    + intros E2. clear - E2 Hn. 
      set (k := str_of_nat _) in *. clearbody k.
      assert (Hu : n = firstn (List.length n) $"PLACEHOLDER_0").
      { rewrite <- E2. rewrite firstn_app, firstn_all, Nat.sub_diag. cbn. now rewrite app_nil_r. }
      assert (Hlen : (List.length n < 13)%nat).
      { apply (f_equal (@List.length _)) in E2. rewrite app_length in E2. cbn in E2. lia. }
      destruct (Nat.le_gt_cases 11 (List.length n)) as [Hge|Hlt].
      * apply (Hn (firstn (List.length n - 11) $"_0")). rewrite Hu at 1. clear Hu Hn E2.
        assert (Hc : List.length n = 11%nat \/ List.length n = 12%nat) by lia. destruct Hc as [-> | ->]; reflexivity.
      * rewrite Hu in E2. clear - E2 Hlt. destruct (List.length n) as [|[|[|[|[|[|[|[|[|[|[|?]]]]]]]]]]]; try discriminate; lia.
Qed.
Lemma good_items t : Forall good_element t -> Forall elem_items_ok t.
Proof.
  intros H. eapply Forall_impl; [|exact H]. intros e. destruct e as [c|n s b r cols]; cbn.
  - intros [_ Hc]. unfold items_ok. destruct (c_items c) as [[[x y] z]|]; tauto.
  - intros (H1 & _ & H2 & _). split; [exact H1|]. eapply Forall_impl; [|exact H2]. intros c [_ Hc]. unfold items_ok.
    destruct (c_items c) as [[[x y] z]|]; tauto.
Qed.
Lemma rows_of_fields cx t fields : table_shape field_is cx t fields -> Forall good_element t ->
  exists rows, rmap row_of_field (reindexed fields) = Ok rows /\ table_shape core_is cx t rows /\
    Forall (fun r => r_name r <> $"PLACEHOLDER_0") rows /\
    map r_name rows = reindex_names (map (fun f => (name_of f, start_text f)) fields).
Proof.
  intros Hsh Hg. unfold reindexed. set (names := reindex_names _).
  assert (Hnp : Forall (fun n => n <> $"PLACEHOLDER_0") names) by (eapply row_names_ok; eauto).
  assert (Hlen : List.length names = List.length fields) by (unfold names, reindex_names; now rewrite rename_length, map_length).
  clearbody names.
  assert (HX : Forall (fun f => exists cx c, field_is cx c f) fields).
  { clear - Hsh. destruct Hsh as (ll & -> & HF). apply Forall_concat.
    induction HF as [|e l t ll He _ IH]; [constructor|]. constructor; [|auto]. destruct e as [c|n s b r cols].
    - eapply Forall_impl; [|exact (proj2 He)]. eauto.
    - destruct He as (chs & -> & _ & Hch). apply Forall_concat. eapply Forall_impl; [|exact Hch]. intros ch (lls & -> & HF2).
      apply Forall_concat. clear - HF2. induction HF2 as [|c l cols lls [_ Hl] _ IH]; [constructor|]. constructor; [|auto].
      eapply Forall_impl; [|exact Hl]. eauto. }
  assert (G : exists rows, rmap row_of_field (map (fun nf => dict_set (snd nf) $"NAME" (PStr (fst nf))) (combine names fields)) = Ok rows /\
     Forall2 (fun f r => exists n, row_of_field (dict_set f $"NAME" (PStr n)) = Ok r /\ r_name r = n /\ n <> $"PLACEHOLDER_0") fields rows /\ map r_name rows = names).
  { clear Hsh. revert names Hnp Hlen. induction HX as [|f fields (cx' & c & Hf) _ IH]; intros names Hnp Hlen.
    - destruct names; [|discriminate]. exists []. repeat split; constructor.
    - destruct names as [|n names]; [discriminate|]. inversion Hnp; subst. destruct (IH names) as (rows & E & HF & Hm); [assumption|cbn in Hlen; lia|].
      destruct Hf as [_ Hf]. destruct (Hf n) as (r & Er & _ & Hrn). exists (r :: rows). cbn [combine map rmap fst snd]. rewrite Er, E. split; [reflexivity|].
      split; [constructor; eauto|]. cbn. now rewrite Hrn, Hm. }
  destruct G as (rows & E & HF & Hm). exists rows. split; [exact E|]. split; [|split; [|exact Hm]].
  - eapply table_transfer; [|exact Hsh|exact HF]. intros cx' c f r [_ Hf] (n & En & _). destruct (Hf n) as (r' & Er & Hc & _). congruence.
  - rewrite <- Hm in Hnp. apply Forall_forall. intros r Hr. rewrite Forall_forall in Hnp. apply Hnp. now apply in_map.
Qed.
