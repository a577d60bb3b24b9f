(** Properties C10-C12: looking things up in a label.  [o] is the traversal
    order of the external key search (document order or level by level), [eqb]
    Python's equality on default values; every theorem holds for all of them. *)
From Verif.Base Require Import Py Val PyFacts.
From Verif.Model Require Import Pvl Meta.
From Verif.Spec Require Import Meta.
From Verif.Proofs Require Import Meta.

(** the answer of an object that has just been built from label [m], whose
    parameter list is [ps] *)
Definition fresh_get (o : order) (eqb : pv -> pv -> bool) (m : multidict) (ps : list str)
  (k : str) (d : pv) : res pv := snd (fst (metaget o eqb (meta_init m ps) k d)).
Definition fresh_block (o : order) (m : multidict) (ps : list str) (k : str) : pv :=
  snd (metablock o (meta_init m ps) k).

Lemma counted k ps : In k ps -> (count_str k ps =? 0)%nat = false.
Proof.
  intros H. apply Nat.eqb_neq. intros E. unfold count_str in E.
  apply length_zero_iff_nil in E.
  assert (Hi : In k (filter (str_eqb k) ps)) by (apply filter_In; split; [exact H|apply str_eqb_refl]).
  now rewrite E in Hi.
Qed.
Lemma not_counted k ps : ~ In k ps -> (count_str k ps =? 0)%nat = true.
Proof.
  intros H. apply Nat.eqb_eq. unfold count_str. apply length_zero_iff_nil.
  destruct (filter (str_eqb k) ps) as [|x l] eqn:E; [reflexivity|]. exfalso. apply H.
  assert (Hi : In x (filter (str_eqb k) ps)) by (rewrite E; now left).
  apply filter_In in Hi as [Hi Hk]. apply str_eqb_eq in Hk. now subst.
Qed.

Lemma fresh_get_eq o eqb m ps k d : In k ps -> hashable d = true ->
  fresh_get o eqb m ps k d = Ok (or_default (dig_for_value o m k) d).
Proof.
  intros H Hd. unfold fresh_get, metaget. cbn [meta_init params gcache find].
  rewrite (counted k ps H), Hd. cbn. now rewrite metaget_interior_or.
Qed.
Lemma fresh_block_eq o m ps k : In k ps ->
  fresh_block o m ps k = metablock_interior o m k.
Proof.
  intros H. unfold fresh_block, metablock. cbn [meta_init params bcache find].
  now rewrite (counted k ps H).
Qed.

(** ** C10 *)
Theorem C10_absent : forall o eqb s k d, ~ In k (params s) ->
  metaget o eqb s k d = (s, Ok d, false).
Proof. intros. unfold metaget. now rewrite not_counted. Qed.
Print Assumptions C10_absent.

(** Document order: the first value in the label, or the default when that is
    missing or None. *)
Theorem C10_first_in_document : forall eqb m ps k d, In k ps -> hashable d = true ->
  fresh_get DepthFirst eqb m ps k d = Ok (or_default (hd PNone (values_of k (PMulti m))) d).
Proof. intros. now rewrite fresh_get_eq, dig_df. Qed.
Print Assumptions C10_first_in_document.
(** Level by level: a value at the top level of the label wins. *)
Theorem C10_top_level_first : forall eqb m ps k d v vs, In k ps -> hashable d = true ->
  top_values k m = v :: vs -> fresh_get LevelFirst eqb m ps k d = Ok (or_default v d).
Proof. intros. now rewrite fresh_get_eq, (dig_lf_top m k v vs). Qed.
Print Assumptions C10_top_level_first.
(** In either order a key given once, at any depth, is found, and a key given
    several times yields one of its values. *)
Theorem C10_unique : forall o eqb m ps k d v, In k ps -> hashable d = true ->
  values_of k (PMulti m) = [v] -> fresh_get o eqb m ps k d = Ok (or_default v d).
Proof. intros. now rewrite fresh_get_eq, (dig_unique o m k v). Qed.
Print Assumptions C10_unique.
Theorem C10_some_value : forall o eqb m ps k d, In k ps -> hashable d = true ->
  values_of k (PMulti m) <> [] ->
  exists v, In v (values_of k (PMulti m)) /\ fresh_get o eqb m ps k d = Ok (or_default v d).
Proof. intros. exists (dig_for_value o m k). split; [now apply dig_in|now apply fresh_get_eq]. Qed.
Print Assumptions C10_some_value.
(** Lookups leave the label alone, and warn exactly when the label names the
    key more than once. *)
Theorem C10_read_only : forall o eqb s k d, let '(s', _, w) := metaget o eqb s k d in
  mapping s' = mapping s /\ params s' = params s /\
  (w = true <-> (1 < List.length (filter (str_eqb k) (params s)))%nat).
Proof.
  intros. unfold metaget. change (List.length (filter (str_eqb k) (params s))) with (count_str k (params s)).
  destruct (count_str k (params s)) as [|n] eqn:E; cbn [Nat.eqb].
  - repeat split; try discriminate; lia.
  - destruct (hashable d); [destruct (find _ _)|]; cbn [mapping params]; repeat split; apply Nat.ltb_lt.
Qed.
Print Assumptions C10_read_only.

Definition ex_label : multidict :=
  [($"A", PInt 1); ($"IMAGE", PMulti [($"LINES", PInt 5); ($"A", PInt 2)]);
   ($"LINES", PInt 7); ($"N", PNone)].
Definition ex_params : list str := [$"A"; $"LINES"; $"A"; $"IMAGE"; $"LINES"; $"N"].
Definition no_eq (a b : pv) : bool := false.
Example C10_meets :
  fresh_get DepthFirst no_eq ex_label ex_params $"LINES" PNone = Ok (PInt 5) /\
  fresh_get LevelFirst no_eq ex_label ex_params $"LINES" PNone = Ok (PInt 7) /\
  fresh_get DepthFirst no_eq ex_label ex_params $"N" (PInt 0) = Ok (PInt 0) /\
  values_of $"IMAGE" (PMulti ex_label) = [PMulti [($"LINES", PInt 5); ($"A", PInt 2)]] /\
  hashable (PInt 0) = true /\ In $"LINES" ex_params.
Proof. repeat split; auto. right; left; reflexivity. Qed.

(** Finding: an unhashable default makes the lookup of a key that is present
    raise instead of returning its value. *)
Theorem C10_never_raises_refuted : exists m ps k d v, forall o eqb,
  values_of k (PMulti m) = [v] /\ In k ps /\ fresh_get o eqb m ps k d = Err TypeError.
Proof.
  exists ex_label, ex_params, $"N", (PDict []), PNone. intros. repeat split.
  cbn. auto 10.
Qed.
Print Assumptions C10_never_raises_refuted.

(** it is so for every dictionary, set and tuple that contains one, and only them *)
Inductive unhashable : pv -> Prop :=
| un_dict kvs : unhashable (PDict kvs)
| un_multi kvs : unhashable (PMulti kvs)
| un_set l : unhashable (PSet l)
| un_tuple l v : In v l -> unhashable v -> unhashable (PTuple l).
Fixpoint tuple_size (v : pv) : nat := match v with PTuple l => S (list_sum (map tuple_size l)) | _ => 1%nat end.
Theorem C10_raises_iff : forall o eqb m ps k d, fresh_get o eqb m ps k d = Err TypeError <-> In k ps /\ unhashable d.
Proof.
  intros o eqb m ps k d.
  assert (H : forall n d, (tuple_size d <= n)%nat -> hashable d = false <-> unhashable d).
  { clear. induction n as [|n IH]; intros d Hn; [destruct d; cbn in Hn; lia|].
    destruct d as [| | | | |l|l|l|l]; cbn [hashable]; try (split; [discriminate|intros H; inversion H]); try (split; [constructor|reflexivity]).
    assert (E : forall x, In x l -> hashable x = false <-> unhashable x).
    { intros x Hx. apply IH. cbn [tuple_size] in Hn. apply le_S_n in Hn. clear -Hn Hx. induction l as [|y l IH]; [easy|]. cbn [map list_sum fold_right] in Hn.
      change (fold_right Nat.add 0%nat (map tuple_size l)) with (list_sum (map tuple_size l)) in Hn. destruct Hx as [->|Hx]; [lia|]. apply IH; [lia|assumption]. }
    clear Hn. split.
    - intros F. assert (exists x, In x l /\ hashable x = false).
      { clear E. induction l as [|y l IHl]; [discriminate|]. cbn in F. destruct (hashable y) eqn:Ey; [|exists y; split; [now left|assumption]].
        destruct (IHl F) as (x & ? & ?). exists x. split; [now right|assumption]. }
      destruct H as (x & Hx & Hh). apply (un_tuple l x Hx). now apply E.
    - inversion 1 as [| | |? v Hv Hu]; subst. apply (E v Hv) in Hu. apply not_true_iff_false. intros F. rewrite forallb_forall in F. rewrite (F v Hv) in Hu. discriminate. }
  specialize (H _ d (le_n _)). destruct (in_dec (list_eq_dec Ascii.ascii_dec) k ps) as [I|N].
  - destruct (hashable d) eqn:E.
    + rewrite fresh_get_eq by assumption. split; [discriminate|]. intros [_ U]. apply H in U. discriminate.
    + split; [intros _; split; [assumption|now apply H]|]. intros _. unfold fresh_get, metaget. cbn [meta_init params]. now rewrite (counted k ps I), E.
  - unfold fresh_get. rewrite (C10_absent o eqb (meta_init m ps) k d N). cbn. split; [discriminate|]. intros [I _]. contradiction.
Qed.
Print Assumptions C10_raises_iff.
Example C10_raises_iff_meets : fresh_get DepthFirst no_eq ex_label ex_params $"N" (PTuple [PInt 1; PSet []]) = Err TypeError /\
  unhashable (PTuple [PInt 1; PSet []]).
Proof. split; [reflexivity|]. apply (un_tuple _ (PSet [])); [right; now left|constructor]. Qed.
(** the identifiers of a product: what the label says about each field, sequences as text *)
Theorem C10_identifiers : forall o eqb repr fields m ps,
  map fst (init_identifiers o eqb repr fields (meta_init m ps)) = fields /\
  forall f r, In (f, r) (init_identifiers o eqb repr fields (meta_init m ps)) ->
    exists v, fresh_get o eqb m ps f (PStr []) = Ok v /\
      r = Ok (match v with PTuple _ | PSet _ => PStr (repr v) | _ => v end).
Proof.
  intros o eqb repr fields m ps. split.
  - unfold init_identifiers. rewrite map_map. rewrite <- (map_id fields) at 2. apply map_ext. intros f. destruct (metaget _ _ _ _ _) as [[? ?] ?]. reflexivity.
  - intros f r I. unfold init_identifiers in I. apply in_map_iff in I. destruct I as (f' & E & _).
    assert (G : forall x, exists v, snd (fst (metaget o eqb (meta_init m ps) x (PStr []))) = Ok v).
    { intros x. destruct (in_dec (list_eq_dec Ascii.ascii_dec) x ps) as [I|N].
      - fold (fresh_get o eqb m ps x (PStr [])). rewrite fresh_get_eq by (trivial; reflexivity). eexists. reflexivity.
      - rewrite (C10_absent o eqb (meta_init m ps) x (PStr []) N). eexists. reflexivity. }
    destruct (G f') as [v Ev]. destruct (metaget o eqb (meta_init m ps) f' (PStr [])) as [[s' r'] w] eqn:Em. cbn in Ev. subst r'.
    injection E as <- <-. exists v. unfold fresh_get. rewrite Em. split; [reflexivity|]. now destruct v.
Qed.
Print Assumptions C10_identifiers.
Example C10_identifiers_meets : init_identifiers DepthFirst no_eq (fun _ => $"{..}") [$"A"; $"B"]
    (meta_init [($"A", PSet [PInt 1]); ($"B", PInt 2)] [$"A"; $"B"]) = [($"A", Ok (PStr $"{..}")); ($"B", Ok (PInt 2))].
Proof. reflexivity. Qed.

(** ** C11 *)
Theorem C11_absent : forall o m ps k, ~ In k ps -> fresh_block o m ps k = PNone.
Proof. intros. unfold fresh_block, metablock. cbn [meta_init params]. now rewrite not_counted. Qed.
Print Assumptions C11_absent.
Theorem C11_first_in_document : forall m ps k v vs, In k ps ->
  values_of k (PMulti m) = v :: vs -> is_mapping v = true ->
  fresh_block DepthFirst m ps k = v.
Proof.
  intros m ps k v vs H Hv Hm. rewrite fresh_block_eq by exact H. unfold metablock_interior.
  rewrite dig_df, Hv. cbn [hd]. now rewrite Hm.
Qed.
Print Assumptions C11_first_in_document.
Theorem C11_top_level_first : forall m ps k v vs, In k ps ->
  top_values k m = v :: vs -> is_mapping v = true ->
  fresh_block LevelFirst m ps k = v.
Proof.
  intros m ps k v vs H Hv Hm. rewrite fresh_block_eq by exact H. unfold metablock_interior.
  now rewrite (dig_lf_top m k v vs), Hm.
Qed.
Print Assumptions C11_top_level_first.
Theorem C11_unique : forall o m ps k v, In k ps ->
  values_of k (PMulti m) = [v] -> is_mapping v = true ->
  fresh_block o m ps k = v.
Proof.
  intros o m ps k v H Hv Hm. rewrite fresh_block_eq by exact H. unfold metablock_interior.
  now rewrite (dig_unique o m k v), Hm.
Qed.
Print Assumptions C11_unique.
(** The answer for a known name is always a mapping. *)
Theorem C11_is_mapping : forall o m ps k, In k ps -> is_mapping (fresh_block o m ps k) = true.
Proof.
  intros. rewrite fresh_block_eq by assumption. unfold metablock_interior.
  destruct (is_mapping (dig_for_value o m k)) eqn:E; [exact E|reflexivity].
Qed.
Print Assumptions C11_is_mapping.
(** Finding: when the named entry is not a block, the whole label is returned. *)
Theorem C11_not_a_block_refuted : forall o, exists m ps k v,
  values_of k (PMulti m) = [v] /\ is_mapping v = false /\ In k ps /\
  fresh_block o m ps k = PMulti m.
Proof.
  intros o. exists [($"A", PInt 1); ($"B", PMulti [])], [$"A"; $"B"], $"A", (PInt 1).
  repeat split; [now left|]. destruct o; reflexivity.
Qed.
Print Assumptions C11_not_a_block_refuted.
Example C11_meets : In $"IMAGE" ex_params /\
  fresh_block LevelFirst ex_label ex_params $"IMAGE" = PMulti [($"LINES", PInt 5); ($"A", PInt 2)].
Proof. split; [cbn; auto 10|reflexivity]. Qed.

(** ** C12 *)
Definition event (op : mop) : list (option multidict) :=
  match op with Edit m => [Some m] | Refresh => [None] | _ => [] end.

Section History.
  Variables (o : order) (eqb : pv -> pv -> bool).
  Lemma versions_steps ops : forall vs,
    fold_left versions_step ops vs = versions vs (flat_map event ops).
  Proof.
    induction ops as [|op ops IH]; intros vs; [reflexivity|]. cbn [fold_left flat_map].
    rewrite IH. destruct op; cbn [event app versions versions_step]; try reflexivity.
  Qed.
  Lemma mrun_inv ops : forall vs s, cache_inv o vs s ->
    cache_inv o (fold_left versions_step ops vs) (fst (mrun o eqb s ops)) /\
    params (fst (mrun o eqb s ops)) = params s.
  Proof.
    induction ops as [|op ops IH]; intros vs s H; [split; [exact H|reflexivity]|]. cbn [mrun fold_left].
    pose proof (mstep_ok o eqb vs s op H) as Hs. destruct (mstep o eqb s op) as [s1 out].
    destruct Hs as (H1 & Hp & _). specialize (IH _ s1 H1).
    destruct (mrun o eqb s1 ops) as [s2 outs]. cbn [fst] in *. now rewrite <- Hp.
  Qed.
End History.

(** After any history [before], a lookup answers as an object freshly built
    from one of the versions the label has had since the last refresh would
    (for a default Python counts as equal to the one given). *)
Theorem C12_get : forall o eqb m ps before k d,
  let s := fst (mrun o eqb (meta_init m ps) before) in
  exists m' d', In m' (versions [m] (flat_map event before)) /\ (d' = d \/ eqb d' d = true) /\
    snd (mstep o eqb s (Get k d)) = OGet (fresh_get o eqb m' ps k d').
Proof.
  intros o eqb m ps before k d s.
  destruct (mrun_inv o eqb before [m] (meta_init m ps) (init_inv o m ps)) as [Hi Hp].
  fold s in Hi, Hp. rewrite versions_steps in Hi.
  pose proof (mstep_ok o eqb _ _ (Get k d) Hi) as Hs. cbn [mstep versions_step answer_ok] in *.
  destruct (metaget o eqb s k d) as [[s' r] w]. destruct Hs as (_ & _ & Ha). cbn [snd].
  rewrite Hp in Ha. cbn [meta_init params] in Ha.
  destruct Hi as [[rest Hv] _].
  destruct (count_str k ps =? 0)%nat eqn:Ec.
  - exists (mapping s), d. rewrite Hv. split; [now left|]. split; [now left|].
    rewrite Ha. unfold fresh_get, metaget. cbn [meta_init params]. now rewrite Ec.
  - destruct (hashable d) eqn:Hd.
    + destruct Ha as (m' & d' & Hm & Hh & Hd' & ->). exists m', d'. split; [exact Hm|]. split; [exact Hd'|].
      unfold fresh_get, metaget. cbn [meta_init params gcache find]. now rewrite Ec, Hh.
    + exists (mapping s), d. rewrite Hv. split; [now left|]. split; [now left|].
      rewrite Ha. unfold fresh_get, metaget. cbn [meta_init params]. now rewrite Ec, Hd.
Qed.
Print Assumptions C12_get.
Theorem C12_block : forall o eqb m ps before k,
  let s := fst (mrun o eqb (meta_init m ps) before) in
  exists m', In m' (versions [m] (flat_map event before)) /\
    snd (mstep o eqb s (Block k)) = OBlock (fresh_block o m' ps k).
Proof.
  intros o eqb m ps before k s.
  destruct (mrun_inv o eqb before [m] (meta_init m ps) (init_inv o m ps)) as [Hi Hp].
  fold s in Hi, Hp. rewrite versions_steps in Hi.
  pose proof (mstep_ok o eqb _ _ (Block k) Hi) as Hs. cbn [mstep versions_step answer_ok] in *.
  destruct (metablock o s k) as [s' r]. destruct Hs as (_ & _ & Ha). cbn [snd].
  rewrite Hp in Ha. cbn [meta_init params] in Ha. destruct Hi as [[rest Hv] _].
  unfold fresh_block, metablock. cbn [meta_init params bcache find].
  destruct (count_str k ps =? 0)%nat eqn:Ec.
  - exists (mapping s). rewrite Hv. split; [now left|]. now rewrite Ha.
  - destruct Ha as (m' & Hm & ->). exists m'. auto.
Qed.
Print Assumptions C12_block.

(** Consequences: while the label is not edited the cache cannot be noticed, and
    a refresh makes every later answer up to date. *)
Theorem C12_transparent : forall o eqb m ps lookups k d,
  (forall a b, eqb a b = true -> a = b) ->
  (forall op, In op lookups -> event op = []) ->
  let s := fst (mrun o eqb (meta_init m ps) lookups) in
  snd (mstep o eqb s (Get k d)) = OGet (fresh_get o eqb m ps k d) /\
  snd (mstep o eqb s (Block k)) = OBlock (fresh_block o m ps k).
Proof.
  intros o eqb m ps ops k d He Hq s.
  assert (E : flat_map event ops = []).
  { clear -Hq. induction ops as [|op ops IH]; [reflexivity|]. cbn. rewrite (Hq op) by now left.
    apply IH. intros; apply Hq; now right. }
  destruct (C12_get o eqb m ps ops k d) as (m' & d' & Hm & Hd & H1).
  destruct (C12_block o eqb m ps ops k) as (m'' & Hm2 & H2).
  rewrite E in Hm, Hm2. destruct Hm as [<-|[]], Hm2 as [<-|[]]. split; [|exact H2].
  unfold s. rewrite H1. destruct Hd as [->|Hd]; [reflexivity|]. now rewrite (He _ _ Hd).
Qed.
Print Assumptions C12_transparent.
Theorem C12_refresh : forall o eqb m ps before lookups k d,
  (forall a b, eqb a b = true -> a = b) ->
  (forall op, In op lookups -> event op = []) ->
  let now_ := mapping (fst (mrun o eqb (meta_init m ps) before)) in
  let s := fst (mrun o eqb (meta_init m ps) (before ++ Refresh :: lookups)) in
  snd (mstep o eqb s (Get k d)) = OGet (fresh_get o eqb now_ ps k d) /\
  snd (mstep o eqb s (Block k)) = OBlock (fresh_block o now_ ps k).
Proof.
  intros o eqb m ps before ops k d He Hq now_ s.
  assert (E : flat_map event ops = []).
  { clear -Hq. induction ops as [|op ops IH]; [reflexivity|]. cbn. rewrite (Hq op) by now left.
    apply IH. intros; apply Hq; now right. }
  assert (Ev : versions [m] (flat_map event (before ++ Refresh :: ops)) = [now_]).
  { rewrite <- versions_steps, fold_left_app. cbn [fold_left].
    destruct (mrun_inv o eqb before [m] (meta_init m ps) (init_inv o m ps)) as [[[rest Hv] _] _].
    rewrite Hv. cbn [versions_step]. rewrite versions_steps, E. reflexivity. }
  destruct (C12_get o eqb m ps (before ++ Refresh :: ops) k d) as (m' & d' & Hm & Hd & H1).
  destruct (C12_block o eqb m ps (before ++ Refresh :: ops) k) as (m'' & Hm2 & H2).
  rewrite Ev in Hm, Hm2. destruct Hm as [<-|[]], Hm2 as [<-|[]]. split; [|exact H2].
  unfold s. rewrite H1. destruct Hd as [->|Hd]; [reflexivity|]. now rewrite (He _ _ Hd).
Qed.
Print Assumptions C12_refresh.
(** the mapping of the object is the last edit's *)
Theorem C12_current : forall o eqb m ps before m',
  mapping (fst (mrun o eqb (meta_init m ps) (before ++ [Edit m']))) = m'.
Proof.
  intros. generalize (meta_init m ps). induction before as [|op ops IH]; intros s; [reflexivity|].
  cbn [app mrun]. destruct (mstep o eqb s op) as [s1 out]. specialize (IH s1).
  destruct (mrun o eqb s1 (ops ++ [Edit m'])). exact IH.
Qed.
Print Assumptions C12_current.

(** Findings: an edit is not seen by a key already looked up, and a key added
    by an edit is never found, not even after refresh_cache. *)
Theorem C12_stale_refuted : exists m m' ps k, forall o,
  let eqb := fun a b : pv => true in
  let s := fst (mrun o eqb (meta_init m ps) [Get k PNone; Edit m']) in
  snd (mstep o eqb s (Get k PNone)) <> OGet (fresh_get o eqb m' ps k PNone).
Proof.
  exists [($"A", PInt 1)], [($"A", PInt 2)], [$"A"], $"A". intros [|]; cbn; discriminate.
Qed.
Print Assumptions C12_stale_refuted.
Theorem C12_new_key_refuted : exists m m' ps k v, forall o eqb,
  values_of k (PMulti m') = [v] /\
  let s := fst (mrun o eqb (meta_init m ps) [Edit m'; Refresh]) in
  snd (mstep o eqb s (Get k PNone)) = OGet (Ok PNone).
Proof.
  exists [], [($"A", PInt 2)], [], $"A", (PInt 2). intros; split; reflexivity.
Qed.
Print Assumptions C12_new_key_refuted.
Example C12_meets : let eqb := fun a b => match a, b with PInt x, PInt y => (x =? y)%Z | _, _ => false end in
  (forall a b, eqb a b = true -> a = b) /\
  snd (mrun DepthFirst eqb (meta_init ex_label ex_params)
        [Get $"LINES" (PInt 0); Edit [($"LINES", PInt 9)]; Get $"LINES" (PInt 0); Refresh;
         Get $"LINES" (PInt 0)]) =
  [OGet (Ok (PInt 5)); ONone; OGet (Ok (PInt 5)); ONone; OGet (Ok (PInt 9))].
Proof.
  split; [|reflexivity]. intros [] []; try discriminate. intros E. apply Z.eqb_eq in E. now subst.
Qed.
