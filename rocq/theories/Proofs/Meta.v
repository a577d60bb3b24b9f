(** Proofs about metadata lookup and its cache. *)
From Coq Require Import Permutation.
From Verif.Base Require Import Py Val PyFacts.
From Verif.Model Require Import Pvl Meta.
From Verif.Spec Require Import Meta.

(** induction over trees of dicts and MultiDicts *)
Section MapInd.
  Variable P : pv -> Prop.
  Variable leaf : forall v, is_mapping v = false -> P v.
  Variable dict : forall kvs, Forall (fun kv => P (snd kv)) kvs -> P (PDict kvs).
  Variable multi : forall kvs, Forall (fun kv => P (snd kv)) kvs -> P (PMulti kvs).
  Fixpoint pv_map_ind (v : pv) : P v :=
    let go := (fix go (l : multidict) : Forall (fun kv => P (snd kv)) l :=
              match l with
              | [] => Forall_nil _
              | kv :: l' => Forall_cons _ (pv_map_ind (snd kv)) (go l')
              end) in
    match v with
    | PMulti kvs => multi kvs (go kvs)
    | PDict kvs => dict kvs (go kvs)
    | PNone => leaf PNone eq_refl
    | PBool x => leaf (PBool x) eq_refl
    | PInt x => leaf (PInt x) eq_refl
    | PFloat x => leaf (PFloat x) eq_refl
    | PStr x => leaf (PStr x) eq_refl
    | PTuple x => leaf (PTuple x) eq_refl
    | PSet x => leaf (PSet x) eq_refl
    end.
End MapInd.

Definition vals (k : str) (l : multidict) : list pv := top_values k l.
Lemma vals_app k a b : vals k (a ++ b) = vals k a ++ vals k b.
Proof. unfold vals, top_values. now rewrite filter_app, map_app. Qed.

Lemma items_df_values k v : vals k (items_of DepthFirst v) = values_of k v.
Proof.
  induction v as [v Hv|kvs IH|kvs IH] using pv_map_ind.
  - destruct v; try reflexivity; discriminate.
  - cbn [items_of values_of]. induction IH as [|[k' v] kvs Hv _ IHl]; [reflexivity|].
    cbn [flat_map fst snd] in *. rewrite vals_app, IHl. f_equal.
    change ((k', v) :: items_of DepthFirst v) with ([(k', v)] ++ items_of DepthFirst v).
    rewrite vals_app, Hv. f_equal. unfold vals, top_values. cbn. destruct (str_eqb k' k); reflexivity.
  - cbn [items_of values_of]. induction IH as [|[k' v] kvs Hv _ IHl]; [reflexivity|].
    cbn [flat_map fst snd] in *. rewrite vals_app, IHl. f_equal.
    change ((k', v) :: items_of DepthFirst v) with ([(k', v)] ++ items_of DepthFirst v).
    rewrite vals_app, Hv. f_equal. unfold vals, top_values. cbn. destruct (str_eqb k' k); reflexivity.
Qed.

Lemma items_lf_values k v : Permutation (vals k (items_of LevelFirst v)) (values_of k v).
Proof.
  assert (H : forall kvs, Forall (fun kv => Permutation (vals k (items_of LevelFirst (snd kv))) (values_of k (snd kv))) kvs ->
     Permutation (vals k (kvs ++ flat_map (fun kv => items_of LevelFirst (snd kv)) kvs))
       (flat_map (fun kv => (if str_eqb (fst kv) k then [snd kv] else []) ++ values_of k (snd kv)) kvs)).
  { intros kvs. rewrite vals_app. induction 1 as [|[k' v0] kvs Hv _ IHl]; [constructor|].
    cbn [flat_map fst snd] in *. rewrite vals_app.
    change ((k', v0) :: kvs) with ([(k', v0)] ++ kvs). rewrite vals_app.
    assert (E : vals k [(k', v0)] = if str_eqb k' k then [v0] else []).
    { unfold vals, top_values. cbn. destruct (str_eqb k' k); reflexivity. }
    rewrite E, <- !app_assoc. apply Permutation_app_head.
    rewrite (Permutation_app_comm (vals k kvs)), <- app_assoc.
    apply Permutation_app; [exact Hv|]. rewrite Permutation_app_comm. exact IHl. }
  induction v as [v Hv|kvs IH|kvs IH] using pv_map_ind.
  - destruct v; try constructor; discriminate.
  - cbn [items_of values_of]. now apply H.
  - cbn [items_of values_of]. now apply H.
Qed.

Lemma items_values o k v : Permutation (vals k (items_of o v)) (values_of k v).
Proof. destruct o; [apply items_lf_values|now rewrite items_df_values]. Qed.

Lemma dig_hd o m k : dig_for_value o m k = hd PNone (vals k (items_of o (PMulti m))).
Proof.
  unfold dig_for_value, vals, top_values.
  induction (items_of o (PMulti m)) as [|kv l IH]; [reflexivity|]. cbn [find filter].
  destruct (str_eqb (fst kv) k); [reflexivity|exact IH].
Qed.

Lemma metaget_interior_or o m k d :
  metaget_interior o m k d = or_default (dig_for_value o m k) d.
Proof. unfold metaget_interior, or_default. destruct (dig_for_value o m k); reflexivity. Qed.

(** ** uncached lookup *)
Definition uncached_get (o : order) (m : multidict) (ps : list str) (k : str) (d : pv) : pv :=
  if (count_str k ps =? 0)%nat then d else metaget_interior o m k d.

Lemma dig_df m k : dig_for_value DepthFirst m k = hd PNone (values_of k (PMulti m)).
Proof. now rewrite dig_hd, items_df_values. Qed.
Lemma dig_unique o m k v : values_of k (PMulti m) = [v] -> dig_for_value o m k = v.
Proof.
  intros H. rewrite dig_hd. pose proof (items_values o k (PMulti m)) as Hp. rewrite H in Hp.
  apply Permutation_sym, Permutation_length_1_inv in Hp. now rewrite Hp.
Qed.
Lemma dig_in o m k : values_of k (PMulti m) <> [] -> In (dig_for_value o m k) (values_of k (PMulti m)).
Proof.
  intros H. rewrite dig_hd. eapply Permutation_in; [apply items_values with (o := o)|].
  pose proof (items_values o k (PMulti m)) as Hp.
  destruct (vals k (items_of o (PMulti m))) as [|x l].
  - apply Permutation_nil in Hp. contradiction.
  - now left.
Qed.
Lemma dig_none o m k : values_of k (PMulti m) = [] -> dig_for_value o m k = PNone.
Proof.
  intros H. rewrite dig_hd. pose proof (items_values o k (PMulti m)) as Hp. rewrite H in Hp.
  apply Permutation_sym, Permutation_nil in Hp. now rewrite Hp.
Qed.
Lemma dig_lf_top m k v rest : top_values k m = v :: rest -> dig_for_value LevelFirst m k = v.
Proof.
  intros H. rewrite dig_hd. cbn [items_of]. rewrite vals_app. unfold vals at 1. now rewrite H.
Qed.

(** ** the cache *)
Section Cache.
  Variable o : order.
  Variable py_eqb : pv -> pv -> bool.

  (** mappings the object has had since its caches were last cleared; the list
      is in reverse order of time and never empty *)
  Definition versions_step (vs : list multidict) (op : mop) : list multidict :=
    match op with
    | Edit m => m :: vs
    | Refresh => match vs with m :: _ => [m] | [] => [] end
    | _ => vs
    end.

  Definition cache_inv (vs : list multidict) (s : meta) : Prop :=
    (exists rest, vs = mapping s :: rest) /\
    (forall t d v, In (t, d, v) (gcache s) -> hashable d = true /\ exists m, In m vs /\ v = metaget_interior o m t d) /\
    (forall t v, In (t, v) (bcache s) -> exists m, In m vs /\ v = metablock_interior o m t).

  (** what an answer may be: that of an uncached lookup in one of the versions,
      for a default equal to the one given *)
  Definition answer_ok (vs : list multidict) (ps : list str) (op : mop) (out : mout) : Prop :=
    match op, out with
    | Get t d, OGet r =>
        if (count_str t ps =? 0)%nat then r = Ok d
        else if hashable d then
          exists m d', In m vs /\ hashable d' = true /\ (d' = d \/ py_eqb d' d = true) /\ r = Ok (metaget_interior o m t d')
        else r = Err TypeError
    | Block t, OBlock v =>
        if (count_str t ps =? 0)%nat then v = PNone
        else exists m, In m vs /\ v = metablock_interior o m t
    | Edit _, ONone | Refresh, ONone => True
    | _, _ => False
    end.

  Lemma mstep_ok vs s op : cache_inv vs s ->
    let '(s', out) := mstep o py_eqb s op in
    cache_inv (versions_step vs op) s' /\ params s' = params s /\
    answer_ok (versions_step vs op) (params s) op out.
  Proof.
    intros (Hv & Hg & Hb). destruct op as [t d|t|m|]; cbn [mstep versions_step answer_ok].
    - unfold metaget. destruct (count_str t (params s) =? 0)%nat eqn:Ec.
      { (split; [split; [exact Hv|split; [exact Hg|exact Hb]]|]); split; reflexivity. }
      destruct (hashable d) eqn:Eh.
      2:{ (split; [split; [exact Hv|split; [exact Hg|exact Hb]]|]); split; reflexivity. }
      destruct (find _ (gcache s)) as [[[t' d'] v]|] eqn:Ef.
      + apply find_some in Ef as [Hin Heq]. cbn [fst snd] in *.
        apply andb_true_iff in Heq as [Ht Hd]. apply str_eqb_eq in Ht. subst t'.
        split; [split; [exact Hv|split; [exact Hg|exact Hb]]|]. split; [reflexivity|].
        destruct (Hg _ _ _ Hin) as (Hh & m & Hm & ->). exists m, d'. auto.
      + cbn [mapping params]. split.
        * destruct Hv as [rest Hv]. split; [exists rest; exact Hv|]. split; [|exact Hb].
          cbn [gcache mapping]. intros t' d' v' [E|Hin].
          -- injection E as <- <- <-. split; [exact Eh|]. exists (mapping s). split; [rewrite Hv; now left|reflexivity].
          -- now apply Hg.
        * split; [reflexivity|]. destruct Hv as [rest Hv]. exists (mapping s), d.
          split; [rewrite Hv; now left|]. auto.
    - unfold metablock. destruct (count_str t (params s) =? 0)%nat eqn:Ec.
      { (split; [split; [exact Hv|split; [exact Hg|exact Hb]]|]); split; reflexivity. }
      destruct (find _ (bcache s)) as [[t' v]|] eqn:Ef.
      + apply find_some in Ef as [Hin Heq]. cbn [fst snd] in *. apply str_eqb_eq in Heq. subst t'.
        split; [split; [exact Hv|split; [exact Hg|exact Hb]]|]. split; [reflexivity|].
        destruct (Hb _ _ Hin) as (m & Hm & ->). exists m. auto.
      + cbn [mapping params]. destruct Hv as [rest Hv]. split.
        * split; [exists rest; exact Hv|]. split; [exact Hg|].
          cbn [bcache mapping]. intros t' v' [E|Hin].
          -- injection E as <- <-. exists (mapping s). split; [rewrite Hv; now left|reflexivity].
          -- now apply Hb.
        * split; [reflexivity|]. exists (mapping s). split; [rewrite Hv; now left|reflexivity].
    - split; [|auto]. cbn [mapping gcache bcache]. destruct Hv as [rest Hv]. split; [now exists vs|].
      split.
      + intros t d v Hin. destruct (Hg _ _ _ Hin) as (Hh & m' & Hm' & E). split; [exact Hh|]. exists m'. split; [now right|exact E].
      + intros t v Hin. destruct (Hb _ _ Hin) as (m' & Hm' & E). exists m'. split; [now right|exact E].
    - split; [|auto]. destruct Hv as [rest ->]. split; [now exists []|].
      split; intros; contradiction.
  Qed.

  Fixpoint run_ok (vs : list multidict) (ps : list str) (ops : list mop) (outs : list mout) : Prop :=
    match ops, outs with
    | [], [] => True
    | op :: ops', out :: outs' =>
        answer_ok (versions_step vs op) ps op out /\ run_ok (versions_step vs op) ps ops' outs'
    | _, _ => False
    end.

  Lemma mrun_ok ops : forall vs s, cache_inv vs s ->
    run_ok vs (params s) ops (snd (mrun o py_eqb s ops)).
  Proof.
    induction ops as [|op ops IH]; intros vs s H; [exact I|]. cbn [mrun].
    pose proof (mstep_ok vs s op H) as Hs. destruct (mstep o py_eqb s op) as [s1 out].
    destruct Hs as (H1 & Hp & Ha).
    specialize (IH _ s1 H1). destruct (mrun o py_eqb s1 ops) as [s2 outs]. cbn [snd run_ok] in *.
    split; [exact Ha|]. now rewrite <- Hp.
  Qed.

  Lemma init_inv m ps : cache_inv [m] (meta_init m ps).
  Proof. split; [now exists []|]. split; intros; contradiction. Qed.
End Cache.
