(** Proofs about pointer renaming (model: Model/Pvl.v; spec: Spec/Pvl.v). *)
From Coq Require Import Permutation.
From Verif.Base Require Import Py Val PyFacts.
From Verif.Model Require Import Pvl.
From Verif.Spec Require Import Pvl.

(** ** [multidict_dig_and_edit] as a key editor acts on the list of keys *)
Section KeyEdit.
  Context {St : Type}.
  Variable target : str.
  Variable set_key : St -> str -> res (St * str).

  Fixpoint edit_keys (s : St) (ks : list str) : res (St * list str) :=
    match ks with
    | [] => Ok (s, [])
    | k :: ks' =>
        do r <- (if str_eqb k target then set_key s k else Ok (s, k));
        do r' <- edit_keys (fst r) ks';
        Ok (fst r', snd r :: snd r')
    end.

  Lemma edit_keys_app s a b :
    edit_keys s (a ++ b) =
    do r <- edit_keys s a; do r' <- edit_keys (fst r) b; Ok (fst r', snd r ++ snd r').
  Proof.
    revert s; induction a as [|k a IH]; intros s; cbn [app edit_keys rbind fst snd].
    - destruct (edit_keys s b) as [[s' b']|e]; reflexivity.
    - destruct (if str_eqb k target then set_key s k else Ok (s, k)) as [[s1 k1]|e];
        cbn [rbind fst snd]; [|reflexivity].
      rewrite IH. destruct (edit_keys s1 a) as [[s2 a2]|e]; cbn [rbind fst snd]; [|reflexivity].
      destruct (edit_keys s2 b) as [[s3 b3]|e]; reflexivity.
  Qed.

  Notation dig := (dig_value (fun k _ => str_eqb k target) true true set_key
                             (fun s v => Ok (s, v))).
  Notation digm := (multidict_dig_and_edit (fun k _ => str_eqb k target) true true set_key
                             (fun s v => Ok (s, v))).

  Definition agrees (s : St) (v : pv) (r : res (St * pv)) : Prop :=
    match r with
    | Ok (s', v') => edit_keys s (keys_post v) = Ok (s', keys_post v') /\
                     skeleton v' = skeleton v
    | Err e => edit_keys s (keys_post v) = Err e
    end.

  Lemma dig_multi s kvs : dig s (PMulti kvs) = do r <- digm s kvs; Ok (fst r, PMulti (snd r)).
  Proof.
    cbn [dig_value].
    match goal with |- rbind ?a _ = rbind ?b _ => assert (E : a = b) end.
    { revert s. induction kvs as [|[k v0] l IH]; intros s; [reflexivity|].
      cbn [multidict_dig_and_edit].
      destruct (dig s v0) as [[s1 v1]|e]; cbn [rbind fst snd]; [|reflexivity].
      destruct (edit_item _ _ _ _ _ s1 k v1 (is_multi v0)) as [[s2 m2]|e];
        cbn [rbind fst snd]; [|reflexivity].
      now rewrite IH. }
    now rewrite E.
  Qed.

  Lemma edit_item_key s k v b :
    edit_item (fun k _ => str_eqb k target) true true set_key (fun s v => Ok (s, v)) s k v b =
    do r <- (if str_eqb k target then set_key s k else Ok (s, k)); Ok (fst r, [(snd r, v)]).
  Proof.
    unfold edit_item. destruct (str_eqb k target); [reflexivity|]. cbn. reflexivity.
  Qed.

  Lemma digm_agrees s kvs :
    Forall (fun kv => forall s, agrees s (snd kv) (dig s (snd kv))) kvs ->
    agrees s (PMulti kvs) (do r <- digm s kvs; Ok (fst r, PMulti (snd r))).
  Proof.
    intros H. revert s. induction H as [|[k v] kvs Hv _ IH]; intros s.
    - cbn. split; reflexivity.
    - cbn [multidict_dig_and_edit]. specialize (Hv s). cbn [snd] in Hv.
      unfold agrees in Hv. destruct (dig s v) as [[s1 v1]|e]; cbn [rbind fst snd].
      + destruct Hv as [Hk Hs]. rewrite edit_item_key.
        unfold agrees. cbn [keys_post flat_map fst snd].
        assert (Hpre : edit_keys s (keys_post v ++ [k]) =
          do r <- (if str_eqb k target then set_key s1 k else Ok (s1, k));
          Ok (fst r, keys_post v1 ++ [snd r])).
        { rewrite edit_keys_app, Hk. cbn [rbind fst snd edit_keys].
          destruct (if str_eqb k target then set_key s1 k else Ok (s1, k)) as [[s2 k2]|e];
            reflexivity. }
        destruct (if str_eqb k target then set_key s1 k else Ok (s1, k)) as [[s2 k2]|e];
          cbn [rbind fst snd] in *.
        * specialize (IH s2). unfold agrees in IH.
          destruct (digm s2 kvs) as [[s3 m3]|e]; cbn [rbind fst snd] in *.
          -- destruct IH as [IH1 IH2]. cbn [keys_post] in IH1.
             rewrite edit_keys_app, Hpre. cbn [rbind fst snd]. rewrite IH1. cbn [rbind fst snd].
             cbn [app]. split; [reflexivity|]. cbn in *. injection IH2 as IH2. now rewrite Hs, IH2.
          -- cbn [keys_post] in IH. rewrite edit_keys_app, Hpre. cbn [rbind fst snd].
             now rewrite IH.
        * rewrite edit_keys_app, Hpre. reflexivity.
      + unfold agrees. cbn [keys_post flat_map fst snd].
        rewrite <- app_assoc, edit_keys_app, Hv. reflexivity.
  Qed.

  Lemma dig_agrees v s : agrees s v (dig s v).
  Proof.
    revert s. induction v as [v Hv | kvs IH] using pv_multi_ind; intros s.
    - destruct v; try discriminate; cbn; split; reflexivity.
    - rewrite dig_multi. now apply digm_agrees.
  Qed.

  Lemma digm_spec s kvs : agrees s (PMulti kvs) (do r <- digm s kvs; Ok (fst r, PMulti (snd r))).
  Proof. rewrite <- dig_multi. apply dig_agrees. Qed.
End KeyEdit.

(** ** with the counter: numbering *)
Fixpoint renumber (p : str) (i : nat) (ks : list str) : list str :=
  match ks with
  | [] => []
  | k :: ks' => if str_eqb k p then indexed p i :: renumber p (S i) ks'
                else k :: renumber p i ks'
  end.

Lemma occ_cons k x l :
  occurrences k (x :: l) = ((if str_eqb k x then 1 else 0) + occurrences k l)%nat.
Proof. unfold occurrences. cbn. destruct (str_eqb k x); reflexivity. Qed.
Lemma occ_app k a b : occurrences k (a ++ b) = (occurrences k a + occurrences k b)%nat.
Proof. unfold occurrences. now rewrite filter_app, app_length. Qed.
Lemma str_eqb_sym a b : str_eqb a b = str_eqb b a.
Proof. destruct (str_eqb_spec a b), (str_eqb_spec b a); congruence. Qed.

Lemma edit_keys_index p ks i n :
  edit_keys p set_key_index (seq i n) ks =
  if (occurrences p ks <=? n)%nat
  then Ok (seq (i + occurrences p ks) (n - occurrences p ks), renumber p i ks)
  else Err IndexError.
Proof.
  revert i n; induction ks as [|k ks IH]; intros i n.
  - cbn. now rewrite Nat.add_0_r, Nat.sub_0_r.
  - cbn [edit_keys]. rewrite occ_cons, (str_eqb_sym p k). cbn [renumber].
    destruct (str_eqb_spec k p) as [->|Hne].
    + destruct n as [|n]; cbn [seq set_key_index rbind].
      * destruct (Nat.leb_spec (1 + occurrences p ks) 0); [lia|reflexivity].
      * cbn [fst snd]. rewrite IH. cbn [Nat.add].
        destruct (Nat.leb_spec (occurrences p ks) n);
          destruct (Nat.leb_spec (S (occurrences p ks)) (S n)); try lia; [|reflexivity].
        cbn [rbind fst snd]. f_equal. f_equal. f_equal; lia.
    + cbn [rbind fst snd]. rewrite IH. cbn [Nat.add].
      destruct (occurrences p ks <=? n)%nat; reflexivity.
Qed.

Lemma rename_indexed_spec p n m :
  match rename_indexed p n m with
  | Ok m' => (occurrences p (keys_post (PMulti m)) <= n)%nat /\
             keys_post (PMulti m') = renumber p 0 (keys_post (PMulti m)) /\
             skeleton (PMulti m') = skeleton (PMulti m)
  | Err e => e = IndexError /\ (n < occurrences p (keys_post (PMulti m)))%nat
  end.
Proof.
  unfold rename_indexed.
  pose proof (digm_spec p set_key_index (seq 0 n) m) as H. unfold agrees in H.
  destruct (multidict_dig_and_edit _ _ _ _ _ (seq 0 n) m) as [[s m']|e];
    cbn [rbind fst snd] in *.
  - destruct H as [H1 H2]. rewrite edit_keys_index in H1.
    destruct (Nat.leb_spec (occurrences p (keys_post (PMulti m))) n); [|discriminate].
    injection H1 as _ H1. auto.
  - rewrite edit_keys_index in H.
    destruct (Nat.leb_spec (occurrences p (keys_post (PMulti m))) n); [discriminate|].
    injection H as <-. auto.
Qed.

(** a mapping is determined by its skeleton and its keys *)
Lemma app_inj_len {A} (a b c d : list A) : length a = length c -> a ++ b = c ++ d -> a = c /\ b = d.
Proof.
  revert c; induction a as [|x a IH]; intros [|y c] Hl E; cbn in *; try lia; [auto|].
  injection E as -> E. destruct (IH c) as [-> ->]; auto.
Qed.
Lemma keys_post_length v v' : skeleton v = skeleton v' ->
  length (keys_post v) = length (keys_post v').
Proof.
  revert v'. induction v as [v Hv|kvs IH] using pv_multi_ind; intros v' H.
  - destruct v, v'; try discriminate; reflexivity.
  - destruct v' as [| | | | | | | |kvs']; try discriminate. cbn in H. injection H as H.
    cbn. revert kvs' H. induction IH as [|[k v] kvs Hv _ IHl]; intros [|[k' v'] kvs'] H;
      try discriminate; [reflexivity|].
    cbn in *. injection H as H1 H2. rewrite !app_length. cbn.
    rewrite (Hv v' H1), (IHl kvs' H2). lia.
Qed.
Lemma pv_ext v v' : skeleton v = skeleton v' -> keys_post v = keys_post v' -> v = v'.
Proof.
  revert v'. induction v as [v Hv|kvs IH] using pv_multi_ind; intros v' H Hk.
  - destruct v, v'; try discriminate; cbn in H; congruence.
  - destruct v' as [| | | | | | | |kvs']; try discriminate. cbn in H, Hk. injection H as H.
    f_equal. revert kvs' H Hk. induction IH as [|[k v] kvs Hv _ IHl]; intros [|[k' v'] kvs'] H Hk;
      try discriminate; [reflexivity|].
    cbn in *. injection H as H1 H2. rewrite <- !app_assoc in Hk.
    apply app_inj_len in Hk as [Hk1 Hk2]; [|now apply keys_post_length].
    cbn in Hk2. injection Hk2 as -> Hk2.
    rewrite (Hv v' H1 Hk1), (IHl kvs' H2 Hk2). reflexivity.
Qed.

(** ** facts about indexed names *)
Lemma indexed_longer p i : (length p + 2 <= length (indexed p i))%nat.
Proof.
  unfold indexed, str_of_nat, str_of_N. rewrite !app_length. cbn.
  pose proof (to_base_nonempty 10 (N.of_nat i)).
  destruct (to_base 10 (N.of_nat i)); [contradiction|cbn; lia].
Qed.
Lemma indexed_neq p i : indexed p i <> p.
Proof. intros E. pose proof (indexed_longer p i). rewrite E in H. lia. Qed.
Lemma indexed_inj p i j : indexed p i = indexed p j -> i = j.
Proof.
  unfold indexed. intros E. apply app_inv_head in E. cbn in E. injection E as E.
  now apply str_of_nat_inj.
Qed.

Lemma renumber_none p i ks : occurrences p ks = 0%nat -> renumber p i ks = ks.
Proof.
  revert i; induction ks as [|k ks IH]; intros i H; [reflexivity|].
  rewrite occ_cons in H. cbn. rewrite str_eqb_sym. destruct (str_eqb p k); cbn in H; [lia|].
  now rewrite IH.
Qed.
Lemma occ_zero_iff p ks : occurrences p ks = 0%nat <-> ~ In p ks.
Proof.
  induction ks as [|k ks IH]; [cbn; split; auto|]. rewrite occ_cons. cbn [In].
  destruct (str_eqb_spec p k) as [->|Hne].
  - split; [lia|]. intros H; exfalso; apply H; now left.
  - cbn. rewrite IH. split; intros H; [intros [E|E]; [congruence|contradiction]|tauto].
Qed.
Lemma renumber_self p i ks : occurrences p (renumber p i ks) = 0%nat.
Proof.
  apply occ_zero_iff. revert i; induction ks as [|k ks IH]; intros i; cbn; [auto|].
  destruct (str_eqb_spec k p) as [->|Hne]; cbn.
  - intros [E|E]; [now apply indexed_neq in E|now apply IH in E].
  - intros [E|E]; [congruence|now apply IH in E].
Qed.
Lemma renumber_other p q i ks : q <> p -> (forall j, indexed p j <> q) ->
  occurrences q (renumber p i ks) = occurrences q ks.
Proof.
  intros Hq Hj. revert i; induction ks as [|k ks IH]; intros i; [reflexivity|].
  cbn [renumber]. destruct (str_eqb_spec k p) as [->|Hne]; rewrite !occ_cons, IH.
  - destruct (str_eqb_spec q (indexed p i)) as [E|E]; [exfalso; apply (Hj i); congruence|].
    destruct (str_eqb_spec q p); [contradiction|reflexivity].
  - reflexivity.
Qed.

(** ** numbering several names *)
Lemma number_from_nil before ks : number_from [] before ks = ks.
Proof. revert before; induction ks as [|k ks IH]; intros b; cbn; [reflexivity|now rewrite IH]. Qed.

(** adding one more target at the end of the list of targets *)
Lemma renumber_number T p before ks :
  str_in p T = false ->
  (forall t j, In t T -> indexed t j <> p) ->
  renumber p (occurrences p before) (number_from T before ks) =
  number_from (T ++ [p]) before ks.
Proof.
  intros Hp Hf. revert before; induction ks as [|k ks IH]; intros before; [reflexivity|].
  cbn [number_from].
  assert (Hin : str_in k (T ++ [p]) = str_in k T || str_eqb k p).
  { unfold str_in. rewrite existsb_app. cbn. now rewrite orb_false_r. }
  rewrite Hin. destruct (str_in k T) eqn:Ek; cbn [orb renumber].
  - destruct (str_eqb_spec (indexed k (occurrences k before)) p) as [E|E].
    + exfalso. apply str_in_iff in Ek. now apply (Hf k _ Ek) in E.
    + f_equal. rewrite <- IH. f_equal. rewrite occ_app, occ_cons.
      destruct (str_eqb_spec p k) as [->|Hne]; [congruence|]. cbn. lia.
  - destruct (str_eqb_spec k p) as [->|Hne].
    + f_equal. rewrite <- IH. f_equal. rewrite occ_app, occ_cons, str_eqb_refl. cbn. lia.
    + f_equal. rewrite <- IH. f_equal. rewrite occ_app, occ_cons.
      destruct (str_eqb_spec p k) as [->|Hne']; [congruence|]. cbn. lia.
Qed.

Lemma occ_number_other T q before ks : str_in q T = false ->
  (forall t j, In t T -> indexed t j <> q) ->
  occurrences q (number_from T before ks) = occurrences q ks.
Proof.
  intros Hq Hf. revert before; induction ks as [|k ks IH]; intros before; [reflexivity|].
  cbn [number_from]. rewrite !occ_cons, IH. f_equal.
  destruct (str_in k T) eqn:Ek; [|reflexivity].
  destruct (str_eqb_spec q (indexed k (occurrences k before))) as [E|E].
  - exfalso. apply str_in_iff in Ek. symmetry in E. now apply (Hf k _ Ek) in E.
  - destruct (str_eqb_spec q k) as [->|Hne]; [congruence|reflexivity].
Qed.

(** ** params bookkeeping *)
Lemma remove_first_perm x l l' : remove_first x l = Some l' -> Permutation l (x :: l').
Proof.
  revert l'; induction l as [|y l IH]; intros l' H; [discriminate|]. cbn in H.
  destruct (str_eqb_spec x y) as [->|Hne].
  - injection H as <-. reflexivity.
  - destruct (remove_first x l) as [r|]; [|discriminate]. injection H as <-.
    eapply Permutation_trans; [apply perm_skip, IH; reflexivity|]. apply perm_swap.
Qed.
Lemma remove_first_none x l : remove_first x l = None <-> occurrences x l = 0%nat.
Proof.
  induction l as [|y l IH]; [cbn; split; auto|]. cbn [remove_first]. rewrite occ_cons.
  destruct (str_eqb x y); [split; [discriminate|lia]|].
  destruct (remove_first x l); cbn; rewrite <- IH; split; congruence.
Qed.
Lemma occ_perm k a b : Permutation a b -> occurrences k a = occurrences k b.
Proof.
  induction 1 as [|x a b _ IH|x y l|a b c _ IH1 _ IH2]; [reflexivity| | |congruence].
  - rewrite !occ_cons, IH. reflexivity.
  - rewrite !occ_cons. lia.
Qed.

(** one group: mapping and params after [m] of the [n] iterations *)
Definition dep_ok (p : str) : Prop :=
  depointerize p <> p /\ (forall j, indexed p j <> depointerize p) /\
  (forall j, indexed (depointerize p) j <> p).

Lemma pointer_dep_ok p : startswith $"^" p = true -> dep_ok p.
Proof.
  intros H. unfold dep_ok, depointerize. rewrite H.
  destruct p as [|c p]; [discriminate|]. cbn [skipn]. repeat split.
  - intros E. apply (f_equal (@length ascii)) in E. cbn in E. lia.
  - intros j E. pose proof (indexed_longer (c :: p) j) as Hl. rewrite E in Hl. cbn in Hl. lia.
  - intros j E. pose proof (indexed_longer p j) as Hl. rewrite E in Hl. cbn in Hl. lia.
Qed.

Lemma rename_indexed_noop p n m : occurrences p (keys_post (PMulti m)) = 0%nat ->
  rename_indexed p n m = Ok m.
Proof.
  intros H. pose proof (rename_indexed_spec p n m) as Hs.
  destruct (rename_indexed p n m) as [m'|e].
  - destruct Hs as (_ & Hk & Hsk). rewrite renumber_none in Hk by exact H.
    f_equal. assert (E : PMulti m' = PMulti m) by (apply pv_ext; assumption). congruence.
  - lia.
Qed.

(** the group's effect on the mapping, given success of the first iteration *)
Definition group_keys (p : str) (depoint : bool) (ks : list str) : list str :=
  if depoint then renumber (depointerize p) 0 (renumber p 0 ks) else renumber p 0 ks.

Lemma index_one_first p n depoint ix m ps :
  dep_ok p ->
  occurrences p (keys_post (PMulti m)) = n ->
  (depoint = true -> (occurrences (depointerize p) (keys_post (PMulti m)) <= n)%nat) ->
  (occurrences p ps > 0)%nat ->
  exists m' ps',
    index_one p n depoint ix (m, ps) = Ok (m', ps') /\
    keys_post (PMulti m') = group_keys p depoint (keys_post (PMulti m)) /\
    skeleton (PMulti m') = skeleton (PMulti m).
Proof.
  intros (Hd1 & Hd2 & Hd3) Hn Hd Hps. unfold index_one.
  pose proof (rename_indexed_spec p n m) as H1.
  destruct (rename_indexed p n m) as [m1|e]; [|lia].
  destruct H1 as (_ & Hk1 & Hs1). cbn [rbind].
  destruct (remove_first p (ps ++ [p ++ $"_" ++ str_of_nat ix])) as [ps2|] eqn:Er.
  2:{ apply remove_first_none in Er. rewrite occ_app in Er. lia. }
  destruct depoint.
  - pose proof (rename_indexed_spec (depointerize p) n m1) as H2.
    assert (Ho : occurrences (depointerize p) (keys_post (PMulti m1)) =
                 occurrences (depointerize p) (keys_post (PMulti m))).
    { rewrite Hk1. apply renumber_other; auto. }
    specialize (Hd eq_refl).
    destruct (rename_indexed (depointerize p) n m1) as [m2|e]; [|lia].
    destruct H2 as (_ & Hk2 & Hs2). cbn [rbind].
    destruct (remove_first (depointerize p) _) as [ps4|];
      eexists _, _; (split; [reflexivity|]); (split; [|congruence]);
      unfold group_keys; now rewrite Hk2, Hk1.
  - eexists _, _. split; [reflexivity|]. split; [|exact Hs1]. exact Hk1.
Qed.

(** effect of one iteration on the flat list, whatever the mapping *)
Definition params_step (p : str) (depoint : bool) (ix : nat) (ps : list str)
  : option (list str) :=
  match remove_first p (ps ++ [indexed p ix]) with
  | None => None
  | Some ps2 =>
      if depoint then
        match remove_first (depointerize p) (ps2 ++ [indexed (depointerize p) ix]) with
        | Some ps4 => Some ps4
        | None => Some (ps2 ++ [indexed (depointerize p) ix])
        end
      else Some ps2
  end.

Lemma index_one_later p n depoint ix m ps :
  occurrences p (keys_post (PMulti m)) = 0%nat ->
  (depoint = true -> occurrences (depointerize p) (keys_post (PMulti m)) = 0%nat) ->
  index_one p n depoint ix (m, ps) =
  match params_step p depoint ix ps with
  | Some ps' => Ok (m, ps')
  | None => Err ValueError
  end.
Proof.
  intros H1 H2. unfold index_one, params_step. rewrite rename_indexed_noop by exact H1.
  cbn [rbind]. fold (indexed p ix). destruct (remove_first p _) as [ps2|]; [|reflexivity].
  destruct depoint; [|reflexivity]. rewrite rename_indexed_noop by auto. cbn [rbind].
  fold (indexed (depointerize p) ix).
  destruct (remove_first (depointerize p) _); reflexivity.
Qed.
Lemma index_one_params p n depoint ix m ps m' ps' :
  index_one p n depoint ix (m, ps) = Ok (m', ps') ->
  params_step p depoint ix ps = Some ps'.
Proof.
  unfold index_one, params_step, indexed. cbv zeta.
  destruct (rename_indexed p n m) as [m1|e]; cbn [rbind]; [|discriminate].
  destruct (remove_first p _) as [ps2|]; [|discriminate].
  destruct depoint.
  - destruct (rename_indexed (depointerize p) n m1) as [m2|e]; cbn [rbind]; [|discriminate].
    destruct (remove_first (depointerize p) _); intros E; injection E as _ <-; reflexivity.
  - intros E; injection E as _ <-; reflexivity.
Qed.

(** after the step, up to permutation *)
Lemma params_step_perm p depoint ix ps :
  dep_ok p -> (occurrences p ps > 0)%nat ->
  exists ps', params_step p depoint ix ps = Some ps' /\
    occurrences p ps = S (occurrences p ps') /\
    (depoint = false -> Permutation (indexed p ix :: ps) (p :: ps')) /\
    (depoint = true -> (occurrences (depointerize p) ps > 0)%nat ->
       occurrences (depointerize p) ps = S (occurrences (depointerize p) ps') /\
       Permutation (indexed p ix :: indexed (depointerize p) ix :: ps)
                   (p :: depointerize p :: ps')).
Proof.
  intros (Hd1 & Hd2 & Hd3) Hp. unfold params_step.
  set (d := depointerize p) in *.
  destruct (remove_first p (ps ++ [indexed p ix])) as [ps2|] eqn:E1.
  2:{ apply remove_first_none in E1. rewrite occ_app in E1. lia. }
  pose proof (remove_first_perm _ _ _ E1) as P1.
  assert (P1' : Permutation (indexed p ix :: ps) (p :: ps2)).
  { rewrite <- P1. apply Permutation_cons_append. }
  pose proof (occ_perm p _ _ P1') as O1. rewrite !occ_cons, str_eqb_refl in O1.
  destruct (str_eqb_spec p (indexed p ix)) as [E|_]; [exfalso; now apply (indexed_neq p ix)|].
  pose proof (occ_perm d _ _ P1') as O2. rewrite !occ_cons in O2.
  destruct (str_eqb_spec d (indexed p ix)) as [E|_]; [exfalso; apply (Hd2 ix); congruence|].
  destruct (str_eqb_spec d p) as [E|_]; [exfalso; now apply Hd1|].
  destruct depoint.
  - destruct (remove_first d (ps2 ++ [indexed d ix])) as [ps4|] eqn:E2.
    + pose proof (remove_first_perm _ _ _ E2) as P2.
      assert (P2' : Permutation (indexed d ix :: ps2) (d :: ps4)).
      { rewrite <- P2. apply Permutation_cons_append. }
      exists ps4. split; [reflexivity|].
      pose proof (occ_perm p _ _ P2') as O3. rewrite !occ_cons in O3.
      destruct (str_eqb_spec p (indexed d ix)) as [E|_]; [exfalso; apply (Hd3 ix); congruence|].
      destruct (str_eqb_spec p d) as [E|_]; [exfalso; apply Hd1; congruence|].
      pose proof (occ_perm d _ _ P2') as O4. rewrite !occ_cons, str_eqb_refl in O4.
      destruct (str_eqb_spec d (indexed d ix)) as [E|_]; [exfalso; now apply (indexed_neq d ix)|].
      split; [lia|]. split; [discriminate|]. intros _ _. split; [lia|].
      eapply Permutation_trans; [apply perm_swap|].
      eapply Permutation_trans; [apply perm_skip, P1'|].
      eapply Permutation_trans; [apply perm_swap|].
      apply perm_skip. exact P2'.
    + apply remove_first_none in E2. rewrite occ_app, occ_cons in E2.
      destruct (str_eqb_spec d (indexed d ix)) as [E|_]; [exfalso; now apply (indexed_neq d ix)|].
      cbn in E2.
      eexists. split; [reflexivity|]. rewrite occ_app, occ_cons.
      destruct (str_eqb_spec p (indexed d ix)) as [E|_]; [exfalso; apply (Hd3 ix); congruence|].
      cbn. split; [lia|]. split; [discriminate|]. intros _ Hc. lia.
  - exists ps2. split; [reflexivity|]. split; [lia|]. split; [auto|discriminate].
Qed.

Lemma group_keys_gone p depoint ks : dep_ok p ->
  occurrences p (group_keys p depoint ks) = 0%nat /\
  (depoint = true -> occurrences (depointerize p) (group_keys p depoint ks) = 0%nat).
Proof.
  intros (Hd1 & Hd2 & Hd3). unfold group_keys. destruct depoint.
  - split; [|intros _; apply renumber_self].
    rewrite renumber_other; [apply renumber_self|congruence|exact Hd3].
  - split; [apply renumber_self|discriminate].
Qed.

(** the remaining iterations only touch params *)
Lemma index_loop_later p n depoint ixs m ps :
  dep_ok p ->
  occurrences p (keys_post (PMulti m)) = 0%nat ->
  (depoint = true -> occurrences (depointerize p) (keys_post (PMulti m)) = 0%nat) ->
  (length ixs <= occurrences p ps)%nat ->
  exists ps', index_loop p n depoint ixs (m, ps) = Ok (m, ps') /\
    occurrences p ps = (length ixs + occurrences p ps')%nat /\
    (depoint = false ->
       Permutation (map (indexed p) ixs ++ ps) (repeat p (length ixs) ++ ps')) /\
    (depoint = true -> (length ixs <= occurrences (depointerize p) ps)%nat ->
       Permutation (map (indexed p) ixs ++ map (indexed (depointerize p)) ixs ++ ps)
                   (repeat p (length ixs) ++ repeat (depointerize p) (length ixs) ++ ps')).
Proof.
  intros Hok H1 H2. revert ps; induction ixs as [|ix ixs IH]; intros ps Hlen.
  - exists ps. cbn. repeat split; auto.
  - cbn [index_loop]. rewrite index_one_later by assumption.
    destruct (params_step_perm p depoint ix ps Hok) as (ps1 & E & Ho & Hp1 & Hp2);
      [cbn in Hlen; lia|].
    rewrite E. cbn [rbind].
    destruct (IH ps1) as (ps' & E' & Ho' & Hq1 & Hq2); [cbn in Hlen; lia|].
    exists ps'. split; [exact E'|]. split; [cbn [length]; lia|]. split.
    + intros Hdf. specialize (Hp1 Hdf). specialize (Hq1 Hdf). cbn [map length repeat app].
      eapply Permutation_trans;
        [|apply perm_skip; exact Hq1].
      eapply Permutation_trans; [apply (Permutation_middle (map (indexed p) ixs) ps (indexed p ix))|].
      eapply Permutation_trans; [apply Permutation_app_head; exact Hp1|].
      symmetry. apply Permutation_middle.
    + intros Hdt Hl. cbn [length] in Hl. destruct (Hp2 Hdt) as [Ho2 Hp2']; [lia|].
      specialize (Hq2 Hdt). assert (Hl2 : (length ixs <= occurrences (depointerize p) ps1)%nat) by lia.
      specialize (Hq2 Hl2). set (d := depointerize p) in *.
      cbn [map length repeat app].
      set (A := map (indexed p) ixs) in *. set (B := map (indexed d) ixs) in *.
      assert (S1 : Permutation (indexed p ix :: A ++ indexed d ix :: B ++ ps)
                              (A ++ B ++ indexed p ix :: indexed d ix :: ps)).
      { eapply Permutation_trans; [apply Permutation_middle|].
        apply Permutation_app_head.
        eapply Permutation_trans; [apply perm_swap|].
        eapply Permutation_trans; [apply perm_skip, Permutation_middle|].
        eapply Permutation_trans; [apply Permutation_middle|].
        apply Permutation_app_head. apply perm_swap. }
      assert (S2 : Permutation (A ++ B ++ p :: d :: ps1) (p :: d :: A ++ B ++ ps1)).
      { symmetry. eapply Permutation_trans; [apply perm_skip, Permutation_middle|].
        eapply Permutation_trans; [apply Permutation_middle|].
        apply Permutation_app_head.
        eapply Permutation_trans; [apply perm_skip, Permutation_middle|].
        apply Permutation_middle. }
      eapply Permutation_trans; [exact S1|].
      eapply Permutation_trans; [apply Permutation_app_head, Permutation_app_head, Hp2'|].
      eapply Permutation_trans; [exact S2|].
      eapply Permutation_trans; [apply perm_skip, perm_skip, Hq2|].
      apply perm_skip. apply Permutation_middle.
Qed.

(** ** A whole group *)
Lemma index_one_nil p n depoint ix ps :
  index_one p n depoint ix ([], ps) =
  match params_step p depoint ix ps with
  | Some ps' => Ok ([], ps')
  | None => Err ValueError
  end.
Proof. apply index_one_later; reflexivity. Qed.

Lemma index_loop_nil p n depoint ixs m ps m' ps' :
  index_loop p n depoint ixs (m, ps) = Ok (m', ps') ->
  index_loop p n depoint ixs ([], ps) = Ok ([], ps').
Proof.
  revert m ps; induction ixs as [|ix ixs IH]; intros m ps H; cbn [index_loop] in *.
  - congruence.
  - destruct (index_one p n depoint ix (m, ps)) as [[m1 ps1]|e] eqn:E; [|discriminate].
    cbn [rbind] in H. apply index_one_params in E. rewrite index_one_nil, E. cbn [rbind].
    eapply IH; eauto.
Qed.

Lemma index_group p depoint m ps n :
  dep_ok p -> (0 < n)%nat ->
  occurrences p (keys_post (PMulti m)) = n ->
  (depoint = true -> (occurrences (depointerize p) (keys_post (PMulti m)) <= n)%nat) ->
  (n <= occurrences p ps)%nat ->
  exists m' ps', index_loop p n depoint (seq 0 n) (m, ps) = Ok (m', ps') /\
    keys_post (PMulti m') = group_keys p depoint (keys_post (PMulti m)) /\
    skeleton (PMulti m') = skeleton (PMulti m) /\
    (depoint = false ->
       Permutation (map (indexed p) (seq 0 n) ++ ps) (repeat p n ++ ps')) /\
    (depoint = true -> (n <= occurrences (depointerize p) ps)%nat ->
       Permutation (map (indexed p) (seq 0 n) ++ map (indexed (depointerize p)) (seq 0 n) ++ ps)
                   (repeat p n ++ repeat (depointerize p) n ++ ps')).
Proof.
  intros Hok Hn Ho Hd Hps.
  assert (Hloop : exists m' ps', index_loop p n depoint (seq 0 n) (m, ps) = Ok (m', ps') /\
    keys_post (PMulti m') = group_keys p depoint (keys_post (PMulti m)) /\
    skeleton (PMulti m') = skeleton (PMulti m)).
  { destruct n as [|n']; [lia|]. cbn [seq index_loop].
    destruct (index_one_first p (S n') depoint 0 m ps) as (m1 & ps1 & E & Hk & Hs);
      auto; [lia|].
    rewrite E. cbn [rbind].
    destruct (group_keys_gone p depoint (keys_post (PMulti m)) Hok) as [G1 G2].
    rewrite <- Hk in G1, G2.
    apply index_one_params in E.
    destruct (params_step_perm p depoint 0 ps Hok) as (ps1' & E1 & Ho1 & _); [lia|].
    rewrite E in E1. injection E1 as <-.
    destruct (index_loop_later p (S n') depoint (seq 1 n') m1 ps1 Hok G1 G2)
      as (ps' & E2 & _); [rewrite seq_length; lia|].
    exists m1, ps'. auto. }
  destruct Hloop as (m' & ps' & E & Hk & Hs).
  exists m', ps'. repeat split; auto.
  - intros Hdf. apply index_loop_nil in E.
    destruct (index_loop_later p n depoint (seq 0 n) [] ps Hok) as (ps2 & E2 & _ & Hp & _);
      auto; [rewrite seq_length; lia|].
    rewrite E2 in E. injection E as <-. rewrite seq_length in Hp. auto.
  - intros Hdt Hl. apply index_loop_nil in E.
    destruct (index_loop_later p n depoint (seq 0 n) [] ps Hok) as (ps2 & E2 & _ & _ & Hp);
      auto; [rewrite seq_length; lia|].
    rewrite E2 in E. injection E as <-. rewrite seq_length in Hp. auto.
Qed.

Lemma renumber_perm p i ks :
  Permutation (renumber p i ks ++ repeat p (occurrences p ks))
              (ks ++ map (indexed p) (seq i (occurrences p ks))).
Proof.
  revert i; induction ks as [|k ks IH]; intros i; [constructor|].
  cbn [renumber]. rewrite occ_cons, (str_eqb_sym p k).
  destruct (str_eqb_spec k p) as [->|Hne]; cbn [Nat.add repeat seq map app].
  - eapply Permutation_trans; [apply perm_skip; symmetry; apply Permutation_middle|].
    eapply Permutation_trans; [apply perm_swap|]. apply perm_skip.
    eapply Permutation_trans; [apply perm_skip, IH|]. apply Permutation_middle.
  - apply perm_skip, IH.
Qed.

(** ** All groups *)
Definition dupb (P : list str) (p : str) : bool :=
  (1 <? count_str p P)%nat && negb (contains $"STRUCTURE" p || contains $"PDS_OBJECT" p).
Definition depb (p : str) : bool := negb (contains $"DESCRIPTION" p).
Definition group_targets (P : list str) (p : str) : list str :=
  if dupb P p then p :: (if depb p then [depointerize p] else []) else [].
Definition targets (P gs : list str) : list str := flat_map (group_targets P) gs.

Lemma str_in_app x a b : str_in x (a ++ b) = str_in x a || str_in x b.
Proof. unfold str_in. apply existsb_app. Qed.

Lemma index_groups_spec P gs T m0 m ps :
  Forall (fun p => startswith $"^" p = true) gs ->
  NoDup (T ++ targets P gs) ->
  (forall t t' j, In t (T ++ targets P gs) -> In t' (T ++ targets P gs) -> indexed t j <> t') ->
  (forall p, In p gs -> dupb P p = true ->
     count_str p P = occurrences p (keys_post (PMulti m0)) /\
     (depb p = true -> (occurrences (depointerize p) (keys_post (PMulti m0)) <=
                        occurrences p (keys_post (PMulti m0)))%nat)) ->
  keys_post (PMulti m) = numbered T (keys_post (PMulti m0)) ->
  skeleton (PMulti m) = skeleton (PMulti m0) ->
  Permutation ps (keys_post (PMulti m)) ->
  (forall p, In p gs -> dupb P p = true -> depb p = true ->
     occurrences (depointerize p) (keys_post (PMulti m0)) =
     occurrences p (keys_post (PMulti m0))) ->
  exists m' ps', index_groups P gs (m, ps) = Ok (m', ps') /\
    keys_post (PMulti m') = numbered (T ++ targets P gs) (keys_post (PMulti m0)) /\
    skeleton (PMulti m') = skeleton (PMulti m0) /\
    Permutation ps' (keys_post (PMulti m')).
Proof.
  revert T m ps. induction gs as [|p gs IH]; intros T m ps Hc Hnd Hf Hcnt Hk Hs Hps Hbl.
  - exists m, ps. cbn. rewrite app_nil_r. repeat split; auto.
  - inversion Hc as [|? ? Hcp Hcg]; subst.
    cbn [index_groups]. fold (dupb P p).
    assert (Ht : targets P (p :: gs) = group_targets P p ++ targets P gs) by reflexivity.
    rewrite Ht in *. clear Ht. rewrite app_assoc in *.
    destruct (dupb P p) eqn:Ed.
    2:{ unfold group_targets in *. rewrite Ed in *. cbn [rbind]. rewrite app_nil_r in *.
        apply IH; auto; intros q Hq; [apply Hcnt|apply Hbl]; now right. }
    destruct (Hcnt p (or_introl eq_refl) Ed) as [Hcp1 Hcp2].
    pose proof (pointer_dep_ok p Hcp) as Hok.
    set (ks := keys_post (PMulti m0)) in *.
    set (d := depointerize p) in *.
    assert (HTp : str_in p T = false /\ (forall t j, In t T -> indexed t j <> p)).
    { split.
      - apply str_in_false. intros Hin. unfold group_targets in Hnd. rewrite Ed in Hnd.
        rewrite <- app_assoc in Hnd. apply NoDup_remove_2 in Hnd. apply Hnd.
        apply in_or_app; now left.
      - intros t j Ht. apply Hf; apply in_or_app; left; apply in_or_app; [now left|right].
        unfold group_targets. rewrite Ed. now left. }
    destruct HTp as [HTp1 HTp2].
    assert (Hoccp : occurrences p (keys_post (PMulti m)) = occurrences p ks).
    { rewrite Hk. now apply occ_number_other. }
    assert (Hn2 : (1 < count_str p P)%nat).
    { unfold dupb in Ed. apply andb_true_iff in Ed as [Ed _]. now apply Nat.ltb_lt. }
    fold (depb p).
    assert (HTd : depb p = true -> str_in d T = false /\ (forall t j, In t T -> indexed t j <> d)).
    { intros Hdp. split.
      - apply str_in_false. intros Hin. unfold group_targets in Hnd. rewrite Ed, Hdp in Hnd.
        rewrite <- !app_assoc in Hnd. cbn [app] in Hnd.
        replace (T ++ p :: depointerize p :: targets P gs)
          with ((T ++ [p]) ++ depointerize p :: targets P gs) in Hnd
          by (now rewrite <- app_assoc).
        apply NoDup_remove_2 in Hnd. apply Hnd. apply in_or_app; left. apply in_or_app; now left.
      - intros t j Ht. apply Hf; apply in_or_app; left; apply in_or_app; [now left|right].
        unfold group_targets. rewrite Ed, Hdp. right; now left. }
    assert (Hoccd : depb p = true -> occurrences d (keys_post (PMulti m)) = occurrences d ks).
    { intros Hdp. destruct (HTd Hdp). rewrite Hk. now apply occ_number_other. }
    destruct (index_group p (depb p) m ps (count_str p P)) as (m1 & ps1 & E & Hk1 & Hs1 & Hq1 & Hq2);
      [exact Hok|lia|congruence| | |].
    { intros Hdp. fold d. rewrite (Hoccd Hdp). rewrite Hcp1. apply Hcp2, Hdp. }
    { rewrite (occ_perm p _ _ Hps), Hoccp. lia. }
    rewrite E. cbn [rbind].
    assert (Hk1' : keys_post (PMulti m1) = numbered (T ++ group_targets P p) ks).
    { rewrite Hk1. unfold group_keys, group_targets. rewrite Ed, Hk. fold d.
      destruct (depb p) eqn:Edp.
      - destruct (HTd eq_refl) as [HTd1 HTd2].
        unfold numbered.
        replace (renumber p 0 (number_from T [] ks))
          with (number_from (T ++ [p]) [] ks)
          by (symmetry; apply (renumber_number T p [] ks); assumption).
        replace (T ++ [p; d]) with ((T ++ [p]) ++ [d]) by (now rewrite <- app_assoc).
        apply (renumber_number (T ++ [p]) d [] ks).
        + rewrite str_in_app, HTd1. cbn. destruct (str_eqb_spec d p) as [Edp'|_]; [|reflexivity].
          destruct Hok as [Hok _]. contradiction.
        + intros t j Hin. apply in_app_or in Hin as [Hin|[<-|[]]]; [now apply HTd2|].
          destruct Hok as (_ & Hok & _). apply Hok.
      - apply (renumber_number T p [] ks); assumption. }
    assert (Hps1 : Permutation ps1 (keys_post (PMulti m1))).
    { rewrite Hk1. unfold group_keys. fold d. destruct (depb p) eqn:Edp.
      - assert (Hod : occurrences d ps = count_str p P).
        { rewrite (occ_perm d _ _ Hps), (Hoccd eq_refl), Hcp1.
          apply (Hbl p (or_introl eq_refl) Ed Edp). }
        specialize (Hq2 eq_refl). fold d in Hq2. rewrite Hod in Hq2. specialize (Hq2 (le_n _)).
        set (n := count_str p P) in *.
        set (K := keys_post (PMulti m)) in *.
        pose proof (renumber_perm p 0 K) as R1.
        pose proof (renumber_perm d 0 (renumber p 0 K)) as R2.
        destruct Hok as (Ok1 & Ok2 & Ok3).
        rewrite (renumber_other p d 0 K) in R2 by assumption.
        rewrite Hoccp, <- Hcp1 in R1. fold n in R1.
        assert (HdK : occurrences d K = n).
        { rewrite <- (occ_perm d _ _ Hps). exact Hod. }
        rewrite HdK in R2.
        apply (Permutation_app_inv_l (repeat p n ++ repeat d n)).
        rewrite <- !app_assoc. eapply Permutation_trans; [symmetry; exact Hq2|].
        symmetry.
        eapply Permutation_trans.
        { apply Permutation_app_head. eapply Permutation_trans; [apply Permutation_app_comm|].
          exact R2. }
        eapply Permutation_trans; [rewrite app_assoc; apply Permutation_app_tail;
          eapply Permutation_trans; [apply Permutation_app_comm|exact R1]|].
        eapply Permutation_trans; [rewrite <- app_assoc; apply Permutation_app_comm|].
        rewrite <- app_assoc. apply Permutation_app_head, Permutation_app_head.
        symmetry. exact Hps.
      - specialize (Hq1 eq_refl). set (n := count_str p P) in *.
        set (K := keys_post (PMulti m)) in *.
        pose proof (renumber_perm p 0 K) as R1. rewrite Hoccp, <- Hcp1 in R1. fold n in R1.
        apply (Permutation_app_inv_l (repeat p n)).
        eapply Permutation_trans; [symmetry; exact Hq1|]. symmetry.
        eapply Permutation_trans; [apply Permutation_app_comm|].
        eapply Permutation_trans; [exact R1|].
        eapply Permutation_trans; [apply Permutation_app_comm|].
        apply Permutation_app_head. symmetry. exact Hps. }
    apply IH; auto.
    + intros q Hq. apply Hcnt. now right.
    + congruence.
    + intros q Hq. apply Hbl. now right.
Qed.

(** the mapping alone: needs only "no more blocks than pointers" *)
Lemma params_step_other p depoint ix ps ps' q :
  params_step p depoint ix ps = Some ps' -> q <> p -> q <> depointerize p ->
  (occurrences q ps <= occurrences q ps')%nat.
Proof.
  unfold params_step. intros H Hq1 Hq2.
  destruct (remove_first p (ps ++ [indexed p ix])) as [ps2|] eqn:E1; [|discriminate].
  apply remove_first_perm in E1. apply (occ_perm q) in E1. rewrite occ_app, (occ_cons q p) in E1.
  destruct (str_eqb_spec q p); [contradiction|]. cbn [Nat.add] in E1.
  destruct depoint; [|injection H as <-; lia].
  destruct (remove_first (depointerize p) _) as [ps4|] eqn:E2; injection H as <-.
  - apply remove_first_perm in E2. apply (occ_perm q) in E2. rewrite occ_app, (occ_cons q (depointerize p)) in E2.
    destruct (str_eqb_spec q (depointerize p)); [contradiction|]. cbn [Nat.add] in E2. lia.
  - rewrite occ_app. lia.
Qed.
Lemma index_loop_other p n depoint ixs m ps m' ps' q :
  index_loop p n depoint ixs (m, ps) = Ok (m', ps') -> q <> p -> q <> depointerize p ->
  (occurrences q ps <= occurrences q ps')%nat.
Proof.
  revert m ps; induction ixs as [|ix ixs IH]; intros m ps H Hq1 Hq2; cbn [index_loop] in H.
  - injection H as _ <-. lia.
  - destruct (index_one p n depoint ix (m, ps)) as [[m1 ps1]|e] eqn:E; [|discriminate].
    cbn [rbind] in H. apply index_one_params in E.
    pose proof (params_step_other _ _ _ _ _ q E Hq1 Hq2). specialize (IH _ _ H Hq1 Hq2). lia.
Qed.

Lemma index_groups_map P gs T m0 m ps :
  Forall (fun p => startswith $"^" p = true) gs ->
  NoDup gs -> (forall p, In p gs -> dupb P p = true ->
                 forall q, In q gs -> q <> depointerize p) ->
  NoDup (T ++ targets P gs) ->
  (forall t t' j, In t (T ++ targets P gs) -> In t' (T ++ targets P gs) -> indexed t j <> t') ->
  (forall p, In p gs -> dupb P p = true ->
     count_str p P = occurrences p (keys_post (PMulti m0)) /\
     (depb p = true -> (occurrences (depointerize p) (keys_post (PMulti m0)) <=
                        occurrences p (keys_post (PMulti m0)))%nat)) ->
  keys_post (PMulti m) = numbered T (keys_post (PMulti m0)) ->
  skeleton (PMulti m) = skeleton (PMulti m0) ->
  (forall q, In q gs -> (occurrences q (keys_post (PMulti m0)) <= occurrences q ps)%nat) ->
  exists m' ps', index_groups P gs (m, ps) = Ok (m', ps') /\
    keys_post (PMulti m') = numbered (T ++ targets P gs) (keys_post (PMulti m0)) /\
    skeleton (PMulti m') = skeleton (PMulti m0).
Proof.
  revert T m ps. induction gs as [|p gs IH]; intros T m ps Hc Hgs Hqd Hnd Hf Hcnt Hk Hs Hps.
  - exists m, ps. cbn. rewrite app_nil_r. repeat split; auto.
  - inversion Hc as [|? ? Hcp Hcg]; subst. inversion Hgs as [|? ? Hpg Hgs']; subst.
    cbn [index_groups]. fold (dupb P p).
    assert (Ht : targets P (p :: gs) = group_targets P p ++ targets P gs) by reflexivity.
    rewrite Ht in *. clear Ht. rewrite app_assoc in *.
    assert (Hqd' : forall p0, In p0 gs -> dupb P p0 = true ->
                 forall q, In q gs -> q <> depointerize p0).
    { intros p0 H0 H1 q H2. apply Hqd; auto; now right. }
    destruct (dupb P p) eqn:Ed.
    2:{ unfold group_targets in *. rewrite Ed in *. cbn [rbind]. rewrite app_nil_r in *.
        apply IH; auto; intros q Hq; [apply Hcnt|apply Hps]; now right. }
    destruct (Hcnt p (or_introl eq_refl) Ed) as [Hcp1 Hcp2].
    pose proof (pointer_dep_ok p Hcp) as Hok.
    set (ks := keys_post (PMulti m0)) in *.
    set (d := depointerize p) in *.
    assert (HTp : str_in p T = false /\ (forall t j, In t T -> indexed t j <> p)).
    { split.
      - apply str_in_false. intros Hin. unfold group_targets in Hnd. rewrite Ed in Hnd.
        rewrite <- app_assoc in Hnd. apply NoDup_remove_2 in Hnd. apply Hnd.
        apply in_or_app; now left.
      - intros t j Ht. apply Hf; apply in_or_app; left; apply in_or_app; [now left|right].
        unfold group_targets. rewrite Ed. now left. }
    destruct HTp as [HTp1 HTp2].
    assert (Hoccp : occurrences p (keys_post (PMulti m)) = occurrences p ks).
    { rewrite Hk. now apply occ_number_other. }
    assert (Hn2 : (1 < count_str p P)%nat).
    { unfold dupb in Ed. apply andb_true_iff in Ed as [Ed _]. now apply Nat.ltb_lt. }
    fold (depb p).
    assert (HTd : depb p = true -> str_in d T = false /\ (forall t j, In t T -> indexed t j <> d)).
    { intros Hdp. split.
      - apply str_in_false. intros Hin. unfold group_targets in Hnd. rewrite Ed, Hdp in Hnd.
        rewrite <- !app_assoc in Hnd. cbn [app] in Hnd.
        replace (T ++ p :: depointerize p :: targets P gs)
          with ((T ++ [p]) ++ depointerize p :: targets P gs) in Hnd
          by (now rewrite <- app_assoc).
        apply NoDup_remove_2 in Hnd. apply Hnd. apply in_or_app; left. apply in_or_app; now left.
      - intros t j Ht. apply Hf; apply in_or_app; left; apply in_or_app; [now left|right].
        unfold group_targets. rewrite Ed, Hdp. right; now left. }
    assert (Hoccd : depb p = true -> occurrences d (keys_post (PMulti m)) = occurrences d ks).
    { intros Hdp. destruct (HTd Hdp). rewrite Hk. now apply occ_number_other. }
    destruct (index_group p (depb p) m ps (count_str p P)) as (m1 & ps1 & E & Hk1 & Hs1 & _ & _);
      [exact Hok|lia|congruence| | |].
    { intros Hdp. fold d. rewrite (Hoccd Hdp). rewrite Hcp1. apply Hcp2, Hdp. }
    { rewrite Hcp1. apply Hps. now left. }
    rewrite E. cbn [rbind].
    assert (Hk1' : keys_post (PMulti m1) = numbered (T ++ group_targets P p) ks).
    { rewrite Hk1. unfold group_keys, group_targets. rewrite Ed, Hk. fold d.
      destruct (depb p) eqn:Edp.
      - destruct (HTd eq_refl) as [HTd1 HTd2].
        unfold numbered.
        replace (renumber p 0 (number_from T [] ks))
          with (number_from (T ++ [p]) [] ks)
          by (symmetry; apply (renumber_number T p [] ks); assumption).
        replace (T ++ [p; d]) with ((T ++ [p]) ++ [d]) by (now rewrite <- app_assoc).
        apply (renumber_number (T ++ [p]) d [] ks).
        + rewrite str_in_app, HTd1. cbn. destruct (str_eqb_spec d p) as [Edp'|_]; [|reflexivity].
          destruct Hok as [Hok _]. contradiction.
        + intros t j Hin. apply in_app_or in Hin as [Hin|[<-|[]]]; [now apply HTd2|].
          destruct Hok as (_ & Hok & _). apply Hok.
      - apply (renumber_number T p [] ks); assumption. }
    apply IH; auto.
    + intros q Hq. apply Hcnt. now right.
    + congruence.
    + intros q Hq. etransitivity; [apply Hps; now right|].
      eapply index_loop_other; [exact E| |].
      * intros ->. contradiction.
      * apply (Hqd p (or_introl eq_refl) Ed). now right.
Qed.

(** ** The walk finds every key *)
Definition width (l : multidict) : nat :=
  fold_right (fun kv n => Nat.max (depth (snd kv)) n) 0%nat l.
Lemma depth_multi l : depth (PMulti l) = S (width l).
Proof. reflexivity. Qed.
Lemma width_cons kv l : width (kv :: l) = Nat.max (depth (snd kv)) (width l).
Proof. reflexivity. Qed.

Lemma items_df_perm fuel l : (depth (PMulti l) <= fuel)%nat ->
  Permutation (map fst (items_df l fuel)) (keys_post (PMulti l)).
Proof.
  revert l; induction fuel as [|f IH]; intros l H; [rewrite depth_multi in H; lia|].
  rewrite depth_multi in H. cbn [items_df keys_post].
  induction l as [|[k v] l IHl]; [constructor|]. rewrite width_cons in H. cbn [snd] in H.
  cbn [flat_map fst snd]. rewrite map_app. cbn [map fst].
  apply Permutation_app; [|apply IHl; lia].
  assert (Hv : Permutation (map fst (match v with PMulti kvs => items_df kvs f | _ => [] end))
                 (keys_post v)).
  { destruct v; try constructor. apply IH. lia. }
  eapply Permutation_trans; [apply perm_skip, Hv|]. apply Permutation_cons_append.
Qed.
Lemma items_lf_perm fuel l : (depth (PMulti l) <= fuel)%nat ->
  Permutation (map fst (items_lf l fuel)) (keys_post (PMulti l)).
Proof.
  revert l; induction fuel as [|f IH]; intros l H; [rewrite depth_multi in H; lia|].
  rewrite depth_multi in H. cbn [items_lf keys_post].
  induction l as [|[k v] l IHl]; [constructor|]. rewrite width_cons in H. cbn [snd] in H.
  cbn [flat_map fst snd app]. cbn [map fst].
  assert (Hv : Permutation (map fst (match v with PMulti kvs => items_lf kvs f | _ => [] end))
                 (keys_post v)).
  { destruct v; try constructor. apply IH. lia. }
  rewrite <- app_assoc. cbn [app].
  eapply Permutation_trans; [|apply Permutation_middle]. apply perm_skip.
  rewrite !map_app.
  assert (IHl' := IHl ltac:(lia)). rewrite map_app in IHl'.
  eapply Permutation_trans; [rewrite app_assoc; apply Permutation_app_tail, Permutation_app_comm|].
  rewrite <- app_assoc. apply Permutation_app; [exact Hv|exact IHl'].
Qed.
Lemma walk_perm o m : Permutation (map fst (walk o m)) (keys_post (PMulti m)).
Proof. destruct o; [apply items_lf_perm|apply items_df_perm]; reflexivity. Qed.

Lemma count_occ x l : count_str x l = occurrences x l.
Proof. reflexivity. Qed.
Lemma occ_filter f x l : f x = true -> occurrences x (filter f l) = occurrences x l.
Proof.
  intros Hf. induction l as [|y l IH]; [reflexivity|]. cbn [filter].
  destruct (f y) eqn:E; rewrite ?occ_cons, IH; [reflexivity|].
  destruct (str_eqb_spec x y) as [->|]; [congruence|reflexivity].
Qed.
Lemma pointers_count o m p : startswith $"^" p = true ->
  count_str p (get_pds3_pointers o m) = occurrences p (keys_post (PMulti m)).
Proof.
  intros H. rewrite count_occ. unfold get_pds3_pointers. rewrite occ_filter by exact H.
  apply occ_perm, walk_perm.
Qed.

Lemma nodup_str_in x l : In x (nodup_str l) <-> In x l.
Proof.
  induction l as [|y l IH]; [reflexivity|]. cbn. rewrite filter_In, IH, negb_true_iff.
  destruct (str_eqb_spec x y) as [->|Hne].
  - split; auto.
  - split; [intros [->|[H _]]; auto|intros [->|H]; [contradiction|right; auto]].
Qed.
Lemma nodup_str_NoDup l : NoDup (nodup_str l).
Proof.
  induction l as [|y l IH]; cbn; constructor.
  - rewrite filter_In, str_eqb_refl. intros [_ H]; discriminate.
  - now apply NoDup_filter.
Qed.
Lemma in_pointers o m p : In p (get_pds3_pointers o m) <->
  In p (keys_post (PMulti m)) /\ startswith $"^" p = true.
Proof.
  unfold get_pds3_pointers. rewrite filter_In. split; intros [H1 H2]; split; auto.
  - eapply Permutation_in; [apply walk_perm|exact H1].
  - eapply Permutation_in; [symmetry; apply (walk_perm o)|exact H1].
Qed.

(** ** connection with the declarative conditions *)
Lemma pointer_iff p : startswith $"^" p = true <-> is_pointer p.
Proof. apply startswith_iff. Qed.
Lemma mentions_iff sub p : contains sub p = true <-> mentions sub p.
Proof. apply contains_iff. Qed.
Lemma mentions_false sub p : contains sub p = false <-> ~ mentions sub p.
Proof. rewrite <- mentions_iff. destruct (contains sub p); intuition congruence. Qed.
Lemma object_name_dep p : is_pointer p -> depointerize p = object_name p.
Proof. intros [t ->]. reflexivity. Qed.

Lemma dupb_iff o m p : startswith $"^" p = true ->
  dupb (get_pds3_pointers o m) p = true <-> renamed_pointer (keys_post (PMulti m)) p.
Proof.
  intros Hp. unfold dupb, renamed_pointer.
  rewrite pointers_count by exact Hp.
  rewrite andb_true_iff, Nat.ltb_lt, negb_true_iff, orb_false_iff, !mentions_false.
  apply pointer_iff in Hp. unfold lt. tauto.
Qed.

Section Final.
  Variable o : order.
  Variable m : multidict.
  Let ks := keys_post (PMulti m).
  Let P := get_pds3_pointers o m.
  Let gs := nodup_str P.

  Lemma gs_pointer p : In p gs -> startswith $"^" p = true.
  Proof. unfold gs. rewrite nodup_str_in. unfold P. rewrite in_pointers. tauto. Qed.

  Lemma targets_iff k : In k (targets P gs) <-> renamed_key ks k.
  Proof.
    unfold targets. rewrite in_flat_map. split.
    - intros (p & Hp & Hk). pose proof (gs_pointer p Hp) as Hc.
      unfold group_targets in Hk. destruct (dupb P p) eqn:Ed; [|contradiction].
      apply (dupb_iff o m p Hc) in Ed. destruct Hk as [<-|Hk]; [now left|].
      destruct (depb p) eqn:Edp; [|contradiction]. destruct Hk as [<-|[]].
      right. exists p. split; [exact Ed|]. unfold depb in Edp. rewrite negb_true_iff in Edp.
      apply mentions_false in Edp. split; [exact Edp|]. apply object_name_dep, pointer_iff, Hc.
    - assert (Hin : forall p, renamed_pointer ks p -> In p gs /\ dupb P p = true).
      { intros p Hp. pose proof Hp as (H1 & H2 & _). apply pointer_iff in H1. split.
        - unfold gs. rewrite nodup_str_in. unfold P. rewrite in_pointers. split; [|exact H1].
          destruct (in_dec str_eq_dec p (keys_post (PMulti m))) as [Hi|Hi]; [exact Hi|].
          apply occ_zero_iff in Hi. unfold ks in H2. lia.
        - now apply dupb_iff. }
      intros [Hk|(p & Hp & Hd & ->)].
      + destruct (Hin k Hk) as [H1 H2]. exists k. split; [exact H1|].
        unfold group_targets. rewrite H2. now left.
      + destruct (Hin p Hp) as [H1 H2]. exists p. split; [exact H1|].
        unfold group_targets. rewrite H2. unfold depb.
        apply mentions_false in Hd. rewrite Hd. cbn [negb]. right. left.
        apply object_name_dep. apply Hp.
  Qed.

  Hypothesis Hclash : no_clash ks.

  Lemma obj_inj p q : is_pointer p -> is_pointer q -> object_name p = object_name q -> p = q.
  Proof. intros [t ->] [u ->]. cbn. congruence. Qed.

  Lemma targets_NoDup l : NoDup l -> (forall p, In p l -> In p gs) -> NoDup (targets P l).
  Proof.
    induction 1 as [|p l Hp Hl IH]; intros Hin; [constructor|].
    cbn [targets flat_map]. fold (targets P l).
    assert (IHl : NoDup (targets P l)) by (apply IH; intros q Hq; apply Hin; now right).
    unfold group_targets. destruct (dupb P p) eqn:Ed; [|exact IHl].
    pose proof (gs_pointer p (Hin p (or_introl eq_refl))) as Hcp.
    apply (dupb_iff o m p Hcp) in Ed. fold ks in Ed.
    assert (Hdep : depointerize p = object_name p) by (apply object_name_dep, Ed).
    assert (Hsep : forall q, In q l -> dupb P q = true -> renamed_pointer ks q /\ q <> p /\
                     depointerize q = object_name q).
    { intros q Hq Hdq. pose proof (gs_pointer q (Hin q (or_intror Hq))) as Hcq.
      apply (dupb_iff o m q Hcq) in Hdq. split; [exact Hdq|]. split.
      - intros ->. contradiction.
      - apply object_name_dep, Hdq. }
    assert (Hnp : ~ In p (targets P l)).
    { unfold targets. rewrite in_flat_map. intros (q & Hq & Hk). unfold group_targets in Hk.
      destruct (dupb P q) eqn:Eq; [|contradiction].
      destruct (Hsep q Hq Eq) as (Hrq & Hne & Hdq). destruct Hk as [->|Hk]; [contradiction|].
      destruct (depb q); [|contradiction]. destruct Hk as [<-|[]].
      rewrite Hdq in Hcp. apply pointer_iff in Hcp. destruct Hclash as [_ H2].
      now apply (H2 q Hrq). }
    assert (Hnd : ~ In (depointerize p) (targets P l)).
    { rewrite Hdep. unfold targets. rewrite in_flat_map. intros (q & Hq & Hk). unfold group_targets in Hk.
      destruct (dupb P q) eqn:Eq; [|contradiction].
      destruct (Hsep q Hq Eq) as (Hrq & Hne & Hdq). destruct Hk as [Hk|Hk].
      - destruct Hclash as [_ H2]. apply (H2 p Ed). rewrite <- Hk. apply Hrq.
      - destruct (depb q); [|contradiction]. destruct Hk as [Hk|[]].
        apply Hne. apply obj_inj; [apply Hrq|apply Ed|congruence]. }
    destruct (depb p); cbn [app].
    - constructor.
      + intros [E|E]; [|contradiction]. destruct (pointer_dep_ok p Hcp) as [Hk _]. contradiction.
      + constructor; assumption.
    - constructor; assumption.
  Qed.

  Lemma indexed_app a p j : indexed (a ++ p) j = a ++ indexed p j.
  Proof. unfold indexed. now rewrite <- app_assoc. Qed.

  Lemma targets_fresh t t' j : In t (targets P gs) -> In t' (targets P gs) -> indexed t j <> t'.
  Proof.
    rewrite !targets_iff. destruct Hclash as [H1 H2].
    intros [Ht|(p & Hp & _ & ->)] [Ht'|(q & Hq & _ & ->)] E.
    - now apply (H1 t t' j Ht Ht').
    - apply (H2 q Hq). rewrite <- E. destruct Ht as [[u ->] _]. exists (indexed u j). apply indexed_app.
    - apply (H2 p Hp). destruct Ht' as [[u ->] _]. 
      destruct Hp as [[v ->] _]. cbn [app object_name] in *. 
      destruct v as [|c v].
      + unfold indexed in E. cbn in E. discriminate.
      + unfold indexed in E. cbn in E. injection E as -> _. exists v. reflexivity.
    - destruct Hp as [[u ->] Hp]. destruct Hq as [[v ->] Hq]. change (indexed u j = v) in E.
      apply (H1 ($"^" ++ u) ($"^" ++ v) j).
      + split; [now exists u|exact Hp].
      + split; [now exists v|exact Hq].
      + rewrite indexed_app. now rewrite E.
  Qed.

  Lemma gs_counts : blocks_at_most ks -> forall p, In p gs -> dupb P p = true ->
     count_str p P = occurrences p ks /\
     (depb p = true -> (occurrences (depointerize p) ks <= occurrences p ks)%nat).
  Proof.
    intros Hb p Hp Hd. pose proof (gs_pointer p Hp) as Hc. split.
    - now apply pointers_count.
    - intros Hdp. apply (dupb_iff o m p Hc) in Hd. rewrite object_name_dep by apply Hd.
      apply Hb; [exact Hd|]. unfold depb in Hdp. rewrite negb_true_iff in Hdp.
      now apply mentions_false.
  Qed.

  Lemma numbered_ext T T' l : (forall k, str_in k T = str_in k T') -> numbered T l = numbered T' l.
  Proof.
    intros H. unfold numbered. generalize (@nil str). induction l as [|k l IH]; intros b; [reflexivity|].
    cbn. now rewrite H, IH.
  Qed.

  Theorem index_mapping ps : blocks_at_most ks ->
    (forall p, is_pointer p -> (occurrences p ks <= occurrences p ps)%nat) ->
    exists m' ps' T, index_duplicate_pointers P m ps = Ok (m', ps') /\
      (forall k, In k T <-> renamed_key ks k) /\
      keys_post (PMulti m') = numbered T ks /\ skeleton (PMulti m') = skeleton (PMulti m).
  Proof.
    intros Hb Hps.
    destruct (index_groups_map P gs [] m m ps) as (m' & ps' & E & Hk & Hs).
    - apply Forall_forall. apply gs_pointer.
    - apply nodup_str_NoDup.
    - intros p Hp Hd q Hq E. pose proof (gs_pointer p Hp) as Hc.
      apply (dupb_iff o m p Hc) in Hd. rewrite object_name_dep in E by apply Hd.
      destruct Hclash as [_ H2]. apply (H2 p Hd). rewrite <- E. apply pointer_iff, gs_pointer, Hq.
    - apply targets_NoDup; [apply nodup_str_NoDup|auto].
    - intros t t' j. apply targets_fresh.
    - now apply gs_counts.
    - unfold numbered. now rewrite number_from_nil.
    - reflexivity.
    - intros q Hq. apply Hps, pointer_iff, gs_pointer, Hq.
    - exists m', ps', (targets P gs). split; [exact E|]. split; [apply targets_iff|]. auto.
  Qed.

  Theorem index_params ps : blocks_match ks -> Permutation ps ks ->
    exists m' ps' T, index_duplicate_pointers P m ps = Ok (m', ps') /\
      (forall k, In k T <-> renamed_key ks k) /\
      keys_post (PMulti m') = numbered T ks /\ skeleton (PMulti m') = skeleton (PMulti m) /\
      Permutation ps' (keys_post (PMulti m')).
  Proof.
    intros Hb Hps.
    assert (Hb' : blocks_at_most ks) by (intros p H1 H2; rewrite (Hb p H1 H2); lia).
    destruct (index_groups_spec P gs [] m m ps) as (m' & ps' & E & Hk & Hs & Hp).
    - apply Forall_forall. apply gs_pointer.
    - apply targets_NoDup; [apply nodup_str_NoDup|auto].
    - intros t t' j. apply targets_fresh.
    - now apply gs_counts.
    - unfold numbered. now rewrite number_from_nil.
    - reflexivity.
    - exact Hps.
    - intros p Hp Hd Hdp. pose proof (gs_pointer p Hp) as Hc.
      apply (dupb_iff o m p Hc) in Hd. rewrite object_name_dep by apply Hd.
      apply Hb; [exact Hd|]. unfold depb in Hdp. rewrite negb_true_iff in Hdp.
      now apply mentions_false.
    - exists m', ps', (targets P gs). split; [exact E|]. split; [apply targets_iff|]. auto.
  Qed.
End Final.

(** no duplicates: nothing happens *)
Lemma index_no_dups o m ps :
  (forall p, ~ renamed_pointer (keys_post (PMulti m)) p) ->
  index_duplicate_pointers (get_pds3_pointers o m) m ps = Ok (m, ps).
Proof.
  intros H. unfold index_duplicate_pointers.
  assert (Hg : forall p, In p (nodup_str (get_pds3_pointers o m)) -> startswith $"^" p = true).
  { intros p. rewrite nodup_str_in, in_pointers. tauto. }
  induction (nodup_str (get_pds3_pointers o m)) as [|p gs IH]; [reflexivity|].
  cbn [index_groups]. fold (dupb (get_pds3_pointers o m) p).
  destruct (dupb (get_pds3_pointers o m) p) eqn:E.
  - exfalso. apply (H p). apply (dupb_iff o m p); [apply Hg; now left|exact E].
  - cbn [rbind]. apply IH. intros q Hq. apply Hg. now right.
Qed.
