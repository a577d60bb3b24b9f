(** Properties C34-C36: the life cycle of Data objects. *)
From Verif.Base Require Import Py Val PyFacts.
From Verif.Model Require Import Dispatch Data.
From Verif.Spec Require Import Dispatch Data.
From Verif.Proofs Require Import Data.
From Verif.Properties Require Dispatch.
Definition ignored_iff := Properties.Dispatch.C33_ignored.

Section Life.
  Context {V : Type} (builtin : str -> option V) (loader : state V -> str -> outcome V) (dump : state V -> str -> option exn).

  (** * C34 *)
  (** a name that is not listed: KeyError from load, AttributeError from access; nothing happens *)
  Theorem C34_unknown fuel (st : state V) n reload : ~ In n (listed st) -> n <> $"all" ->
    load builtin loader fuel st n reload = Some (st, Err KeyError) /\
    (attr st n = None -> plain_name builtin n -> access builtin loader fuel st n = Some (st, Err AttributeError)).
  Proof.
    intros N Na. unfold load, load_one, access, lookup. rewrite (str_eqb_ne _ _ Na), (str_in_ne _ _ N). cbn [negb]. split; [reflexivity|].
    intros A B. rewrite A, B. reflexivity.
  Qed.
  (** an object that is loaded: AlreadyLoadedError from load; access gives it, calling no loader *)
  Theorem C34_already fuel (st : state V) n v : In n (listed st) -> n <> $"all" -> attr st n = Some v ->
    load builtin loader fuel st n false = Some (st, Err AlreadyLoadedError) /\
    access builtin loader fuel st n = Some (st, Ok v).
  Proof.
    intros I Na A. unfold load, load_one, access, in_dir, lookup. rewrite (str_eqb_ne _ _ Na), A.
    rewrite (proj2 (str_in_iff n (listed st)) I). split; reflexivity.
  Qed.
  (** a first load, or a reload: one loading attempt; the object gets the value the loader
      provides (if it provides one), the objects that come with it get theirs and are listed;
      nothing else changes *)
  Theorem C34_loads fuel (st : state V) n reload : returns_dicts loader -> In n (listed st) -> n <> $"all" ->
    reload = true \/ (attr st n = None /\ plain_name builtin n) ->
    exists st' r, load builtin loader fuel st n reload = Some (st', r) /\
      calls st' = n :: calls st /\
      (forall v, provides (loader st n) n v -> attr st' n = Some v) /\
      (forall k v, brings (loader st n) k v -> attr st' k = Some v /\ In k (listed st')) /\
      (forall k, k <> n -> (forall v, ~ brings (loader st n) k v) -> attr st' k = attr st k) /\
      ((forall v, ~ provides (loader st n) n v) -> attr st' n = attr st n) /\
      (exists more, listed st' = listed st ++ more /\ forall k, In k more -> exists v, brings (loader st n) k v) /\
      (r = Ok tt \/ exists e, r = Err e /\ loader st n = Escaped e).
  Proof.
    intros D I Na Hr. unfold load. rewrite (str_eqb_ne _ _ Na). unfold load_one. rewrite (proj2 (str_in_iff n (listed st)) I). cbn [negb].
    replace (in_dir builtin st n && negb reload) with false.
    2:{ symmetry. destruct Hr as [->|[A B]]; [now rewrite andb_false_r|]. unfold in_dir, lookup. unfold plain_name in B. now rewrite A, B. }
    destruct (run_loader loader st n) as [st' r] eqn:E. exists st', r. split; [reflexivity|].
    destruct (run_spec loader D _ _ _ _ E) as (C & (more & Im & _ & Hm) & Hin & A & R). split; [exact C|]. split; [|split; [|split; [|split; [|split]]]].
    - intros v P. rewrite A. apply (new_value_provides loader D) in P. now rewrite P.
    - intros k v B. split; [eapply brought_loaded; eauto|now apply (Hin k v)].
    - intros k Nk Hk. rewrite A. destruct (new_value (loader st n) n k) as [v|] eqn:En; [|reflexivity].
      apply (new_value_brings loader D) in En; [|exact Nk]. now apply Hk in En.
    - intros Hp. rewrite A. destruct (new_value (loader st n) n n) as [v|] eqn:En; [|reflexivity].
      apply (new_value_provides loader D) in En. now apply Hp in En.
    - exists more. auto.
    - exact R.
  Qed.
  (** over any history: the names listed stay, in order, without repetitions; new ones are
      those of objects that came along with others *)
  Lemma load_ok fuel st n reload st' r : returns_dicts loader -> none_called_all loader st ->
    load builtin loader fuel st n reload = Some (st', r) -> run_ok builtin st st' /\ none_called_all loader st'.
  Proof.
    intros D [N1 N2] H. unfold load in H. destruct (str_eqb n $"all").
    - destruct (load_all_spec builtin loader D N2 _ _ _ _ _ N1 H) as (R & N & _). now split.
    - injection H as H. pose proof (load_one_ok builtin loader D _ _ _ _ _ H) as R. split; [exact R|]. split; [|exact N2].
      unfold load_one in H. destruct (negb _); [injection H as <- _; exact N1|]. destruct (_ && _); [injection H as <- _; exact N1|].
      eapply run_no_all; eauto.
  Qed.
  Lemma access_ok fuel st n st' r : returns_dicts loader -> none_called_all loader st ->
    access builtin loader fuel st n = Some (st', r) -> run_ok builtin st st' /\ none_called_all loader st'.
  Proof.
    intros D N H. unfold access in H. destruct (lookup builtin st n); [injection H as <- _; split; [apply run_ok_refl|exact N]|].
    destruct (negb _); [injection H as <- _; split; [apply run_ok_refl|exact N]|].
    destruct (load builtin loader fuel st n false) as [[s1 r1]|] eqn:E; [|discriminate].
    assert (s1 = st') by (destruct r1 as [a|e]; [destruct (lookup builtin s1 n)|]; injection H as <- _; reflexivity). subst.
    eapply load_ok; eauto.
  Qed.
  Lemma purge_listed st names st' r : purge_browse builtin dump st names = (st', r) -> listed st' = listed st /\ calls st' = calls st.
  Proof.
    revert st. induction names as [|n names IH]; intros st; cbn [purge_browse]; [intros H; injection H as <- _; auto|].
    destruct (in_dir builtin st n); [|apply IH]. destruct (dump st n); [intros H; injection H as <- _; auto|].
    unfold delattr. destruct (attr st n); [|intros H; injection H as <- _; auto]. intros H. apply IH in H. exact H.
  Qed.
  Theorem C34_history st h st' : returns_dicts loader -> none_called_all loader st -> happens builtin loader dump st h st' ->
    prefix (listed st) (listed st') /\ (NoDup (listed st) -> NoDup (listed st')) /\
    forall k, In k (listed st') -> In k (listed st) \/ exists s n v, brings (loader s n) k v.
  Proof.
    intros D N H. revert N. induction H as [st|st st1 st2 fuel q a h P H IH]; intros N; [repeat split; auto using prefix_refl|].
    assert (S : (prefix (listed st) (listed st1) /\ (NoDup (listed st) -> NoDup (listed st1)) /\
      forall k, In k (listed st1) -> In k (listed st) \/ exists s n v, brings (loader s n) k v) /\ none_called_all loader st1).
    { unfold perform in P. assert (B : forall s s1 fu n r0 r, none_called_all loader s -> load builtin loader fu s n r0 = Some (s1, r) ->
        forall k, In k (listed s1) -> In k (listed s) \/ exists s n v, brings (loader s n) k v).
      { clear -D. intros s s1 fu n r0 r [N1 N2] HL. unfold load in HL. destruct (str_eqb n $"all").
        - revert HL. generalize 0%nat as i. revert s s1 r N1. induction fu as [|fu IHf]; intros s s1 r N1 i HL; [discriminate|].
          cbn [load_all_from] in HL. destruct (nth_error (listed s) i) as [nm|] eqn:En; [|injection HL as <- _; auto].
          destruct (ignored_by_default nm); [eapply IHf; eauto|].
          rewrite str_eqb_ne in HL by (intros ->; apply N1; now apply nth_error_In in En).
          destruct (load_one builtin loader s nm false) as [s2 r2] eqn:E2.
          assert (B2 : forall k, In k (listed s2) -> In k (listed s) \/ exists s n v, brings (loader s n) k v).
          { unfold load_one in E2. destruct (negb _); [injection E2 as <- _; auto|]. destruct (_ && _); [injection E2 as <- _; auto|].
            destruct (run_spec loader D _ _ _ _ E2) as (_ & (more & Im & _ & Hm) & _). intros k Hk. rewrite Im in Hk.
            apply in_app_or in Hk as [Hk|Hk]; [now left|]. right. exists s, nm. now apply Hm. }
          assert (N2' : ~ In $"all" (listed s2)) by (intros Hk; destruct (B2 _ Hk) as [Hk'|(s0 & n0 & v & Hb)]; [contradiction|now apply N2 in Hb]).
          assert (Cont : load_all_from builtin loader fu s2 (S i) = Some (s1, r) -> forall k, In k (listed s1) -> In k (listed s) \/ exists s n v, brings (loader s n) k v).
          { intros HL' k Hk. destruct (IHf _ _ _ N2' _ HL' k Hk) as [Hk'|Hk']; auto. }
          destruct r2 as [u|e]; [now apply Cont|]. destruct e; try (injection HL as <- _; exact B2). now apply Cont.
        - injection HL as HL. unfold load_one in HL. destruct (negb _); [injection HL as <- _; auto|]. destruct (_ && _); [injection HL as <- _; auto|].
          destruct (run_spec loader D _ _ _ _ HL) as (_ & (more & Im & _ & Hm) & _). intros k Hk. rewrite Im in Hk.
          apply in_app_or in Hk as [Hk|Hk]; [now left|]. right. exists s, n. now apply Hm. }
      destruct q as [n r0|n|].
      - destruct (load builtin loader fuel st n r0) as [[s1 r]|] eqn:E; [|discriminate].
        assert (s1 = st1) by (destruct r; injection P as <- _; reflexivity). subst.
        destruct (load_ok _ _ _ _ _ _ D N E) as [(P1 & P2 & _) N']. split; [|exact N']. repeat split; auto. eapply B; eauto.
      - destruct (access builtin loader fuel st n) as [[s1 r]|] eqn:E; [|discriminate].
        assert (s1 = st1) by (destruct r; injection P as <- _; reflexivity). subst.
        destruct (access_ok _ _ _ _ _ D N E) as [(P1 & P2 & _) N']. split; [|exact N']. repeat split; auto.
        unfold access in E. destruct (lookup builtin st n); [injection E as <- _; auto|]. destruct (negb _); [injection E as <- _; auto|].
        destruct (load builtin loader fuel st n false) as [[s2 r2]|] eqn:E2; [|discriminate].
        assert (s2 = st1) by (destruct r2 as [u|e]; [destruct (lookup builtin s2 n)|]; injection E as <- _; reflexivity). subst. eapply B; eauto.
      - destruct (purge_browse builtin dump st (listed st)) as [s1 r] eqn:E.
        assert (s1 = st1) by (destruct r; injection P as <- _; reflexivity). subst. apply purge_listed in E as [E _]. unfold none_called_all. rewrite E.
        repeat split; auto using prefix_refl; apply N. }
    destruct S as ((S1 & S2 & S3) & N'). destruct (IH N') as (I1 & I2 & I3). repeat split; [eapply prefix_trans; eauto|auto|].
    intros k Hk. destruct (I3 k Hk) as [Hk'|Hk']; auto.
  Qed.
  (** a loaded object keeps its value until it is reloaded or purged, if loaders bring along
      only objects that are not loaded yet *)
  Definition only_new : Prop := forall st n k v, brings (loader st n) k v -> k = n \/ attr st k = None.
  Definition keeps (q : request) (n : str) : Prop :=
    match q with Load m r => r = true -> m <> n | Access _ => True | PurgeBrowse => False end.
  Lemma run_keeps st n st' r k v : returns_dicts loader -> only_new -> run_loader loader st n = (st', r) -> k <> n -> attr st k = Some v -> attr st' k = Some v.
  Proof.
    intros D On H Nk A. destruct (run_spec loader D _ _ _ _ H) as (_ & _ & _ & At & _). rewrite At.
    destruct (new_value (loader st n) n k) as [w|] eqn:E; [|exact A]. apply (new_value_brings loader D) in E; [|exact Nk].
    apply On in E as [E|E]; [contradiction|congruence].
  Qed.
  Lemma load_one_keeps st n b st' r k v : returns_dicts loader -> only_new -> load_one builtin loader st n b = (st', r) -> (b = true -> n <> k) ->
    attr st k = Some v -> attr st' k = Some v.
  Proof.
    intros D On H Hb A. unfold load_one in H. destruct (negb _); [injection H as <- _; exact A|].
    destruct (in_dir builtin st n && negb b) eqn:E; [injection H as <- _; exact A|]. destruct (str_eqb k n) eqn:Ek.
    - apply str_eqb_eq in Ek as ->. exfalso. unfold in_dir, lookup in E. rewrite A in E. destruct b; [now apply Hb|discriminate E].
    - eapply run_keeps; eauto. intros ->. rewrite str_eqb_refl in Ek. discriminate.
  Qed.
  Lemma load_all_keeps fuel : forall st i st' r k v, returns_dicts loader -> only_new -> load_all_from builtin loader fuel st i = Some (st', r) ->
    attr st k = Some v -> attr st' k = Some v.
  Proof.
    induction fuel as [|f IH]; intros st i st' r k v D On H A; [discriminate|]. cbn [load_all_from] in H.
    destruct (nth_error (listed st) i) as [name|]; [|injection H as <- _; exact A]. destruct (ignored_by_default name); [eapply IH; eauto|].
    destruct (str_eqb name $"all").
    - destruct (load_all_from builtin loader f st 0) as [[s1 r1]|] eqn:E; [|discriminate]. pose proof (IH _ _ _ _ _ _ D On E A) as A1.
      destruct r1 as [u|e]; [eapply IH; eauto|]. destruct e; try (injection H as <- _; exact A1). eapply IH; eauto.
    - destruct (load_one builtin loader st name false) as [s1 r1] eqn:E. pose proof (load_one_keeps _ _ _ _ _ _ _ D On E ltac:(discriminate) A) as A1.
      destruct r1 as [u|e]; [eapply IH; eauto|]. destruct e; try (injection H as <- _; exact A1). eapply IH; eauto.
  Qed.
  Theorem C34_values_kept st h st' n v : returns_dicts loader -> only_new -> happens builtin loader dump st h st' ->
    Forall (fun qa => keeps (fst qa) n) h -> attr st n = Some v -> attr st' n = Some v.
  Proof.
    intros D On H. induction H as [st|st st1 st2 fuel q a h P H IH]; intros K A; [exact A|]. apply Forall_cons_iff in K as [K1 K2]. apply IH; [exact K2|]. clear IH H.
    cbn [fst] in K1. unfold perform in P. assert (L : forall m r0 s1 r, load builtin loader fuel st m r0 = Some (s1, r) -> (r0 = true -> m <> n) -> attr s1 n = Some v).
    { intros m r0 s1 r E Hk. unfold load in E. destruct (str_eqb m $"all"); [eapply load_all_keeps; eauto|]. injection E as E. eapply load_one_keeps; eauto. }
    destruct q as [m r0|m|]; [| |destruct K1].
    - destruct (load builtin loader fuel st m r0) as [[s1 r]|] eqn:E; [|discriminate].
      assert (s1 = st1) by (destruct r; injection P as <- _; reflexivity). subst. eapply L; eauto.
    - unfold access in P. destruct (lookup builtin st m); [injection P as <- _; exact A|]. destruct (negb _); [injection P as <- _; exact A|].
      destruct (load builtin loader fuel st m false) as [[s1 r]|] eqn:E; [|discriminate].
      assert (s1 = st1) by (destruct r as [u|e]; [destruct (lookup builtin s1 m)|]; injection P as <- _; reflexivity). subst. eapply L; eauto. discriminate.
  Qed.
  (** purging after writing browse products: no listed object stays loaded, nothing else
      changes, and no loader is called *)
  Theorem C34_purge (st st' : state V) : (forall k, In k (listed st) -> plain_name builtin k) ->
    perform builtin loader dump 0 st PurgeBrowse = Some (st', Done) ->
    (forall n, In n (listed st) -> ~ loaded st' n) /\ (forall n, ~ In n (listed st) -> attr st' n = attr st n) /\
    listed st' = listed st /\ calls st' = calls st.
  Proof.
    intros Pl H. unfold perform in H. destruct (purge_browse builtin dump st (listed st)) as [s r] eqn:E.
    destruct r; [|discriminate]. injection H as <-. destruct (purge_listed _ _ _ _ E) as [E1 E2]. split; [|split; [|auto]].
    - assert (G : forall names s0 s1 u, (forall k, In k names -> plain_name builtin k) -> purge_browse builtin dump s0 names = (s1, Ok u) ->
        (forall n, In n names -> attr s1 n = None) /\ (forall n, attr s0 n = None -> attr s1 n = None)).
      { clear. induction names as [|n names IH]; intros s0 s1 u Pl; cbn [purge_browse]; [intros H; injection H as <- _; split; [intros ? []|auto]|].
        unfold in_dir, lookup. pose proof (Pl n (or_introl eq_refl)) as B. unfold plain_name in B. rewrite B.
        destruct (attr s0 n) as [v|] eqn:A.
        - destruct (dump s0 n); [discriminate|]. unfold delattr. rewrite A. intros H. apply IH in H as [H1 H2]; [|intros k Hk; apply Pl; now right].
          cbn [attr] in H2. split.
          + intros k [<-|Hk]; [apply H2; now rewrite str_eqb_refl|now apply H1].
          + intros k Hk. apply H2. destruct (str_eqb k n); [reflexivity|exact Hk].
        - intros H. apply IH in H as [H1 H2]; [|intros k Hk; apply Pl; now right]. split; [|exact H2]. intros k [<-|Hk]; auto. }
      intros n I [v A]. destruct (G _ _ _ _ Pl E) as [G1 _]. rewrite (G1 n I) in A. discriminate.
    - assert (G : forall names s0 s1 u, purge_browse builtin dump s0 names = (s1, Ok u) -> forall n, ~ In n names -> attr s1 n = attr s0 n).
      { clear. induction names as [|m names IH]; intros s0 s1 u; cbn [purge_browse]; [intros H; injection H as <- _; auto|].
        destruct (in_dir builtin s0 m).
        - destruct (dump s0 m); [discriminate|]. unfold delattr. destruct (attr s0 m); [|discriminate]. intros H n Hn.
          rewrite (IH _ _ _ H n) by (intros Hk; apply Hn; now right). cbn [attr]. rewrite str_eqb_ne; [reflexivity|]. intros ->. apply Hn. now left.
        - intros H n Hn. apply (IH _ _ _ H n). intros Hk; apply Hn; now right. }
      eapply G; eauto.
  Qed.
  (** unloaded() lists exactly the listed names without a value *)
  Theorem C34_unloaded (st : state V) n : (forall k, In k (listed st) -> plain_name builtin k) ->
    In n (unloaded builtin st) <-> In n (listed st) /\ ~ loaded st n.
  Proof.
    intros Pl. unfold unloaded, loaded. rewrite filter_In, negb_true_iff. split; intros [I H]; (split; [exact I|]).
    - intros [v A]. unfold in_dir, lookup in H. now rewrite A in H.
    - unfold in_dir, lookup. destruct (attr st n) as [v|]; [exfalso; apply H; now exists v|]. now rewrite (Pl n I).
  Qed.

  (** * C35 *)
  (** a listed object whose loader provides a value: access gives that value, and every later
      access gives it again without another loading attempt *)
  Theorem C35_access fuel (st : state V) n v : returns_dicts loader -> In n (listed st) -> n <> $"all" -> plain_name builtin n ->
    attr st n = None -> provides (loader st n) n v ->
    exists st', access builtin loader fuel st n = Some (st', Ok v) /\ calls st' = n :: calls st /\
      forall fuel', access builtin loader fuel' st' n = Some (st', Ok v).
  Proof.
    intros D I Na Pl A P. destruct (C34_loads fuel st n false D I Na (or_intror (conj A Pl))) as (st' & r & E & C & Hv & _ & _ & _ & _ & R).
    exists st'. assert (r = Ok tt) as ->. { destruct R as [R|(e & _ & R)]; [exact R|]. rewrite R in P. destruct P. }
    unfold access at 1. unfold lookup at 1. unfold plain_name in Pl. rewrite A, Pl, (proj2 (str_in_iff n (listed st)) I), E. cbn [negb].
    unfold lookup at 1. rewrite (Hv v P). split; [reflexivity|]. split; [exact C|]. intros fuel'. unfold access, lookup. now rewrite (Hv v P).
  Qed.
  (** so, if every loading attempt provides a value, every listed name always has one *)
  Theorem C35_every_key st h st' n fuel : returns_dicts loader -> none_called_all loader st -> (forall s k, exists v, provides (loader s k) k v) ->
    happens builtin loader dump st h st' -> In n (listed st') ->
    exists st2 v, access builtin loader fuel st' n = Some (st2, Ok v).
  Proof.
    intros D N Hp H I. destruct (C34_history _ _ _ D N H) as (_ & _ & Hk).
    assert (Na : n <> $"all"). { intros ->. destruct (Hk _ I) as [I'|(s & m & v & B)]; [now apply N in I'|]. now apply (proj2 N) in B. }
    destruct (lookup builtin st' n) as [v|] eqn:L; [exists st', v; unfold access; now rewrite L|].
    unfold lookup in L. destruct (attr st' n) as [w|] eqn:A; [discriminate|]. destruct (Hp st' n) as (v & P).
    destruct (C35_access fuel st' n v D I Na L A P) as (st2 & E & _). now exists st2, v.
  Qed.

  (** * C36 *)
  Theorem C36_terminates st : returns_dicts loader -> none_called_all loader st ->
    exists fuel r, load builtin loader fuel st $"all" false = Some r /\
      forall fuel', (fuel <= fuel')%nat -> load builtin loader fuel' st $"all" false = Some r.
  Proof.
    intros D [N1 N2]. destruct (load_all_terminates builtin loader D N2 _ st 0 (le_n _) N1) as (fuel & r & E).
    exists fuel, r. unfold load. rewrite str_eqb_refl. split; [exact E|]. intros fuel' L. eapply load_all_mono; eauto.
  Qed.
  (** what it does: it attempts, once each, only listed names that are neither loaded nor to be
      ignored; what was loaded stays loaded; if no exception escapes, every listed name at the
      end is ignored, loaded or was attempted; if one does, it is the last attempt's *)
  Theorem C36_all fuel st st' r : returns_dicts loader -> none_called_all loader st ->
    load builtin loader fuel st $"all" false = Some (st', r) ->
    exists attempts, calls st' = attempts ++ calls st /\
      (NoDup (listed st) -> NoDup attempts) /\
      (forall n, In n attempts -> In n (listed st) /\ attr st n = None /\ ~ ignorable n) /\
      (forall n, loaded st n -> exists v, lookup builtin st' n = Some v) /\
      (r = Ok tt -> forall n, In n (listed st') -> ignorable n \/ (exists v, lookup builtin st' n = Some v) \/ In n attempts) /\
      (r = Ok tt \/ exists e s n rest, r = Err e /\ attempts = n :: rest /\ loader s n = Escaped e).
  Proof.
    intros D [N1 N2] H. unfold load in H. rewrite str_eqb_refl in H.
    destruct (load_all_spec builtin loader D N2 _ _ _ _ _ N1 H) as ((P & ND & M & _) & _ & new & C & H1 & H2 & H3 & H4).
    exists new. split; [exact C|]. split; [auto|]. split; [|split; [|split]].
    - intros n I. destruct (H1 n I) as (_ & A & B & E). split; [exact A|]. split.
      + unfold in_dir, lookup in E. now destruct (attr st n).
      + rewrite <- ignored_iff. congruence.
    - intros n [v A]. specialize (M n (in_dir_attr builtin st n v A)). unfold in_dir in M. destruct (lookup builtin st' n) as [w|]; [now exists w|discriminate].
    - intros Hr n I. destruct (H3 Hr n) as [G|[G|G]]; [exact I|left; now apply ignored_iff|right; left|auto].
      unfold in_dir in G. destruct (lookup builtin st' n) as [w|]; [now exists w|discriminate].
    - destruct H4 as [->|(e & s & n & rest & -> & _ & -> & El)]; [now left|]. right. now exists e, s, n, rest.
  Qed.
  (** if every attempt provides a value, nothing but what is to be ignored stays unloaded *)
  Theorem C36_complete fuel st st' r : returns_dicts loader -> none_called_all loader st -> (forall s k, exists v, provides (loader s k) k v) ->
    load builtin loader fuel st $"all" false = Some (st', r) -> r = Ok tt /\ Forall ignorable (unloaded builtin st').
  Proof.
    intros D N Hp H. unfold load in H. rewrite str_eqb_refl in H.
    assert (Inv : forall f s i s' r', ~ In $"all" (listed s) -> load_all_from builtin loader f s i = Some (s', r') ->
      r' = Ok tt /\ forall k, In k (skipn i (listed s')) -> ignored_by_default k = true \/ in_dir builtin s' k = true).
    { induction f as [|f IH]; intros s i s' r' Na HL; [discriminate|].
      pose proof (load_all_spec builtin loader D (proj2 N) _ _ _ _ _ Na HL) as ((P0 & _ & M0 & _) & _). cbn [load_all_from] in HL.
      destruct (nth_error (listed s) i) as [nm|] eqn:En.
      2:{ injection HL as <- <-. split; [reflexivity|]. intros k Hk. apply nth_error_None in En. rewrite skipn_all2 in Hk by exact En. destruct Hk. }
      pose proof (nth_in_skipn _ _ _ (nth_prefix _ _ _ _ P0 En)) as Es.
      destruct (ignored_by_default nm) eqn:Hi.
      { destruct (IH _ _ _ _ Na HL) as (E & Hk). split; [exact E|]. rewrite Es. intros k [<-|Hin]; auto. }
      rewrite str_eqb_ne in HL by (intros ->; apply Na; now apply nth_error_In in En). unfold load_one in HL.
      rewrite (proj2 (str_in_iff nm (listed s))) in HL by (now apply nth_error_In in En). cbn [negb andb] in HL. rewrite andb_true_r in HL.
      destruct (in_dir builtin s nm) eqn:Hd.
      { destruct (IH _ _ _ _ Na HL) as (E & Hk). split; [exact E|]. rewrite Es. intros k [<-|Hin]; auto. }
      destruct (run_loader loader s nm) as [s1 r1] eqn:Er.
      destruct (run_spec loader D _ _ _ _ Er) as (C & _ & _ & A & R). destruct (Hp s nm) as (v & P).
      destruct R as [->|(e & _ & R)]; [|rewrite R in P; destruct P].
      assert (Na1 : ~ In $"all" (listed s1)) by (eapply run_no_all; eauto; apply N).
      destruct (IH _ _ _ _ Na1 HL) as (E & Hk). split; [exact E|]. rewrite Es. intros k [<-|Hin]; [|auto]. right.
      pose proof (load_all_spec builtin loader D (proj2 N) _ _ _ _ _ Na1 HL) as ((_ & _ & M1 & _) & _). apply M1.
      eapply in_dir_attr. rewrite A. apply (new_value_provides loader D) in P. now rewrite P. }
    destruct (Inv _ _ _ _ _ (proj1 N) H) as (E & Hk). split; [exact E|]. apply Forall_forall. intros k Hin.
    unfold unloaded in Hin. apply filter_In in Hin as [I1 I2]. apply negb_true_iff in I2.
    destruct (Hk k I1) as [G|G]; [now apply ignored_iff|congruence].
  Qed.
End Life.
Print Assumptions C34_unknown.
Print Assumptions C34_already.
Print Assumptions C34_loads.
Print Assumptions C34_history.
Print Assumptions C34_values_kept.
Print Assumptions C34_purge.
Print Assumptions C34_unloaded.
Print Assumptions C35_access.
Print Assumptions C35_every_key.
Print Assumptions C36_terminates.
Print Assumptions C36_all.
Print Assumptions C36_complete.

(** * A product: an image that brings its header, a table that cannot be read (its metadata
    is used instead), a description that is ignored, and attributes of the object itself. *)
Definition own : str -> option nat := fun n =>
  if str_in n [$"metadata"; $"index"; $"keys"] then Some 99%nat else None.
Definition product : state nat -> str -> outcome nat := fun st n =>
  if str_eqb n $"IMAGE" then Returned [($"IMAGE", Some 1%nat); ($"HEADER", Some 2%nat); ($"EXTRA", None)]
  else if str_eqb n $"TABLE" then Failed 3%nat
  else if str_eqb n $"LABEL" then Assigned 4%nat
  else Failed 5%nat.
Definition no_dump : state nat -> str -> option exn := fun _ _ => None.
Definition start : state nat := mkState [$"LABEL"; $"DESCRIPTION"; $"IMAGE"; $"TABLE"] (fun _ => None) [].
Lemma product_dicts : returns_dicts product.
Proof.
  intros st n objects. unfold product. destruct (str_eqb n $"IMAGE"); [|destruct (str_eqb n $"TABLE"), (str_eqb n $"LABEL"); try discriminate; intros []].
  injection 1 as <-. repeat constructor; cbn; intuition discriminate.
Qed.
Lemma product_all st : ~ In $"all" (listed st) -> none_called_all product st.
Proof.
  intros N. split; [exact N|]. intros s n v. unfold product. destruct (str_eqb n $"IMAGE"); [|destruct (str_eqb n $"TABLE"), (str_eqb n $"LABEL"); try discriminate; intros []].
  cbn. intuition discriminate.
Qed.
Example C34_meets : returns_dicts product /\ none_called_all product start /\ NoDup (listed start) /\
  (exists st', happens own product no_dump start
     [(Access $"IMAGE", Gave 1%nat); (Load $"IMAGE" false, Raised AlreadyLoadedError); (Load $"NONE" false, Raised KeyError);
      (Load $"IMAGE" true, Done); (Access $"HEADER", Gave 2%nat); (Load $"all" false, Done); (Access $"TABLE", Gave 3%nat)] st' /\
     listed st' = [$"LABEL"; $"DESCRIPTION"; $"IMAGE"; $"TABLE"; $"HEADER"] /\
     unloaded own st' = [$"DESCRIPTION"] /\ calls st' = [$"TABLE"; $"LABEL"; $"IMAGE"; $"IMAGE"]).
Proof.
  split; [exact product_dicts|]. split; [apply product_all; cbn; intuition discriminate|].
  split; [repeat constructor; cbn; intuition discriminate|].
  eexists. split; [repeat (eapply one_more with (fuel := 10%nat); [vm_compute; reflexivity|]); apply nothing_yet|].
  repeat split; vm_compute; reflexivity.
Qed.
(** the example's loaders bring along only what is not loaded when the image is first loaded *)
Definition product1 : state nat -> str -> outcome nat := fun st n =>
  if str_eqb n $"IMAGE" then
    Returned (($"IMAGE", Some 1%nat) :: match attr st $"HEADER" with None => [($"HEADER", Some 2%nat)] | Some _ => [] end)
  else Failed 3%nat.
Example C34_values_meets : returns_dicts product1 /\ only_new product1 /\
  exists st', happens own product1 no_dump start [(Access $"IMAGE", Gave 1%nat); (Load $"TABLE" true, Done)] st' /\ attr st' $"HEADER" = Some 2%nat.
Proof.
  split; [|split].
  - intros st n objects. unfold product1. destruct (str_eqb n _); [|discriminate]. injection 1 as <-.
    destruct (attr st _); repeat constructor; cbn; intuition discriminate.
  - intros st n k v. unfold product1. destruct (str_eqb n $"IMAGE") eqn:E; [|intros []]. apply str_eqb_eq in E as ->.
    cbn [brings]. intros [H|H]; [injection H as <- _; now left|]. right. destruct (attr st $"HEADER") eqn:A; [destruct H|].
    destruct H as [H|[]]. injection H as <- _. exact A.
  - eexists. split; [repeat (eapply one_more with (fuel := 10%nat); [vm_compute; reflexivity|]); apply nothing_yet|]. reflexivity.
Qed.
Example C35_meets : (forall s k, exists v, provides (product1 s k) k v) /\ plain_name own $"IMAGE" /\ In $"IMAGE" (listed start) /\
  provides (product1 start $"IMAGE") $"IMAGE" 1%nat.
Proof.
  split; [|repeat split; cbn; auto]. intros s k. unfold product1. destruct (str_eqb k $"IMAGE") eqn:E; [|now exists 3%nat].
  apply str_eqb_eq in E as ->. exists 1%nat. now left.
Qed.
Example C36_meets : none_called_all product start /\
  exists st', load own product 10 start $"all" false = Some (st', Ok tt) /\ calls st' = [$"TABLE"; $"IMAGE"; $"LABEL"] /\ unloaded own st' = [$"DESCRIPTION"].
Proof. split; [apply product_all; cbn; intuition discriminate|]. eexists. vm_compute. repeat split. Qed.

(** * Where the reading fails *)
(** Loading one object can replace another that is already loaded: a loader that brings along
    an object already there (here: reloading the image replaces the header). *)
Theorem C34_replaced_refuted : exists (loader : state nat -> str -> outcome nat) st st',
  returns_dicts loader /\ none_called_all loader st /\
  happens own loader no_dump st [(Access $"HEADER", Gave 7%nat); (Access $"IMAGE", Gave 1%nat)] st' /\ attr st' $"HEADER" = Some 2%nat.
Proof.
  exists (fun st n => if str_eqb n $"IMAGE" then Returned [($"IMAGE", Some 1%nat); ($"HEADER", Some 2%nat)] else Assigned 7%nat),
    (mkState [$"IMAGE"; $"HEADER"] (fun _ => None) []). eexists. split; [|split; [|split]].
  - intros st n objects. destruct (str_eqb n _); [|discriminate]. injection 1 as <-. repeat constructor; cbn; intuition discriminate.
  - split; [cbn; intuition discriminate|]. intros s n v. destruct (str_eqb n _); cbn; intuition discriminate.
  - repeat (eapply one_more with (fuel := 10%nat); [vm_compute; reflexivity|]); apply nothing_yet.
  - reflexivity.
Qed.
Print Assumptions C34_replaced_refuted.
(** A loader that returns nothing, or a dict without the object or with None for it: load
    reports success, but the object stays unloaded, and access raises AttributeError, again
    after another attempt each time. *)
Theorem C35_nothing_refuted {V} (builtin : str -> option V) loader fuel (st : state V) n : returns_dicts loader ->
  In n (listed st) -> n <> $"all" -> plain_name builtin n -> attr st n = None ->
  (forall v, ~ provides (loader st n) n v) -> (forall e, loader st n <> Escaped e) ->
  exists st', load builtin loader fuel st n false = Some (st', Ok tt) /\ attr st' n = None /\
    access builtin loader fuel st n = Some (st', Err AttributeError) /\ calls st' = n :: calls st.
Proof.
  intros D I Na Pl A Hp He. destruct (C34_loads builtin loader fuel st n false D I Na (or_intror (conj A Pl))) as (st' & r & E & C & _ & _ & _ & Hn & _ & R).
  assert (r = Ok tt) as -> by (destruct R as [R|(e & _ & R)]; [exact R|now apply He in R]).
  exists st'. split; [exact E|]. specialize (Hn Hp). rewrite A in Hn. split; [exact Hn|]. split; [|exact C].
  unfold access, lookup. unfold plain_name in Pl. rewrite A, Pl, (proj2 (str_in_iff n (listed st)) I), E. cbn [negb]. now rewrite Hn.
Qed.
Print Assumptions C35_nothing_refuted.
Example C35_nothing_meets : let loader := fun (_ : state nat) n => if str_eqb n $"IMAGE" then Returned [($"IMAGE", None)] else Nothing in
  returns_dicts loader /\ (forall n v, ~ provides (loader start n) n v) /\ (forall n e, loader start n <> Escaped e).
Proof.
  cbv zeta. split; [|split].
  - intros st n objects. destruct (str_eqb n _); [|discriminate]. injection 1 as <-. repeat constructor. intros [].
  - intros n v. destruct (str_eqb n _); cbn; [intros [H|[]]; discriminate|tauto].
  - intros n e. now destruct (str_eqb n _).
Qed.
(** A product object whose name is also that of an attribute or method: load says it is
    loaded already, and access gives the attribute; no loader is ever called for it. *)
Theorem C35_builtin_key_refuted {V} (builtin : str -> option V) loader fuel (st : state V) n w : In n (listed st) -> n <> $"all" ->
  builtin n = Some w -> attr st n = None ->
  load builtin loader fuel st n false = Some (st, Err AlreadyLoadedError) /\ access builtin loader fuel st n = Some (st, Ok w).
Proof.
  intros I Na B A. unfold load, load_one, access, in_dir, lookup. rewrite (str_eqb_ne _ _ Na), A, B, (proj2 (str_in_iff n (listed st)) I). split; reflexivity.
Qed.
Print Assumptions C35_builtin_key_refuted.
Example C35_builtin_key_meets : own $"index" = Some 99%nat /\ In $"index" (listed (mkState [$"index"] (fun _ : str => @None nat) [])).
Proof. split; [reflexivity|now left]. Qed.
(** A product with an object called all: load("all") never ends (Python's recursion limit). *)
Theorem C36_all_refuted : forall fuel, load own product fuel (mkState [$"all"] (fun _ => None) []) $"all" false = None.
Proof.
  intros fuel. unfold load. rewrite str_eqb_refl. induction fuel as [|f IH]; [reflexivity|]. cbn [load_all_from listed nth_error].
  change (ignored_by_default $"all") with false. change (str_eqb $"all" $"all") with true. cbn iota. now rewrite IH.
Qed.
Print Assumptions C36_all_refuted.
