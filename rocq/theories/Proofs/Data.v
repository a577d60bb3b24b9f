(** Proofs about the life cycle of Data objects (model: Model/Data.v). *)
From Verif.Base Require Import Py Val PyFacts.
From Verif.Model Require Import Dispatch Data.
From Verif.Spec Require Import Dispatch Data.

Lemma str_eqb_refl s : str_eqb s s = true. Proof. now apply str_eqb_eq. Qed.
Lemma str_eqb_ne s t : s <> t -> str_eqb s t = false. Proof. intros H. apply not_true_iff_false. now rewrite str_eqb_eq. Qed.
Lemma str_in_ne n l : ~ In n l -> str_in n l = false. Proof. intros H. apply not_true_iff_false. now rewrite str_in_iff. Qed.
Lemma NoDup_app {A} (a b : list A) : NoDup a -> NoDup b -> (forall x, In x a -> In x b -> False) -> NoDup (a ++ b).
Proof.
  induction 1 as [|x a Hx Ha IH]; intros Hb Hd; [exact Hb|]. cbn [app]. constructor.
  - intros H. apply in_app_or in H as [H|H]; [contradiction|]. apply (Hd x); [now left|exact H].
  - apply IH; [exact Hb|]. intros y H1 H2. apply (Hd y); [now right|exact H2].
Qed.
Lemma NoDup_app_r {A} (a b : list A) : NoDup (a ++ b) -> NoDup b.
Proof. induction a as [|x a IH]; [auto|]. cbn [app]. intros H. apply NoDup_cons_iff in H as [_ H]. auto. Qed.
Lemma prefix_refl {A} (l : list A) : prefix l l. Proof. exists []. now rewrite app_nil_r. Qed.
Lemma prefix_trans {A} (a b c : list A) : prefix a b -> prefix b c -> prefix a c.
Proof. intros [x ->] [y ->]. exists (x ++ y). now rewrite app_assoc. Qed.

Section Data.
  Context {V : Type} (builtin : str -> option V) (loader : state V -> str -> outcome V).
  Notation in_dir := (in_dir builtin). Notation lookup := (lookup builtin).
  Notation run_loader := (run_loader loader). Notation load_one := (load_one builtin loader).
  Notation load_all_from := (load_all_from builtin loader).

  (** *** adding objects *)
  Fixpoint assoc (objects : list (str * option V)) (k : str) : option V :=
    match objects with
    | [] => None
    | (k', w) :: l => if str_eqb k k' then match w with Some v => Some v | None => None end else assoc l k
    end.
  Lemma assoc_in objects k v : NoDup (map fst objects) -> (assoc objects k = Some v <-> In (k, Some v) objects).
  Proof.
    induction objects as [|[k' w] l IH]; cbn [assoc map fst In]; intros D; [split; [discriminate|intros []]|].
    apply NoDup_cons_iff in D as [N D]. destruct (str_eqb k k') eqn:E.
    - apply str_eqb_eq in E as ->. destruct w as [w|].
      + split; [injection 1 as ->; now left|]. intros [H|H]; [congruence|]. exfalso. apply N. now apply (in_map fst) in H.
      + split; [discriminate|]. intros [H|H]; [congruence|]. exfalso. apply N. now apply (in_map fst) in H.
    - rewrite IH by exact D. split; [now right|]. intros [H|H]; [|exact H]. injection H as -> _. rewrite str_eqb_refl in E. discriminate.
  Qed.
  Lemma assoc_none objects k : ~ In k (map fst objects) -> assoc objects k = None.
  Proof.
    induction objects as [|[k' w] l IH]; cbn [assoc map fst]; intros N; [reflexivity|].
    rewrite str_eqb_ne by (intros ->; apply N; now left). apply IH. intros H; apply N; now right.
  Qed.
  Lemma add_spec objects : NoDup (map fst objects) -> forall st : state V, let st' := add_loaded_objects st objects in
    calls st' = calls st /\
    (exists more, listed st' = listed st ++ more /\ (NoDup (listed st) -> NoDup (listed st')) /\
       forall k, In k more -> exists v, In (k, Some v) objects) /\
    (forall k v, In (k, Some v) objects -> In k (listed st')) /\
    forall k, attr st' k = match assoc objects k with Some v => Some v | None => attr st k end.
  Proof.
    induction objects as [|[k w] l IH]; intros D st; cbn [add_loaded_objects fold_left map fst] in *.
    - repeat split; [|intros k v []]. exists []. rewrite app_nil_r. split; [reflexivity|split; [auto|intros ? []]].
    - apply NoDup_cons_iff in D as [N D]. change (fold_left add_loaded_object l ?s) with (add_loaded_objects s l).
      destruct w as [v|].
      + set (s1 := add_loaded_object st (k, Some v)).
        assert (Ec : calls s1 = calls st) by (unfold s1, add_loaded_object; cbn [fst snd]; destruct (str_in _ _); reflexivity).
        assert (Ea : forall n, attr s1 n = if str_eqb n k then Some v else attr st n)
          by (intros n; unfold s1, add_loaded_object; cbn [fst snd]; destruct (str_in _ _); reflexivity).
        assert (Ei : exists more, listed s1 = listed st ++ more /\ (NoDup (listed st) -> NoDup (listed s1)) /\ (more = [] \/ more = [k]) /\ In k (listed s1)).
        { unfold s1, add_loaded_object. cbn [fst snd setattr listed]. destruct (str_in k (listed st)) eqn:Es.
          - exists []. rewrite app_nil_r. cbn [listed]. apply str_in_iff in Es. auto.
          - exists [k]. cbn [listed]. split; [reflexivity|]. split; [|split; [now right|apply in_or_app; right; now left]].
            intros ND. apply NoDup_app; [exact ND|repeat constructor; intros []|]. intros x Hx [<-|[]].
            apply not_true_iff_false in Es. apply Es. now apply str_in_iff. }
        destruct Ei as (m1 & Ei & Nd1 & Hm1 & Hk).
        destruct (IH D s1) as (C1 & (m2 & I2 & Nd2 & H2) & Hin & A2). fold (add_loaded_objects s1 l). repeat split.
        * now rewrite C1.
        * exists (m1 ++ m2). rewrite I2, Ei, app_assoc. split; [reflexivity|]. rewrite <- Ei, <- I2. split; [auto|].
          intros x Hx. apply in_app_or in Hx as [Hx|Hx].
          -- destruct Hm1 as [->| ->]; [destruct Hx|]. destruct Hx as [<-|[]]. exists v. now left.
          -- destruct (H2 x Hx) as (u & Hu). exists u. now right.
        * intros x u [H|H]; [|now apply Hin in H]. injection H as <- <-. rewrite I2. apply in_or_app. now left.
        * intros x. rewrite A2, Ea. cbn [assoc]. destruct (str_eqb x k) eqn:E; [|reflexivity].
          apply str_eqb_eq in E as ->. now rewrite (assoc_none l k N).
      + destruct (IH D st) as (C1 & (m2 & I2 & Nd2 & H2) & Hin & A2). cbn [add_loaded_object snd]. repeat split; auto.
        * exists m2. repeat split; auto. intros x Hx. destruct (H2 x Hx) as (u & Hu). exists u. now right.
        * intros x u [H|H]; [discriminate H|]. now apply Hin in H.
        * intros x. rewrite A2. cbn [assoc]. destruct (str_eqb x k) eqn:E; [|reflexivity].
          apply str_eqb_eq in E as ->. now rewrite (assoc_none l k N).
  Qed.

  (** *** one attempt *)
  Definition new_value (out : outcome V) (n k : str) : option V :=
    match out with
    | Returned objects => assoc objects k
    | Assigned v | Failed v => if str_eqb k n then Some v else None
    | _ => None
    end.
  Hypothesis dicts : returns_dicts loader.
  Lemma run_spec st n st' r : run_loader st n = (st', r) ->
    calls st' = n :: calls st /\
    (exists more, listed st' = listed st ++ more /\ (NoDup (listed st) -> NoDup (listed st')) /\ forall k, In k more -> exists v, brings (loader st n) k v) /\
    (forall k v, brings (loader st n) k v -> In k (listed st')) /\
    (forall k, attr st' k = match new_value (loader st n) n k with Some v => Some v | None => attr st k end) /\
    (r = Ok tt \/ exists e, r = Err e /\ loader st n = Escaped e).
  Proof.
    unfold Data.run_loader. destruct (loader st n) as [objects|v| |v|e] eqn:E; intros H; injection H as <- <-; cbn [new_value brings].
    - destruct (add_spec objects (dicts st n objects E) (mkState (listed st) (attr st) (n :: calls st))) as (C & I & Hin & A).
      cbn [calls listed attr] in *. repeat split; auto.
    - cbn. split; [reflexivity|]. split; [exists []; rewrite app_nil_r; split; [reflexivity|split; [auto|intros ? []]]|]. split; [intros k w []|]. split; [|now left].
      intros k. now destruct (str_eqb k n).
    - cbn. split; [reflexivity|]. split; [exists []; rewrite app_nil_r; split; [reflexivity|split; [auto|intros ? []]]|]. split; [intros k w []|]. split; [|now left]. reflexivity.
    - cbn. split; [reflexivity|]. split; [exists []; rewrite app_nil_r; split; [reflexivity|split; [auto|intros ? []]]|]. split; [intros k w []|]. split; [|now left].
      intros k. now destruct (str_eqb k n).
    - cbn. split; [reflexivity|]. split; [exists []; rewrite app_nil_r; split; [reflexivity|split; [auto|intros ? []]]|]. split; [intros k w []|]. split; [reflexivity|].
      right. now exists e.
  Qed.
  Lemma new_value_provides st n v : new_value (loader st n) n n = Some v <-> provides (loader st n) n v.
  Proof.
    destruct (loader st n) as [objects|w| |w|e] eqn:E; cbn [new_value provides].
    - apply assoc_in. now apply (dicts st n).
    - rewrite str_eqb_refl. split; [now injection 1|now intros ->].
    - split; [discriminate|intros []].
    - rewrite str_eqb_refl. split; [now injection 1|now intros ->].
    - split; [discriminate|intros []].
  Qed.
  Lemma new_value_brings st n k v : k <> n -> (new_value (loader st n) n k = Some v <-> brings (loader st n) k v).
  Proof.
    intros Ne. destruct (loader st n) as [objects|w| |w|e] eqn:E; cbn [new_value brings]; try (rewrite (str_eqb_ne k n Ne));
      try (split; [discriminate|intros []]).
    apply assoc_in. now apply (dicts st n).
  Qed.
  (** objects brought along are loaded *)
  Lemma brought_loaded st n st' r k v : run_loader st n = (st', r) -> brings (loader st n) k v -> attr st' k = Some v.
  Proof.
    intros H B. destruct (run_spec _ _ _ _ H) as (_ & _ & _ & A & _). rewrite A.
    destruct (loader st n) as [objects|w| |w|e] eqn:E; cbn [brings] in B; try destruct B. cbn [new_value].
    apply (assoc_in objects k v (dicts _ _ _ E)) in B. now rewrite B.
  Qed.
  Lemma lookup_mono st n st' r k : run_loader st n = (st', r) -> in_dir st k = true -> in_dir st' k = true.
  Proof.
    intros H. destruct (run_spec _ _ _ _ H) as (_ & _ & _ & A & _). unfold Data.in_dir, Data.lookup. rewrite A.
    destruct (new_value _ _ _); [reflexivity|]. auto.
  Qed.
  Lemma in_dir_attr (st : state V) k v : attr st k = Some v -> in_dir st k = true.
  Proof. intros H. unfold Data.in_dir, Data.lookup. now rewrite H. Qed.

  (** *** load_all *)
  Definition run_ok (st st' : state V) : Prop :=
    prefix (listed st) (listed st') /\ (NoDup (listed st) -> NoDup (listed st')) /\
    (forall k, in_dir st k = true -> in_dir st' k = true) /\
    (forall k, In k (listed st') -> In k (listed st) \/ in_dir st' k = true).
  Lemma run_ok_refl st : run_ok st st.
  Proof. repeat split; auto using prefix_refl. Qed.
  Lemma run_ok_trans a b c : run_ok a b -> run_ok b c -> run_ok a c.
  Proof.
    intros (P1 & N1 & M1 & I1) (P2 & N2 & M2 & I2). repeat split; auto.
    - eapply prefix_trans; eauto.
    - intros k Hk. destruct (I2 k Hk) as [H|H]; [|now right]. destruct (I1 k H) as [H'|H']; [now left|right; auto].
  Qed.
  Lemma run_loader_ok st n st' r : run_loader st n = (st', r) -> run_ok st st'.
  Proof.
    intros H. pose proof (lookup_mono st n st' r) as M. destruct (run_spec _ _ _ _ H) as (_ & (more & I & ND & Hm) & _ & _ & _).
    split; [now exists more|]. split; [exact ND|]. split; [intros k; now apply M|].
    intros k Hk. rewrite I in Hk. apply in_app_or in Hk as [Hk|Hk]; [now left|]. right. destruct (Hm k Hk) as (v & B).
    eapply in_dir_attr. eapply brought_loaded; eauto.
  Qed.
  Lemma load_one_ok st n b st' r : load_one st n b = (st', r) -> run_ok st st'.
  Proof.
    unfold Data.load_one. destruct (negb _); [intros H; injection H as <- <-; apply run_ok_refl|].
    destruct (_ && _); [intros H; injection H as <- <-; apply run_ok_refl|]. apply run_loader_ok.
  Qed.
  Lemma nth_in_skipn {A} (l : list A) i x : nth_error l i = Some x -> skipn i l = x :: skipn (S i) l.
  Proof. revert i. induction l as [|y l IH]; intros [|i]; cbn [nth_error]; try discriminate; [now injection 1 as ->|]. intros H. rewrite skipn_cons. now rewrite (IH i H). Qed.
  Lemma nth_prefix {A} (l l' : list A) i x : prefix l l' -> nth_error l i = Some x -> nth_error l' i = Some x.
  Proof. intros [m ->] H. rewrite nth_error_app1; [exact H|]. apply nth_error_Some. congruence. Qed.
  Hypothesis no_all : forall s n v, ~ brings (loader s n) $"all" v.
  Lemma run_no_all st n st' r : run_loader st n = (st', r) -> ~ In $"all" (listed st) -> ~ In $"all" (listed st').
  Proof.
    intros H N I. destruct (run_spec _ _ _ _ H) as (_ & (more & E & _ & Hm) & _). rewrite E in I. apply in_app_or in I as [I|I]; [contradiction|].
    destruct (Hm _ I) as (v & B). now apply no_all in B.
  Qed.
  (** what the loop does from position [i] on *)
  Definition loop_spec (st : state V) (i : nat) (st' : state V) (r : res unit) : Prop :=
    run_ok st st' /\ ~ In $"all" (listed st') /\
    exists new, calls st' = new ++ calls st /\
      (forall n, In n new -> In n (skipn i (listed st')) /\ In n (listed st) /\ ignored_by_default n = false /\ in_dir st n = false) /\
      (NoDup (listed st') -> NoDup new) /\
      (r = Ok tt -> forall n, In n (skipn i (listed st')) -> ignored_by_default n = true \/ in_dir st' n = true \/ In n new) /\
      (r = Ok tt \/ exists e s n rest, r = Err e /\ e <> AlreadyLoadedError /\ new = n :: rest /\ loader s n = Escaped e).
  Lemma loop_skip st i st' r name : nth_error (listed st) i = Some name -> (ignored_by_default name = true \/ in_dir st name = true) ->
    loop_spec st (S i) st' r -> loop_spec st i st' r.
  Proof.
    intros Hn Hskip (Ok1 & Na & new & C & H1 & H2 & H3 & H4). pose proof Ok1 as (P & _ & M & _).
    pose proof (nth_in_skipn _ _ _ (nth_prefix _ _ _ _ P Hn)) as Es. split; [exact Ok1|]. split; [exact Na|]. exists new. split; [exact C|].
    split; [|split; [exact H2|split; [|exact H4]]].
    - intros n Hin. destruct (H1 n Hin) as (A & B & D & E). split; [rewrite Es; now right|auto].
    - intros Hr n Hin. rewrite Es in Hin. destruct Hin as [<-|Hin]; [|now apply H3]. destruct Hskip as [Hs|Hs]; [now left|right; left; auto].
  Qed.
  Lemma loop_attempt st i st1 st' r1 r name : nth_error (listed st) i = Some name -> ignored_by_default name = false -> in_dir st name = false ->
    run_loader st name = (st1, r1) -> loop_spec st1 (S i) st' r -> loop_spec st i st' r.
  Proof.
    intros Hn Hi Hd Hrun (Ok1 & Na & new & C & H1 & H2 & H3 & H4). pose proof (run_loader_ok _ _ _ _ Hrun) as Ok0.
    destruct (run_spec _ _ _ _ Hrun) as (C0 & _). pose proof Ok0 as (P0 & _ & M0 & I0). pose proof Ok1 as (P1 & _ & M1 & _).
    pose proof (nth_in_skipn _ _ _ (nth_prefix _ _ _ _ (prefix_trans _ _ _ P0 P1) Hn)) as Es.
    split; [eapply run_ok_trans; eauto|]. split; [exact Na|]. exists (new ++ [name]). split; [rewrite C, C0, <- app_assoc; reflexivity|].
    split; [|split; [|split]].
    - intros n Hin. apply in_app_or in Hin as [Hin|[<-|[]]].
      + destruct (H1 n Hin) as (A & B & D & E). split; [rewrite Es; now right|]. split; [|split; [exact D|]].
        * destruct (I0 n B) as [H|H]; [exact H|congruence].
        * destruct (in_dir st n) eqn:Ed; [|reflexivity]. apply M0 in Ed. congruence.
      + split; [rewrite Es; now left|]. split; [now apply nth_error_In in Hn|auto].
    - intros ND. apply NoDup_app; [auto|repeat constructor; intros []|]. intros x Hx [<-|[]]. destruct (H1 _ Hx) as (A & _).
      assert (ND' : NoDup (skipn i (listed st'))).
      { rewrite <- (firstn_skipn i (listed st')) in ND. now apply NoDup_app_r in ND. }
      rewrite Es in ND'. apply NoDup_cons_iff in ND' as [N _]. contradiction.
    - intros Hr n Hin. rewrite Es in Hin. destruct Hin as [<-|Hin]; [right; right; apply in_or_app; right; now left|].
      destruct (H3 Hr n Hin) as [H|[H|H]]; auto. right; right. apply in_or_app. now left.
    - destruct H4 as [->|(e & s & n & rest & Er & Ne & En & El)]; [now left|]. right. exists e, s, n, (rest ++ [name]). subst new. auto.
  Qed.
  Lemma load_all_spec fuel : forall st i st' r, ~ In $"all" (listed st) ->
    load_all_from fuel st i = Some (st', r) -> loop_spec st i st' r.
  Proof.
    induction fuel as [|f IH]; intros st i st' r Na H; [discriminate|]. cbn [Data.load_all_from] in H.
    destruct (nth_error (listed st) i) as [name|] eqn:Hn.
    2:{ injection H as <- <-. split; [apply run_ok_refl|]. split; [exact Na|]. exists []. repeat split; try easy; [constructor| |now left].
        intros _ n Hin. apply nth_error_None in Hn. rewrite skipn_all2 in Hin by exact Hn. destruct Hin. }
    destruct (ignored_by_default name) eqn:Hi; [eapply loop_skip; [exact Hn|now left|now apply IH]|].
    rewrite str_eqb_ne in H by (intros ->; apply Na; now apply nth_error_In in Hn).
    unfold Data.load_one in H. rewrite (proj2 (str_in_iff name (listed st))) in H by (now apply nth_error_In in Hn). cbn [negb andb] in H.
    rewrite andb_true_r in H. destruct (in_dir st name) eqn:Hd; [eapply loop_skip; [exact Hn|now right|now apply IH]|].
    destruct (run_loader st name) as [st1 r1] eqn:Hrun. pose proof (run_no_all _ _ _ _ Hrun Na) as Na1.
    destruct (run_spec _ _ _ _ Hrun) as (_ & _ & _ & _ & [->|(e & -> & El)]).
    - eapply loop_attempt; eauto.
    - assert (Hc : e = AlreadyLoadedError \/ (e <> AlreadyLoadedError /\ st' = st1 /\ r = Err e)).
      { destruct e; try (right; injection H as <- <-; repeat split; discriminate). now left. }
      destruct Hc as [->|(Ne & -> & ->)]; [eapply loop_attempt; eauto|].
      destruct (run_spec _ _ _ _ Hrun) as (C0 & _). split; [eapply run_loader_ok; eauto|]. split; [exact Na1|]. exists [name]. split; [exact C0|].
      pose proof (run_loader_ok _ _ _ _ Hrun) as (P0 & _). pose proof (nth_in_skipn _ _ _ (nth_prefix _ _ _ _ P0 Hn)) as Es.
      split; [|split; [|split]].
      + intros n [<-|[]]. split; [rewrite Es; now left|]. split; [now apply nth_error_In in Hn|auto].
      + intros _. repeat constructor. intros [].
      + discriminate.
      + right. exists e, st, name, []. auto.
  Qed.

  (** *** load_all terminates *)
  Definition todo (st : state V) (i : nat) : nat := List.length (filter (fun n => negb (in_dir st n)) (skipn i (listed st))).
  Lemma filter_le {A} (f g : A -> bool) l : (forall x, f x = true -> g x = true) -> (List.length (filter f l) <= List.length (filter g l))%nat.
  Proof.
    intros H. induction l as [|x l IH]; [reflexivity|]. cbn [filter]. destruct (f x) eqn:E; [rewrite (H x E); cbn; lia|]. destruct (g x); cbn; lia.
  Qed.
  Lemma todo_run st n st' r i : run_loader st n = (st', r) -> (i <= List.length (listed st))%nat -> (todo st' i <= todo st i)%nat.
  Proof.
    intros H L. pose proof (lookup_mono st n st' r) as M. destruct (run_spec _ _ _ _ H) as (_ & (more & I & _ & Hm) & _ & _ & _).
    unfold todo. rewrite I, skipn_app, filter_app, app_length. replace (i - List.length (listed st))%nat with 0%nat by lia. cbn [skipn].
    replace (filter (fun k => negb (in_dir st' k)) more) with (@nil str).
    - cbn [List.length]. rewrite Nat.add_0_r. apply filter_le. intros k. rewrite !negb_true_iff. intros E. destruct (in_dir st k) eqn:Ed; [|reflexivity].
      apply (M k H) in Ed. congruence.
    - symmetry. clear I L. induction more as [|k more IH]; [reflexivity|]. cbn [filter]. destruct (Hm k (or_introl eq_refl)) as (v & B).
      rewrite (in_dir_attr st' k v) by (eapply brought_loaded; eauto). cbn [negb]. apply IH. intros x Hx. apply Hm. now right.
  Qed.
  Lemma load_all_terminates : forall u st i, (todo st i <= u)%nat -> ~ In $"all" (listed st) -> exists fuel res, load_all_from fuel st i = Some res.
  Proof.
    induction u as [u IHu] using lt_wf_ind. intros st i.
    remember (List.length (listed st) - i)%nat as d eqn:Ed. revert st i Ed.
    induction d as [d IHd] using lt_wf_ind. intros st i Ed Hu Na.
    destruct (nth_error (listed st) i) as [name|] eqn:Hn.
    2:{ exists 1%nat. eexists. cbn [Data.load_all_from]. rewrite Hn. reflexivity. }
    assert (Li : (i < List.length (listed st))%nat) by (apply nth_error_Some; congruence).
    assert (T : todo st i = (if in_dir st name then todo st (S i) else S (todo st (S i)))).
    { unfold todo. rewrite (nth_in_skipn _ _ _ Hn). cbn [filter]. destruct (in_dir st name); reflexivity. }
    assert (Skip : (ignored_by_default name = true \/ in_dir st name = true) -> exists fuel res, load_all_from fuel st i = Some res).
    { intros Hs. destruct (IHd (List.length (listed st) - S i)%nat ltac:(lia) st (S i) eq_refl) as (f & res & E); [|exact Na|].
      - destruct (in_dir st name); lia.
      - exists (S f), res. cbn [Data.load_all_from]. rewrite Hn. destruct (ignored_by_default name) eqn:Hi; [exact E|].
        destruct Hs as [Hs|Hs]; [discriminate|]. rewrite str_eqb_ne by (intros ->; apply Na; now apply nth_error_In in Hn).
        unfold Data.load_one. rewrite (proj2 (str_in_iff name (listed st))) by (now apply nth_error_In in Hn). cbn [negb andb]. rewrite Hs. exact E. }
    destruct (ignored_by_default name) eqn:Hi; [apply Skip; now left|]. destruct (in_dir st name) eqn:Hd; [apply Skip; now right|]. clear Skip.
    destruct (run_loader st name) as [st1 r1] eqn:Hrun.
    assert (E0 : forall f, load_all_from (S f) st i = match r1 with Ok _ => load_all_from f st1 (S i)
        | Err AlreadyLoadedError => load_all_from f st1 (S i) | Err e => Some (st1, Err e) end).
    { intros f. cbn [Data.load_all_from]. rewrite Hn, Hi. rewrite str_eqb_ne by (intros ->; apply Na; now apply nth_error_In in Hn).
      unfold Data.load_one. rewrite (proj2 (str_in_iff name (listed st))) by (now apply nth_error_In in Hn). cbn [negb andb]. rewrite Hd. cbn [andb].
      rewrite Hrun. destruct r1 as [[]|[]]; reflexivity. }
    destruct (IHu (u - 1)%nat ltac:(lia) st1 (S i)) as (f & res & E); [|now apply (run_no_all _ _ _ _ Hrun)|].
    - pose proof (todo_run _ _ _ _ (S i) Hrun ltac:(lia)). lia.
    - destruct r1 as [a|e]; [exists (S f), res; now rewrite E0|].
      destruct e; try (exists (S f); eexists; rewrite E0; reflexivity). exists (S f), res. now rewrite E0.
  Qed.
  (** with more fuel the same *)
  Lemma load_all_mono f : forall st i r g, (f <= g)%nat -> load_all_from f st i = Some r -> load_all_from g st i = Some r.
  Proof.
    induction f as [|f IH]; intros st i r g L H; [discriminate|]. destruct g as [|g]; [lia|]. cbn [Data.load_all_from] in H |- *.
    destruct (nth_error (listed st) i) as [name|]; [|exact H]. destruct (ignored_by_default name); [apply (IH _ _ _ g ltac:(lia) H)|].
    destruct (str_eqb name $"all").
    - destruct (load_all_from f st 0) as [[s1 r1]|] eqn:E; [|discriminate]. rewrite (IH _ _ _ g ltac:(lia) E).
      destruct r1 as [a|e]; [apply (IH _ _ _ g ltac:(lia) H)|]. destruct e; try exact H. apply (IH _ _ _ g ltac:(lia) H).
    - destruct (load_one st name false) as [s1 r1]. destruct r1 as [a|e]; [apply (IH _ _ _ g ltac:(lia) H)|]. destruct e; try exact H. apply (IH _ _ _ g ltac:(lia) H).
  Qed.
End Data.
