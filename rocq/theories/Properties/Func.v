(** Properties C31, C32, C54, C59: argument plumbing. *)
From Coq Require Import Permutation Sorting.Sorted.
From Verif.Base Require Import Py PyFacts.
From Verif.Model Require Import Func.
From Verif.Spec Require Import Func.
From Verif.Proofs Require Import Func.

(** ** C54: keyword filtering *)
Theorem C54_exactly_accepted : forall V (f : pyfun V) (d : kw V) k v,
  In (k, v) (filterkwargs f d) <-> In (k, v) d /\ In k (map p_name (f_params f)).
Proof. intros. unfold filterkwargs. rewrite filter_In, str_in_iff. reflexivity. Qed.
Print Assumptions C54_exactly_accepted.
(** values found under a name do not change, nor does the order of arguments *)
Theorem C54_values : forall V (f : pyfun V) (d : kw V) k,
  kget (filterkwargs f d) k = if str_in k (map p_name (f_params f)) then kget d k else None.
Proof.
  intros V f d k. unfold filterkwargs. change (get_argnames f) with (map p_name (f_params f)).
  induction d as [|[k' v] d IH]; cbn [filter fst kget].
  - now destruct (str_in k _).
  - destruct (str_in k' (map p_name (f_params f))) eqn:E; cbn [kget]; destruct (str_eqb k' k) eqn:Ek.
    + apply str_eqb_eq in Ek. subst k'. now rewrite E.
    + exact IH.
    + apply str_eqb_eq in Ek. subst k'. rewrite E in *. exact IH.
    + exact IH.
Qed.
Print Assumptions C54_values.
Theorem C54_all_accepted : forall V (f : pyfun V) (d : kw V) args,
  (forall k, In k (keys d) -> In k (map p_name (f_params f))) ->
  call_kwargfiltered f args d = f_call f args d.
Proof.
  intros V f d args H. unfold call_kwargfiltered. f_equal. unfold filterkwargs.
  change (get_argnames f) with (map p_name (f_params f)). revert H. induction d as [|[k v] d IH]; intros H; [reflexivity|].
  cbn [filter fst]. rewrite (proj2 (str_in_iff k _)) by (apply H; now left). f_equal. apply IH.
  intros k' Hk. apply H. now right.
Qed.
Print Assumptions C54_all_accepted.

(** ** C31: filling in arguments *)
(** An argument that is required, not given and not queryable: TypeError, before
    any query is called. *)
Theorem C31_missing : forall V (f : pyfun V) queries d a,
  needs f queries a -> ~ In a (keys d) -> ~ In a (map fst queries) ->
  softquery f queries d = ([], Err TypeError).
Proof.
  intros V f queries d a H1 H2 H3. destruct (softquery_cases f queries d) as [[_ E]|[H _]]; [exact E|].
  destruct (H a H1); contradiction.
Qed.
Print Assumptions C31_missing.
(** Otherwise: the queries called are those whose answer is required and was not
    given, once each and in their order; each is called with the arguments it
    accepts among those given and the answers before it; the result is what was
    given, unchanged, followed by the answers, and supplies everything required. *)
Theorem C31_filled : forall V (f : pyfun V) queries d log d', NoDup (map fst queries) ->
  softquery f queries d = (log, Ok d') ->
  (exists wanted, (forall q, wanted q = true <-> needs f queries q /\ ~ In q (keys d)) /\
     map fst log = filter wanted (map fst queries)) /\
  exists answers, d' = d ++ answers /\ map fst answers = map fst log /\
    (forall i q v, nth_error answers i = Some (q, v) ->
       exists g, In (q, g) queries /\ ~ In q (keys d) /\ needs f queries q /\
         nth_error log i = Some (q, filterkwargs g (d ++ firstn i answers)) /\
         f_call g [] (filterkwargs g (d ++ firstn i answers)) = Ok v) /\
    (forall a, needs f queries a -> In a (keys d')).
Proof.
  intros V f queries d log d' Hn H. destruct (softquery_cases f queries d) as [[_ E]|[Hall E]]; [congruence|].
  rewrite E in H. set (tg := filter _ (required f queries)) in *.
  destruct (run_log tg queries d log (Ok d') H) as (rest & Hl & Hr). rewrite (Hr d' eq_refl), app_nil_r in Hl.
  assert (Htg : forall a, In a tg <-> needs f queries a /\ ~ In a (keys d)) by (intros; apply to_get_iff).
  split; [exists (fun q => str_in q tg); split; [intros q; rewrite str_in_iff; apply Htg|now symmetry]|].
  destruct (run_ok tg queries d log d' Hn (fun a _ Ht => proj2 (proj1 (Htg a) Ht)) H) as (an & -> & Hk & Ha).
  exists an. split; [reflexivity|]. split; [exact Hk|]. split.
  - intros i q v Hi. destruct (Ha i q v Hi) as (g & Hg & Hlog & Hc).
    assert (Hq : In q tg).
    { assert (Hin : In q (map fst an)) by (apply nth_error_In in Hi; apply in_map_iff; now exists (q, v)).
      rewrite Hk, <- Hl in Hin. apply filter_In in Hin as [_ Hin]. now apply str_in_iff. }
    apply Htg in Hq. exists g. tauto.
  - intros a Hneed. rewrite keys_app, in_app_iff. destruct (str_in a (keys d)) eqn:Ea; [left; now apply str_in_iff|].
    right. apply str_in_false in Ea. change (keys an) with (map fst an). rewrite Hk, <- Hl. apply filter_In.
    split; [destruct (Hall a Hneed); [contradiction|assumption]|]. apply str_in_iff, Htg. auto.
Qed.
Print Assumptions C31_filled.
(** The only other failure is a query's own: it is the last one called. *)
Theorem C31_failure : forall V (f : pyfun V) queries d log e,
  softquery f queries d = (log, Err e) ->
  (log = [] /\ e = TypeError /\
     exists a, needs f queries a /\ ~ In a (keys d) /\ ~ In a (map fst queries)) \/
  (exists q g passed, In (q, g) queries /\ needs f queries q /\ ~ In q (keys d) /\
     last log (q, []) = (q, passed) /\ f_call g [] passed = Err e).
Proof.
  intros V f queries d log e H. destruct (softquery_cases f queries d) as [[Hm E]|[_ E]]; rewrite E in H.
  - injection H as <- <-. left. auto.
  - right. apply run_err in H as (q & g & ps & H1 & H2 & H3 & H4). apply to_get_iff in H2. exists q, g, ps. tauto.
Qed.
Print Assumptions C31_failure.
(** A loader is called once, with the accepted part of what was gathered, and
    its answer is filed under the name asked for. *)
Theorem C31_loader : forall V (f : pyfun V) queries name d name' v, NoDup (map fst queries) ->
  loader_call f queries name d = Ok (name', v) ->
  name' = name /\ exists info, snd (softquery f queries d) = Ok info /\
    (forall k w, kget d k = Some w -> kget info k = Some w) /\
    (forall p, In p (f_params f) -> not_optional p = true -> In (p_name p) (keys (filterkwargs f info))) /\
    f_call f [] (filterkwargs f info) = Ok v.
Proof.
  intros V f queries name d name' v Hn H. unfold loader_call in H.
  destruct (softquery f queries d) as [log [info|e]] eqn:E; cbn [snd] in *; [|discriminate].
  unfold call_kwargfiltered in H. destruct (f_call f [] (filterkwargs f info)) as [w|e] eqn:Ec; [|discriminate].
  injection H as <- <-. split; [reflexivity|]. exists info. split; [reflexivity|].
  destruct (C31_filled V f queries d log info Hn E) as (_ & an & -> & _ & _ & Hall). repeat split.
  - intros k x Hk. rewrite kget_app, Hk. reflexivity.
  - intros p Hp Ho. assert (Hin : In (p_name p) (keys (d ++ an))) by (apply Hall; exists f, p; auto).
    unfold keys in Hin |- *. apply in_map_iff in Hin as ([k x] & Ek & Hin). apply in_map_iff. exists (k, x).
    split; [exact Ek|]. apply C54_exactly_accepted. split; [exact Hin|]. cbn in Ek. rewrite Ek. now apply in_map.
  - exact Ec.
Qed.
Print Assumptions C31_loader.
(** Which arguments are required: all but those annotated Optional[...],
    "... | None", "None | ..." (quoted or not) or called _ or __. *)
Theorem C31_required : forall p a q1 q2 t,
  plain_text (p_name p) -> p_ann p = Some a -> a = q1 ++ t ++ q2 ->
  Forall (fun c => c = " " \/ c = "'")%char q1 -> Forall (fun c => c = " " \/ c = "'")%char q2 ->
  strip_by blank_or_quote t = t -> plain_text t ->
  (not_optional p = false <-> optional_text t = true \/ p_name p = $"_" \/ p_name p = $"__").
Proof.
  intros p a q1 q2 t Hn Ha E H1 H2 Ht Hp.
  assert (Hq : forall q, Forall (fun c => c = " " \/ c = "'")%char q -> Forall (fun c => blank_or_quote c = true) q).
  { intros q Hq. eapply Forall_impl; [|exact Hq]. intros c [->| ->]; reflexivity. }
  rewrite (not_optional_annotated p a q1 q2 t (p_default p)); auto.
  rewrite negb_false_iff, orb_true_iff, str_in_iff. cbn. split; intros [H|H]; auto.
  - right. intuition.
  - right. destruct H; auto.
Qed.
Print Assumptions C31_required.

Section Ex.
  Definition pr (n : str) (a : option str) : param := mkParam POSITIONAL_OR_KEYWORD n a None.
  Definition getv (d : kw nat) (k : str) : nat := match kget d k with Some v => v | None => 0%nat end.
  Definition ex_fun : pyfun nat := mkFun [pr $"x" (Some $"int"); pr $"y" None; pr $"z" (Some $"'Optional[int]'")]
    (fun _ d => Ok (getv d $"x" + 10 * getv d $"y")%nat).
  Definition ex_queries : list (str * pyfun nat) :=
    [($"w", mkFun [pr $"name" None] (fun _ d => Ok (getv d $"name" + 1)%nat));
     ($"x", mkFun [pr $"w" None] (fun _ d => Ok (getv d $"w" * 2)%nat));
     ($"z", mkFun [] (fun _ _ => Ok 99%nat))].
  Example C31_meets :
    NoDup (map fst ex_queries) /\
    softquery ex_fun ex_queries [($"name", 3%nat); ($"y", 1%nat)] =
      ([($"w", [($"name", 3%nat)]); ($"x", [($"w", 4%nat)])],
       Ok [($"name", 3%nat); ($"y", 1%nat); ($"w", 4%nat); ($"x", 8%nat)]) /\
    loader_call ex_fun ex_queries $"IMAGE" [($"name", 3%nat); ($"y", 1%nat)] = Ok ($"IMAGE", 18%nat) /\
    softquery ex_fun ex_queries [($"name", 3%nat)] = ([], Err TypeError) /\
    not_optional (pr $"z" (Some $"'Optional[int]'")) = false.
  Proof. repeat split. repeat constructor; cbn; intuition discriminate. Qed.
End Ex.
(** Finding: an argument annotated Optional but without a default is never
    queried, so the call fails although a query could have supplied it. *)
Theorem C31_optional_refuted : exists (f : pyfun nat) queries d g,
  In ($"z", g) queries /\ get_argnames g = [] /\ (forall args d, f_call g args d = Ok 99%nat) /\
  (forall d, kget d $"z" = Some 99%nat -> f_call f [] d = Ok 0%nat) /\
  loader_call f queries $"n" d = Err TypeError.
Proof.
  exists (mkFun [pr $"z" (Some $"Optional[int]")]
           (fun _ d => match kget d $"z" with Some _ => Ok 0%nat | None => Err TypeError end)),
         [($"z", mkFun [] (fun _ _ => Ok 99%nat))], [], (mkFun [] (fun _ _ => Ok 99%nat)).
  repeat split; cbn; auto. intros d ->. reflexivity.
Qed.
Print Assumptions C31_optional_refuted.
(** Finding: a query that uses the answer of a later query is called without it. *)
Theorem C31_order_refuted : exists (f : pyfun nat) q1 q2,
  loader_call f [q1; q2] $"n" [] <> loader_call f [q2; q1] $"n" [].
Proof.
  exists (mkFun [pr $"a" None; pr $"b" None] (fun _ d => Ok (getv d $"a"))),
    ($"a", mkFun [pr $"b" None] (fun _ d => Ok (getv d $"b"))), ($"b", mkFun [] (fun _ _ => Ok 5%nat)).
  discriminate.
Qed.
Print Assumptions C31_order_refuted.

(** ** C32: special cases *)
Theorem C32_special : forall V is_true (f : pyfun V) (check : checker V) error args d flag result,
  c_call check args (filter (fun kv => str_in (fst kv) (map p_name (c_params check))) d) = Ok (flag, result) ->
  is_true flag = true ->
  specialize is_true f check error args d =
    ([CheckCalled args (filter (fun kv => str_in (fst kv) (map p_name (c_params check))) d)], Ok result).
Proof. intros V is_true f check error args d flag result H Hf. unfold specialize. now rewrite H, Hf. Qed.
Print Assumptions C32_special.
Theorem C32_generic : forall V is_true (f : pyfun V) (check : checker V) error args d flag result v,
  c_call check args (filter (fun kv => str_in (fst kv) (map p_name (c_params check))) d) = Ok (flag, result) ->
  is_true flag = false -> f_call f args (filterkwargs f d) = Ok v ->
  snd (specialize is_true f check error args d) = Ok v /\
  exists c, fst (specialize is_true f check error args d) = [c; FuncCalled args (filterkwargs f d)].
Proof.
  intros V is_true f check error args d flag result v H Hf Hv. unfold specialize, call_kwargfiltered. rewrite H, Hf, Hv.
  split; [destruct error; reflexivity|]. eexists. reflexivity.
Qed.
Print Assumptions C32_generic.
(** Whatever fails, in the check or in the function, is passed on, or turned
    into the handler's answer when there is a handler. *)
Theorem C32_failure : forall V is_true (f : pyfun V) (check : checker V) error args d,
  let cd := filter (fun kv => str_in (fst kv) (map p_name (c_params check))) d in
  (forall e, c_call check args cd = Err e ->
     snd (specialize is_true f check error args d) = match error with Some h => Ok (h e) | None => Err e end) /\
  (forall e flag result, c_call check args cd = Ok (flag, result) -> is_true flag = false ->
     f_call f args (filterkwargs f d) = Err e ->
     snd (specialize is_true f check error args d) = match error with Some h => Ok (h e) | None => Err e end).
Proof.
  intros V is_true f check error args d cd. unfold specialize, call_kwargfiltered. fold cd. split.
  - intros e ->. destruct error; reflexivity.
  - intros e flag result -> -> ->. destruct error; reflexivity.
Qed.
Print Assumptions C32_failure.
Example C32_meets :
  let check := mkCheck [pr $"x" None] (fun _ d => Ok (if (5 <? getv d $"x")%nat then 1 else 0, 77)%nat) in
  let is_true := Nat.eqb 1 in
  specialize is_true ex_fun check None [] [($"x", 9%nat); ($"y", 1%nat)] =
    ([CheckCalled [] [($"x", 9%nat)]], Ok 77%nat) /\
  specialize is_true ex_fun check None [] [($"x", 2%nat); ($"y", 1%nat)] =
    ([CheckCalled [] [($"x", 2%nat)]; FuncCalled [] [($"x", 2%nat); ($"y", 1%nat)]], Ok 12%nat).
Proof. split; reflexivity. Qed.

(** ** C59: the signature of a specialized function.  [params] are the distinct
    parameters of both functions, in whatever order Python's set yields them. *)
Theorem C59_names : forall params sig, NoDup params -> sig_union params = Ok sig ->
  (forall p q, In p sig -> In q sig -> p_name p = p_name q -> p = q) /\
  (forall p, In p sig -> In p params) /\
  (forall p, In p params -> exists w, In w sig /\ p_name w = p_name p /\
     (p_ann p <> None -> p_ann w <> None)).
Proof.
  intros params sig Hn H. unfold sig_union in H.
  destruct (fold_left union_pair (combinations2 params) (Ok params)) as [out|e] eqn:E; [|discriminate].
  cbn [rbind] in H. destruct (defaults_ok false (paramsort out)); [|discriminate]. injection H as <-.
  assert (Hin : forall p, In p (paramsort out) <-> In p out).
  { intros p. split; apply Permutation_in; [apply paramsort_perm|apply Permutation_sym, paramsort_perm]. }
  split; [|split].
  - intros p q Hp Hq. rewrite Hin in Hp, Hq. eapply union_unique; eauto.
  - intros p Hp. rewrite Hin in Hp. eapply union_subset; eauto.
  - intros p Hp. destruct (union_survives params out p Hn E Hp) as (w & Hw & En & Ha). exists w. rewrite Hin.
    split; [exact Hw|]. split; [exact En|]. unfold annotated in Ha. destruct (p_ann p), (p_ann w); try congruence.
    specialize (Ha eq_refl). discriminate.
Qed.
Print Assumptions C59_names.
Theorem C59_order : forall params sig, sig_union params = Ok sig ->
  StronglySorted (fun p q => key p <= key q)%nat sig.
Proof.
  intros params sig H. unfold sig_union in H.
  destruct (fold_left union_pair (combinations2 params) (Ok params)) as [out|e] eqn:E; [|discriminate].
  cbn [rbind] in H. destruct (defaults_ok false (paramsort out)); [|discriminate]. injection H as <-.
  apply paramsort_sorted.
Qed.
Print Assumptions C59_order.
(** TypeError exactly when the same name carries two different annotations. *)
Theorem C59_conflict : forall params, NoDup params ->
  (sig_union params = Err TypeError <->
   exists p q a b, In p params /\ In q params /\ p_name p = p_name q /\
     p_ann p = Some a /\ p_ann q = Some b /\ a <> b).
Proof.
  intros params Hn. unfold sig_union. rewrite union_fold.
  destruct (existsb conflict (combinations2 params)) eqn:E; cbn [rbind].
  - split; [intros _|reflexivity]. apply existsb_exists in E as ([p q] & Hin & Hc).
    apply comb_in in Hin as (l1 & l2 & l3 & ->). unfold conflict, same_name in Hc. cbn [fst snd] in Hc.
    apply andb_true_iff in Hc as [Hs Hc]. apply str_eqb_eq in Hs.
    destruct (p_ann p) as [a|] eqn:Ea; [|discriminate]. destruct (p_ann q) as [b|] eqn:Eb; [|discriminate].
    exists p, q, a, b. repeat split; auto.
    + apply in_or_app. right. now left.
    + apply in_or_app. right. right. apply in_or_app. right. now left.
    + intros ->. rewrite str_eqb_refl in Hc. discriminate.
  - split.
    + destruct (defaults_ok _ _); discriminate.
    + intros (p & q & a & b & Hp & Hq & En & Ea & Eb & Hab). exfalso.
      assert (Hpq : p <> q) by (intros ->; congruence).
      assert (Hx : forall u v x y, In (u, v) (combinations2 params) -> p_name u = p_name v ->
         p_ann u = Some x -> p_ann v = Some y -> x <> y -> False).
      { intros u v x y Hin Eu E1 E2 Hxy. assert (H : existsb conflict (combinations2 params) = true); [|congruence].
        apply existsb_exists. exists (u, v). split; [exact Hin|]. unfold conflict, same_name. cbn [fst snd].
        rewrite Eu, str_eqb_refl, E1, E2. cbn. destruct (str_eqb x y) eqn:Exy; [apply str_eqb_eq in Exy; congruence|reflexivity]. }
      destruct (comb_two params p q Hp Hq Hpq) as [Hin|Hin]; eapply Hx; eauto.
Qed.
Print Assumptions C59_conflict.
Example C59_meets :
  let p1 := pr $"a" None in let p2 := pr $"a" (Some $"int") in let p3 := pr $"b" (Some $"Optional[int]") in
  let p4 := mkParam KEYWORD_ONLY $"c" None None in let p5 := pr $"d" None in
  NoDup [p4; p3; p1; p2; p5] /\ sig_union [p4; p3; p1; p2; p5] = Ok [p2; p5; p3; p4].
Proof. split; [|reflexivity]. repeat constructor; cbn; intuition discriminate. Qed.
(** Finding: whether a signature can be built may depend on the order in which a
    set happens to yield the parameters. *)
Theorem C59_set_order_refuted : exists params params', Permutation params params' /\
  sig_union params = Err ValueError /\ exists sig, sig_union params' = Ok sig.
Proof.
  exists [mkParam POSITIONAL_OR_KEYWORD $"x" None (Some $"1"); pr $"y" None],
    [pr $"y" None; mkParam POSITIONAL_OR_KEYWORD $"x" None (Some $"1")].
  split; [constructor|]. split; [reflexivity|]. eexists. reflexivity.
Qed.
Print Assumptions C59_set_order_refuted.
