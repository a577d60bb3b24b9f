From Coq Require Import Lia.
From Verif.Base Require Import Py Val PyFacts.
From Verif.Model Require Import Xml ImageMeta.
From Verif.Proofs Require Import Xml Scaling.
From Verif.Spec Require Import Xml ImageMeta.
Open Scope nat_scope.

(** ** dicts *)
Lemma firsts_in k l : In k (firsts l) <-> In k l.
Proof.
  induction l as [|x l IH]; [reflexivity|]. cbn [firsts In]. rewrite filter_In, IH. destruct (str_eqb_spec x k) as [E|N]; [tauto|].
  cbn [negb]. intuition congruence.
Qed.
Lemma firsts_snoc l k : firsts (l ++ [k]) = if str_in k l then firsts l else firsts l ++ [k].
Proof.
  induction l as [|x l IH]; [reflexivity|]. cbn [app firsts]. rewrite IH. change (str_in k (x :: l)) with (str_eqb k x || str_in k l).
  destruct (str_in k l) eqn:E.
  - now rewrite Bool.orb_true_r.
  - rewrite Bool.orb_false_r, filter_app. cbn [filter]. destruct (str_eqb_spec x k) as [->|N].
    + rewrite str_eqb_refl. cbn [negb]. now rewrite app_nil_r.
    + replace (str_eqb k x) with false by (symmetry; apply str_eqb_neq; congruence). reflexivity.
Qed.
Lemma dict_set_keys {A} (d : list (str * A)) k v : map fst (dict_set d k v) = if str_in k (map fst d) then map fst d else map fst d ++ [k].
Proof.
  induction d as [|[x w] d IH]; [reflexivity|]. cbn [dict_set map fst]. change (str_in k (x :: map fst d)) with (str_eqb k x || str_in k (map fst d)).
  destruct (str_eqb_spec x k) as [->|N].
  - now rewrite str_eqb_refl.
  - replace (str_eqb k x) with false by (symmetry; apply str_eqb_neq; congruence). cbn [orb map fst]. rewrite IH. now destruct (str_in k (map fst d)).
Qed.
Lemma dict_set_in {A} (d : list (str * A)) k v x w : NoDup (map fst d) -> In (x, w) (dict_set d k v) -> (x = k /\ w = v) \/ (x <> k /\ In (x, w) d).
Proof.
  induction d as [|[y u] d IH]; intros N I.
  - destruct I as [[= -> ->]|[]]. now left.
  - cbn [dict_set] in I. cbn [map fst] in N. inversion N as [|? ? NI N']; subst. destruct (str_eqb_spec y k) as [->|D].
    + destruct I as [[= -> ->]|I]; [now left|]. right. split; [|now right]. intros ->. apply NI. now apply (in_map fst) in I.
    + destruct I as [[= -> ->]|I]; [right; split; [congruence|now left]|]. destruct (IH N' I) as [H|[H1 H2]]; [now left|]. right. split; [exact H1|now right].
Qed.
Lemma firsts_nodup l : NoDup (firsts l).
Proof.
  induction l as [|x l IH]; [constructor|]. cbn [firsts]. constructor.
  - intros I. apply filter_In in I as [_ I]. now rewrite str_eqb_refl in I.
  - now apply NoDup_filter.
Qed.
Lemma last_snoc {A} (l : list (str * A)) k v x w : last_said (l ++ [(k, v)]) x w <-> (x = k /\ w = v) \/ (x <> k /\ last_said l x w).
Proof.
  split.
  - intros (a & b & E & N). destruct b as [|b0 b] using rev_ind.
    + apply app_inj_tail in E as [_ [= -> ->]]. now left.
    + clear IHb. rewrite app_comm_cons, app_assoc in E. apply app_inj_tail in E as [E <-]. right. rewrite map_app, in_app_iff in N. cbn [map fst In] in N. split; [intuition congruence|].
      exists a, b. split; [exact E|tauto].
  - intros [[-> ->]|[D (a & b & -> & N)]].
    + exists l, []. split; [reflexivity|intros []].
    + exists a, (b ++ [(k, v)]). split; [now rewrite <- app_assoc|]. rewrite map_app, in_app_iff. cbn [map fst In]. intuition congruence.
Qed.
Lemma dict_of_nil {A} : dict_of (A:=A) [] [].
Proof. split; [reflexivity|constructor]. Qed.
Lemma dict_of_snoc {A} (l d : list (str * A)) k v : dict_of l d -> dict_of (l ++ [(k, v)]) (dict_set d k v).
Proof.
  intros [K F]. assert (N : NoDup (map fst d)) by (rewrite K; apply firsts_nodup). split.
  - rewrite dict_set_keys, map_app. cbn [map fst]. rewrite firsts_snoc. rewrite K. replace (str_in k (firsts (map fst l))) with (str_in k (map fst l)); [reflexivity|].
    apply Bool.eq_iff_eq_true. now rewrite !str_in_iff, firsts_in.
  - apply Forall_forall. intros [x w] I. cbn [fst snd]. apply last_snoc. destruct (dict_set_in d k v x w N I) as [H|[H1 H2]]; [now left|]. right. split; [exact H1|].
    rewrite Forall_forall in F. exact (F _ H2).
Qed.
Lemma dict_of_more {A} (f : A -> str * pv) l2 : forall l d, dict_of l d -> dict_of (l ++ map f l2) (fold_left (fun d x => dict_set d (fst (f x)) (snd (f x))) l2 d).
Proof.
  induction l2 as [|x l2 IH]; intros l d H; cbn [map fold_left]; [now rewrite app_nil_r|].
  replace (l ++ f x :: map f l2) with ((l ++ [f x]) ++ map f l2) by (now rewrite <- app_assoc). apply IH. replace (l ++ [f x]) with (l ++ [(fst (f x), snd (f x))]) by (now rewrite <- surjective_pairing). now apply dict_of_snoc.
Qed.
Lemma dict_of_unique {A} (l d d' : list (str * A)) : dict_of l d -> dict_of l d' -> d = d'.
Proof.
  intros [K F] [K' F']. rewrite <- K in K'. clear K. revert d' K' F'.
  assert (U : forall k v w, last_said l k v -> last_said l k w -> v = w).
  { clear. intros k v w. induction l as [|[x u] l IH] using rev_ind; [intros (a & b & E & _); now destruct a|].
    rewrite !last_snoc. intros [[E1 ->]|[D1 H1]] [[E2 ->]|[D2 H2]]; try congruence. now apply IH. }
  induction F as [|[k v] d H F IH]; intros [|[k' v'] d'] E F'; try discriminate; [reflexivity|]. cbn [map fst] in E. injection E as -> E.
  inversion F' as [|? ? H' F'']; subst. cbn [fst snd] in H, H'. rewrite (U _ _ _ H H'). f_equal. now apply IH.
Qed.
Lemma last_get {A} (l d : list (str * A)) k v : dict_of l d -> (dict_get d k = Some v <-> last_said l k v).
Proof.
  intros D. destruct D as [K F].
  assert (G : forall w, dict_get d k = Some w -> last_said l k w).
  { intros w H. unfold dict_get in H. destruct (find _ d) as [[x u]|] eqn:E; [|discriminate]. apply find_some in E as [I E]. cbn [fst] in E. apply str_eqb_eq in E as ->. injection H as ->.
    rewrite Forall_forall in F. exact (F _ I). }
  split; [apply G|]. intros H.
  assert (I : In k (map fst d)). { rewrite K. apply firsts_in. destruct H as (a & b & -> & _). rewrite map_app, in_app_iff. right. now left. }
  apply in_map_iff in I as ([k' w] & E & I). cbn [fst] in E. subst k'.
  assert (E : dict_get d k = Some w).
  { clear - I K. assert (N : NoDup (map fst d)) by (rewrite K; apply firsts_nodup). clear K. unfold dict_get. induction d as [|[x u] d IH]; [destruct I|]. cbn [find fst]. cbn [map fst] in N. inversion N as [|? ? NI N']; subst.
    destruct I as [[= -> ->]|I]; [now rewrite str_eqb_refl|]. destruct (str_eqb_spec x k) as [->|D]; [|now apply IH]. exfalso. apply NI. now apply (in_map fst) in I. }
  rewrite E. f_equal. pose proof (G w E) as L. clear - H L.
  revert H L. induction l as [|[x u] l IH] using rev_ind; [intros (a & b & E & _); now destruct a|].
  rewrite !last_snoc. intros [[E1 ->]|[D1 H1]] [[E2 ->]|[D2 H2]]; try congruence. now apply IH.
Qed.
Lemma last_app {A} (l e : list (str * A)) k v : last_said (l ++ e) k v <-> last_said e k v \/ (last_said l k v /\ ~ In k (map fst e)).
Proof.
  induction e as [|[x w] e IH] using rev_ind.
  - rewrite app_nil_r. split; [intros H; right; split; [exact H|intros []]|]. intros [(a & b & E & _)|[H _]]; [now destruct a|exact H].
  - rewrite app_assoc, !last_snoc, IH, map_app, in_app_iff. cbn [map fst In]. split.
    + intros [H|[D [H|[H N]]]]; [tauto|tauto|]. right. split; [exact H|]. intuition congruence.
    + intros [H|[H N]]; [tauto|]. right. split; [intros ->; tauto|tauto].
Qed.
Lemma firsts_app l e : firsts (l ++ firsts e) = firsts (l ++ e).
Proof.
  induction l as [|x l IH]; cbn [app firsts]; [|now rewrite IH]. induction e as [|x e IHe]; [reflexivity|]. cbn [firsts]. f_equal.
  assert (F : forall (f g : str -> bool) m, filter f (filter g m) = filter g (filter f m)).
  { clear. intros f g m. induction m as [|a m IH]; [reflexivity|]. cbn [filter]. destruct (f a) eqn:E, (g a) eqn:E'; cbn [filter]; rewrite ?E, ?E', ?IH; reflexivity. }
  assert (S : forall m, firsts (filter (fun y => negb (str_eqb x y)) m) = filter (fun y => negb (str_eqb x y)) (firsts m)).
  { clear - F. induction m as [|y m IH]; [reflexivity|]. cbn [filter]. destruct (str_eqb_spec x y) as [->|N]; cbn [negb].
    - cbn [firsts filter]. rewrite str_eqb_refl. cbn [negb]. rewrite IH. clear. induction (firsts m) as [|a l IH]; [reflexivity|]. cbn [filter]. destruct (str_eqb y a) eqn:E; cbn [negb filter]; [exact IH|]. rewrite E. cbn [negb]. now rewrite <- IH.
    - cbn [firsts filter]. replace (str_eqb x y) with false by (symmetry; now apply str_eqb_neq). cbn [negb]. f_equal. rewrite IH. apply F. }
  rewrite S, IHe. clear. induction (firsts e) as [|a l IH]; [reflexivity|]. cbn [filter]. destruct (str_eqb x a) eqn:E; cbn [negb filter]; [exact IH|]. rewrite E. cbn [negb]. now rewrite IH.
Qed.
Lemma dict_of_update (l d es e : list (str * pv)) : dict_of l d -> dict_of es e -> dict_of (l ++ es) (update d e).
Proof.
  intros D E. pose proof (dict_of_more (fun x : str * pv => x) e l d D) as H. rewrite map_id in H. fold (update d e) in H. destruct H as [K F]. split.
  - rewrite K, !map_app. rewrite (proj1 E), firsts_app. reflexivity.
  - eapply Forall_impl; [|exact F]. intros [k v]. cbn [fst snd]. rewrite !last_app.
    assert (G : last_said e k v -> last_said es k v).
    { intros (a & b & -> & _). destruct E as [_ E]. rewrite Forall_forall in E. apply (E (k, v)). apply in_app_iff. right. now left. }
    intros [H|[H N]]; [left; now apply G|]. right. split; [exact H|]. rewrite (proj1 E), firsts_in in N. exact N.
Qed.

(** ** names *)
Lemma strip_plain s : ~ In "{"%char s -> forall fuel, List.length s <= fuel -> strip_from fuel s = s.
Proof.
  induction s as [|c s IH]; intros N fuel L; [now destruct fuel|]. cbn [List.length] in L. destruct fuel as [|fuel]; [lia|]. cbn [strip_from].
  unfold ch_eqb. replace (Ascii.eqb c "{") with false by (symmetry; apply Ascii.eqb_neq; intros ->; apply N; now left). f_equal. apply IH; [|lia]. intros I. apply N. now right.
Qed.
Lemma closing_ok uri name : ~ In "}"%char uri -> ~ In NL uri -> closing (uri ++ "}"%char :: name) = Some name.
Proof.
  induction uri as [|c uri IH]; intros N1 N2; [reflexivity|]. cbn [app closing]. unfold ch_eqb.
  replace (Ascii.eqb c "}") with false by (symmetry; apply Ascii.eqb_neq; intros ->; apply N1; now left).
  replace (Ascii.eqb c NL) with false by (symmetry; apply Ascii.eqb_neq; intros ->; apply N2; now left). apply IH; intros I; [apply N1|apply N2]; now right.
Qed.
Lemma strip_local tag name : local tag name -> strip_ns tag = name.
Proof.
  intros [n N|uri n N1 N2 N3]; unfold strip_ns; [now apply strip_plain|].
  change ($"{" ++ uri ++ $"}" ++ n) with ("{"%char :: uri ++ "}"%char :: n). cbn [List.length strip_from]. change (ch_eqb "{" "{") with true. cbv iota.
  rewrite closing_ok by assumption. apply strip_plain; [exact N3|]. rewrite app_length. cbn [List.length]. lia.
Qed.

(** ** text *)
Lemma strip_split t : exists a b, t = a ++ strip t ++ b /\ blank a /\ blank b.
Proof.
  unfold strip, strip_by, rstrip_by. destruct (lstrip_by_spec is_space t) as (a & Ea & Ba & _). set (m := lstrip_by is_space t) in *. clearbody m.
  destruct (lstrip_by_spec is_space (rev m)) as (b & Eb & Bb & _). set (r := lstrip_by is_space (rev m)) in *. clearbody r.
  exists a, (rev b). split; [|split; [exact Ba|]].
  - rewrite Ea. f_equal. now rewrite <- rev_app_distr, <- Eb, rev_involutive.
  - unfold blank. apply Forall_forall. intros z I. apply in_rev in I. rewrite Forall_forall in Bb. now apply Bb.
Qed.
Lemma text_none t : text_is t None <-> has_text t = false.
Proof.
  unfold has_text. split.
  - intros H. inversion H as [|s B|]; subst; [reflexivity|]. unfold strip. rewrite strip_by_blank by exact B. reflexivity.
  - destruct t as [t|]; [|constructor]. intros H. apply blank_text. destruct (str_eqb_spec (strip t) []) as [E|]; [|discriminate]. clear H.
    destruct (strip_split t) as (a & b & Et & Ba & Bb). rewrite E in Et. rewrite Et. apply Forall_app. now split.
Qed.
Lemma text_some t w : text_is t (Some w) -> has_text t = true /\ stripped t = PStr w.
Proof.
  intros H. inversion H as [| |a w' b c x d u Ba Bb E1 E2 Hc Hd]; subst t w'. unfold has_text, stripped, strip. rewrite strip_by_blank_around by assumption.
  rewrite (strip_by_fixed is_space w c d x u) by (assumption || congruence). split; [|reflexivity]. now rewrite E1.
Qed.
Lemma text_total t : has_text t = true -> exists w, text_is t (Some w) /\ stripped t = PStr w.
Proof.
  destruct t as [t|]; [|discriminate]. cbn [has_text stripped]. intros H. exists (strip t). split; [|reflexivity].
  destruct (strip_by_ends is_space t) as [E|(c & x & u & d & E1 & E2 & Hc & Hd)]; [fold (strip t) in E; now rewrite E in H|]. fold (strip t) in E1, E2.
  destruct (strip_split t) as (a & b & Et & Ba & Bb). rewrite Et at 1. eapply some_text; eassumption.
Qed.

(** ** elements *)
Lemma attrib_shown nm a : Forall (fun a => local (fst a) (nm (fst a))) a -> attributes_shown nm a (attrib_of true a).
Proof.
  intros F. unfold attributes_shown, attrib_of.
  pose proof (dict_of_more (fun x : str * str => (strip_ns (fst x), PStr (snd x))) a [] [] dict_of_nil) as H. cbn [app fst snd] in H. cbn [maybestrip_ns].
  replace (map (fun x : str * str => (nm (fst x), PStr (snd x))) a) with (map (fun x : str * str => (strip_ns (fst x), PStr (snd x))) a); [exact H|].
  apply map_ext_in. intros x I. rewrite Forall_forall in F. now rewrite (strip_local _ _ (F x I)).
Qed.
(** the list of the children *)
Definition unpack_all (remove_ns : bool) : list xml -> res (list (str * pv)) :=
  fix go l := match l with
              | [] => Ok []
              | node :: l' =>
                  do unpacked <- unpack_xml remove_ns node;
                  do r <- go l';
                  Ok (match unpacked with
                      | Some v => if is_empty unpacked then r else (maybestrip_ns (match node with Elem t _ _ _ _ => t end) remove_ns, v) :: r
                      | None => r
                      end)
              end.
Lemma unpack_eq rm tag a text tail cs : unpack_xml rm (Elem tag a text tail cs) =
  (do pick <- pick_text_attrib rm a text (List.length cs);
   match cs with
   | [] => Ok pick
   | _ => do kept <- unpack_all rm cs; Ok (Some (PMulti (match pick with Some (PDict d) => d | _ => [] end ++ kept)))
   end).
Proof. destruct cs; reflexivity. Qed.
Lemma attrs_nonempty nm x a d : attributes_shown nm (x :: a) d -> d <> [].
Proof. intros [K _] ->. discriminate. Qed.
Lemma kept_eq nm e v : local (tag_of e) (nm (tag_of e)) -> shown nm e v -> forall r,
  match v with
  | Some w => if is_empty v then r else (maybestrip_ns (match e with Elem t _ _ _ _ => t end) true, w) :: r
  | None => r
  end = kept nm e v ++ r.
Proof.
  intros L H r. assert (T : maybestrip_ns (match e with Elem t _ _ _ _ => t end) true = nm (tag_of e)) by (destruct e; exact (strip_local _ _ L)). rewrite T. clear T L.
  inversion H as [|tag text tail w X|tag a text tail d N X D|tag a text tail d w N X D|tag a text tail cs d vs N X D F]; subst e v.
  - reflexivity.
  - inversion X as [| |a w' b c t d u Ba Bb E1 E2 Hc Hd]; subst. reflexivity.
  - destruct a as [|x a]; [congruence|]. apply attrs_nonempty in D. destruct d; [congruence|reflexivity].
  - reflexivity.
  - destruct (d ++ _); reflexivity.
Qed.
Lemma unpack_ok nm e : locals nm e -> (forall x, inside x e -> ~ mixed x) -> exists v, unpack_xml true e = Ok v /\ shown nm e v.
Proof.
  induction e as [tag a text tail cs IH] using xml_ind'. intros L M. rewrite unpack_eq. pose proof (L _ (inside_self _)) as [_ LA]. cbn [attributes] in LA.
  pose proof (attrib_shown nm a LA) as D. unfold pick_text_attrib. destruct cs as [|c cs].
  - cbn [List.length Nat.ltb Nat.leb]. rewrite Bool.andb_false_r. destruct (has_text text) eqn:T.
    + destruct (text_total text T) as (w & X & E). rewrite E. destruct a as [|x a].
      * exists (Some (PStr w)). split; [reflexivity|]. now constructor.
      * eexists. split; [reflexivity|]. constructor; [discriminate|exact X|exact D].
    + apply text_none in T. destruct a as [|x a].
      * exists None. split; [reflexivity|]. now constructor.
      * eexists. split; [reflexivity|]. constructor; [discriminate|exact T|exact D].
  - assert (T : text_is text None).
    { destruct (has_text text) eqn:E; [|now apply text_none]. exfalso. apply (M _ (inside_self _)). split; [discriminate|]. cbn [text_of]. rewrite text_none, E. discriminate. }
    rewrite (proj1 (text_none text) T). cbn [andb negb].
    assert (R : forall l, (forall x, In x l -> In x (c :: cs)) -> exists vs, Forall2 (shown nm) l vs /\ unpack_all true l = Ok (flat_map (fun cv => kept nm (fst cv) (snd cv)) (combine l vs))).
    { induction l as [|x l IHl]; intros S; [exists []; now split|]. destruct (IHl (fun y H => S y (or_intror H))) as (vs & F & E).
      rewrite Forall_forall in IH. assert (Ix : In x (c :: cs)) by (apply S; now left).
      destruct (IH x Ix) as (v & Ev & Hv).
      - intros y Hy. apply L. eapply inside_child; [exact Ix|exact Hy].
      - intros y Hy. apply M. eapply inside_child; [exact Ix|exact Hy].
      - exists (v :: vs). split; [now constructor|]. cbn [unpack_all]. fold (unpack_all true). rewrite Ev. cbn [rbind]. rewrite E. cbn [rbind combine flat_map fst snd]. f_equal.
        apply kept_eq; [|exact Hv]. apply L. eapply inside_child; [exact Ix|apply inside_self]. }
    destruct (R (c :: cs) (fun x H => H)) as (vs & F & E). destruct a as [|x a]; cbn [List.length Nat.eqb negb rbind]; rewrite E; cbn [rbind].
    + eexists. split; [reflexivity|]. constructor; [discriminate|exact T|exact D|exact F].
    + eexists. split; [reflexivity|]. constructor; [discriminate|exact T|exact D|exact F].
Qed.
Lemma unpack_only rm e : (exists v, unpack_xml rm e = Ok v) \/ unpack_xml rm e = Err SyntaxError.
Proof.
  induction e as [tag a text tail cs IH] using xml_ind'. rewrite unpack_eq. unfold pick_text_attrib.
  assert (R : (exists v, unpack_all rm cs = Ok v) \/ unpack_all rm cs = Err SyntaxError).
  { induction IH as [|c cs H F IHF]; [left; now exists []|]. cbn [unpack_all]. fold (unpack_all rm). destruct H as [[v ->]| -> ]; [|now right]. cbn [rbind].
    destruct IHF as [[r ->]| -> ]; [|now right]. left. eexists. reflexivity. }
  destruct cs as [|c cs]; [left; cbn [List.length Nat.ltb Nat.leb]; rewrite Bool.andb_false_r; destruct (has_text text), a; eexists; reflexivity|].
  destruct (has_text text); cbn [andb]; [now right|]. destruct R as [[r E]|E]; rewrite E; [left|right]; destruct a; cbn; eauto.
Qed.
Lemma unpack_mixed rm e x : inside x e -> mixed x -> unpack_xml rm e = Err SyntaxError.
Proof.
  intros I [N T]. induction I as [x|x c [tag a text tail cs] Ic I IH].
  - destruct x as [tag a text tail cs]. cbn [children text_of] in N, T. rewrite text_none in T. rewrite unpack_eq. unfold pick_text_attrib. destruct (has_text text); [|congruence].
    destruct cs as [|c cs]; [congruence|reflexivity].
  - specialize (IH N T). cbn [children] in Ic. rewrite unpack_eq.
    assert (R : unpack_all rm cs = Err SyntaxError).
    { clear - IH Ic. induction cs as [|d cs IHc]; [destruct Ic|]. cbn [unpack_all]. fold (unpack_all rm). destruct Ic as [->|Ic]; [now rewrite IH|].
      destruct (unpack_only rm d) as [[v ->]| -> ]; [|reflexivity]. cbn [rbind]. now rewrite (IHc Ic). }
    destruct cs as [|d cs]; [destruct Ic|]. unfold pick_text_attrib. destruct (has_text text); [reflexivity|]. cbn [andb]. destruct a; cbn [List.length Nat.eqb negb andb rbind]; now rewrite R.
Qed.
Lemma unpack_err rm e : unpack_xml rm e = Err SyntaxError -> exists x, inside x e /\ mixed x.
Proof.
  induction e as [tag a text tail cs IH] using xml_ind'. rewrite unpack_eq. unfold pick_text_attrib. destruct cs as [|c cs].
  - cbn [List.length Nat.ltb Nat.leb]. rewrite Bool.andb_false_r. destruct (has_text text), a; discriminate.
  - destruct (has_text text) eqn:T; cbn [andb].
    + intros _. eexists. split; [apply inside_self|]. split; [discriminate|]. cbn [text_of]. rewrite text_none, T. discriminate.
    + intros H. assert (R : unpack_all rm (c :: cs) = Err SyntaxError).
      { destruct (unpack_all rm (c :: cs)) as [r|e] eqn:E; [destruct a; discriminate|]. destruct a; cbn in H; congruence. }
      assert (S : exists y x, In y (c :: cs) /\ inside x y /\ mixed x).
      { clear - IH R. induction IH as [|d l H F IHF]; [discriminate|]. cbn [unpack_all] in R. fold (unpack_all rm) in R. destruct (unpack_xml rm d) as [v|e] eqn:E; cbn [rbind] in R.
        - destruct (unpack_all rm l); [discriminate|]. destruct (IHF R) as (y & x & I & K). exists y, x. split; [now right|exact K].
        - injection R as ->. destruct (H eq_refl) as (x & K). exists d, x. split; [now left|exact K]. }
      destruct S as (y & x & I & K & M). exists x. split; [|exact M]. eapply inside_child; [exact I|exact K].
Qed.

Lemma shown_unpack nm e : locals nm e -> forall v, shown nm e v -> unpack_xml true e = Ok v.
Proof.
  induction e as [tag a text tail cs IH] using xml_ind'. intros L v H. pose proof (L _ (inside_self _)) as [_ LA]. cbn [attributes] in LA.
  pose proof (attrib_shown nm a LA) as D. rewrite unpack_eq. unfold pick_text_attrib.
  inversion H as [? ? ? X|? ? ? w X|? ? ? ? d N X D'|? ? ? ? d w N X D'|? ? ? ? ? d vs N X D' F]; subst;
    try (apply text_none in X; rewrite X); try (apply text_some in X as [X X2]; rewrite X, X2); try (rewrite (dict_of_unique _ _ _ D D')); cbn [andb negb List.length Nat.eqb Nat.ltb Nat.leb].
  - reflexivity.
  - reflexivity.
  - destruct a; [congruence|reflexivity].
  - destruct a; [congruence|reflexivity].
  - assert (R : unpack_all true cs = Ok (flat_map (fun cv => kept nm (fst cv) (snd cv)) (combine cs vs))).
    { assert (Lc : forall c, In c cs -> locals nm c) by (intros c Ic x Ix; apply L; eapply inside_child; [exact Ic|exact Ix]). clear - F IH Lc.
      induction F as [|c v cs vs Hv F IHF]; [reflexivity|]. inversion IH as [|? ? Hc IHc]; subst. cbn [unpack_all]. fold (unpack_all true).
      rewrite (Hc (Lc c (or_introl eq_refl)) v Hv). cbn [rbind]. rewrite (IHF IHc (fun y I => Lc y (or_intror I))). cbn [rbind combine flat_map fst snd]. f_equal.
      apply kept_eq; [|exact Hv]. apply (Lc c (or_introl eq_refl)). apply inside_self. }
    destruct cs as [|c cs]; [congruence|]. rewrite (dict_of_unique _ _ _ D' D) in *. clear D' . destruct a as [|x a]; cbn [List.length Nat.eqb negb rbind]; rewrite R; reflexivity.
Qed.
Lemma void_child e tag a text tail cs : In e cs -> void (Elem tag a text tail cs) -> void e.
Proof. intros I V x Ix. apply V. eapply inside_child; [exact I|exact Ix]. Qed.
Lemma void_iff nm e : forall v, shown nm e v -> (void e <-> v = None \/ v = Some (PMulti [])).
Proof.
  induction e as [tag a text tail cs IH] using xml_ind'. intros v H.
  inversion H as [? ? ? X|? ? ? w X|? ? ? ? d N X D'|? ? ? ? d w N X D'|? ? ? ? ? d vs N X D' F]; subst.
  - split; [now left|]. intros _ x I. inversion I as [|? ? ? Ic]; subst; [|destruct Ic]. now split.
  - split; [|intros [K|K]; discriminate]. intros V. destruct (V _ (inside_self _)) as [_ K]. cbn [text_of] in K. apply text_none in K. apply text_some in X as [X _]. congruence.
  - split; [|intros [K|K]; discriminate]. intros V. destruct (V _ (inside_self _)) as [K _]. contradiction.
  - split; [|intros [K|K]; discriminate]. intros V. destruct (V _ (inside_self _)) as [K _]. contradiction.
  - assert (R : Forall void cs <-> flat_map (fun cv => kept nm (fst cv) (snd cv)) (combine cs vs) = []).
    { clear - IH F. induction F as [|c v cs vs Hv F IHF]; [split; [reflexivity|constructor]|]. inversion IH as [|? ? Hc IHc]; subst. cbn [combine flat_map fst snd]. rewrite Forall_cons_iff, (Hc v Hv), (IHF IHc). clear.
      assert (K : kept nm c v = [] <-> v = None \/ v = Some (PMulti [])) by (destruct v as [[| | | | | | | |[|]]|]; cbn [kept]; intuition congruence). rewrite <- K.
      split; [intros [-> ->]; reflexivity|apply app_eq_nil]. }
    transitivity (d ++ flat_map (fun cv => kept nm (fst cv) (snd cv)) (combine cs vs) = []); [|split; [intros ->; now right|intros [K|K]; [discriminate|now injection K]]].
    split.
    + intros V. destruct (V _ (inside_self _)) as [K _]. cbn [attributes] in K. subst a. destruct D' as [K _]. destruct d; [|discriminate]. apply R. apply Forall_forall. intros c I. eapply void_child; eassumption.
    + intros E. apply app_eq_nil in E as [-> E]. apply R in E. rewrite Forall_forall in E. assert (a = []) as -> by (destruct a; [reflexivity|]; destruct D' as [K _]; discriminate).
      intros x I. inversion I as [|? c ? Ic Ix]; subst; [now split|]. now apply (E c Ic).
Qed.

(** ** tags *)
Lemma tag_name_ok p im tag name : tag_called p im tag name -> tag_name p im tag = name.
Proof.
  assert (T : has_tiff_tags im <-> match o_attrs im $"format" with Some (PStr f) => str_in f [$"TIFF"; $"MPO"] | _ => false end = true).
  { unfold has_tiff_tags, of_format. destruct (o_attrs im $"format") as [[]|]; try (split; [intros [H|H]; discriminate|discriminate]).
    rewrite str_in_iff. cbn [In]. split; [intros [[= ->]|[= ->]]; [now left|right; now left]|intros [<-|[<-|[]]]; tauto]. }
  unfold tag_name. intros [name' E|E Ht N|E [Ht|Ht]]; rewrite E; [reflexivity| | |].
  - apply T in Ht. rewrite Ht. now rewrite (proj2 (str_eqb_neq _ _) N).
  - destruct (match o_attrs im $"format" with Some (PStr f) => str_in f [$"TIFF"; $"MPO"] | _ => false end); [exfalso; apply Ht; now apply T|reflexivity].
  - rewrite Ht, str_eqb_refl, Bool.andb_false_r. reflexivity.
Qed.
Lemma replace_gps s : ~ (exists a b, s = a ++ $"GPS" ++ b) -> replace_from $"GPS" [] 0 s = s.
Proof.
  induction s as [|c s IH]; intros N; [reflexivity|]. cbn [replace_from]. destruct (startswith $"GPS" (c :: s)) eqn:E.
  - apply startswith_iff in E as (b & E). exfalso. apply N. now exists [], b.
  - f_equal. apply IH. intros (a & b & ->). apply N. now exists (c :: a), b.
Qed.
Lemma gps_name p tag name : gps_called p tag name -> exists g, GPSTAGS p tag = Some g /\ replace $"GPS" [] g = name.
Proof.
  intros [n E N|n E N]; eexists; (split; [exact E|]); unfold replace.
  - change (replace_from $"GPS" [] 0 ($"GPS" ++ n)) with (replace_from $"GPS" [] 0 n). now apply replace_gps.
  - now apply replace_gps.
Qed.
Lemma gps_ok p gps es : Forall2 (fun g e : _ * pv => gps_called p (fst g) (fst e) /\ snd e = snd g) gps es ->
  forall d, add_gps_ifd p gps d = Ok (fold_left (fun d x => dict_set d (fst x) (snd x)) es d).
Proof.
  induction 1 as [|[k v] [n w] gps es [H E] F IH]; intros d; [reflexivity|]. cbn [fst snd] in H, E. subst w. apply gps_name in H as (g & E & <-). cbn [add_gps_ifd fold_left fst snd]. rewrite E. apply IH.
Qed.
Lemma icp_ok attrs : dict_of (map (fun a : str * (bool * pv) => (fst a, snd (snd a)))
  (filter (fun a : str * (bool * pv) => negb (startswith $"__" (fst a)) && negb (fst (snd a))) attrs)) (unpack_icp attrs).
Proof.
  pose proof (dict_of_more (fun a : str * (bool * pv) => (fst a, snd (snd a))) (filter (fun a : str * (bool * pv) => negb (startswith $"__" (fst a)) && negb (fst (snd a))) attrs) [] [] dict_of_nil) as H.
  cbn [app fst snd] in H. replace (unpack_icp attrs) with (fold_left (fun d (x : str * (bool * pv)) => dict_set d (fst x) (snd (snd x))) (filter (fun a : str * (bool * pv) => negb (startswith $"__" (fst a)) && negb (fst (snd a))) attrs) []); [exact H|]. clear H.
  unfold unpack_icp. generalize (@nil (str * pv)). induction attrs as [|[n [b v]] attrs IH]; intros d; [reflexivity|]. cbn [filter fold_left fst snd].
  destruct (startswith $"__" n), b; cbn [negb andb fold_left]; apply IH.
Qed.
Lemma entry_ok p im t es l d : entry p im t es -> dict_of l d -> exists d', add_tag p im d t = Ok d' /\ dict_of (l ++ es) d'.
Proof.
  intros E D. inversion E as [tag v es' C F|tag v root nm x C P L S|tag v attrs e C P De|tag v name C N1 N2 N3]; subst; unfold add_tag; cbn [fst snd]; rewrite (tag_name_ok _ _ _ _ C).
  - rewrite str_eqb_refl. rewrite (gps_ok _ _ _ F). cbn [rbind]. eexists. split; [reflexivity|]. apply dict_of_update; [exact D|].
    pose proof (dict_of_more (fun x : str * pv => x) es [] [] dict_of_nil) as H. rewrite map_id in H. exact H.
  - change (str_eqb $"XMLPacket" $"GPSInfo") with false. cbv iota. rewrite str_eqb_refl, P. cbn [rbind]. rewrite (shown_unpack nm root L x S). cbn [rbind]. eexists. split; [reflexivity|]. now apply dict_of_snoc.
  - change (str_eqb $"InterColorProfile" $"GPSInfo") with false. change (str_eqb $"InterColorProfile" $"XMLPacket") with false. cbv iota. rewrite str_eqb_refl, P. cbn [rbind]. eexists. split; [reflexivity|].
    rewrite (dict_of_unique _ _ _ De (icp_ok attrs)). now apply dict_of_snoc.
  - rewrite (proj2 (str_eqb_neq _ _) N1), (proj2 (str_eqb_neq _ _) N2), (proj2 (str_eqb_neq _ _) N3). eexists. split; [reflexivity|]. now apply dict_of_snoc.
Qed.
Lemma entries_ok p im ts ess : Forall2 (entry p im) ts ess -> forall l d, dict_of l d -> exists d', add_tags p im d ts = Ok d' /\ dict_of (l ++ concat ess) d'.
Proof.
  induction 1 as [|t es ts ess H F IH]; intros l d D; [exists d; cbn [concat]; now rewrite app_nil_r|]. destruct (entry_ok _ _ _ _ _ _ H D) as (d1 & E & D1). cbn [add_tags concat]. rewrite E. cbn [rbind].
  rewrite app_assoc. now apply IH.
Qed.
Lemma attrs_ok im : forall ats l d, dict_of l d -> dict_of (l ++ flat_map (fun a => match o_attrs im a with Some PNone | None => [] | Some v => [(a, v)] end) ats)
  (fold_left (fun m attr => match o_attrs im attr with None | Some PNone => m | Some v => dict_set m attr v end) ats d).
Proof.
  induction ats as [|a ats IH]; intros l d D; cbn [flat_map fold_left]; [now rewrite app_nil_r|]. rewrite app_assoc. apply IH.
  destruct (o_attrs im a) as [[]|]; try (now apply dict_of_snoc); now rewrite app_nil_r.
Qed.
Lemma skim_ok p fn im f mime ess : of_format im f -> MIME p f = Some mime -> Forall2 (entry p im) (tags im) ess ->
  exists meta, skim_image_data p fn im = Ok meta /\ dict_of (known p fn im mime ++ concat ess) meta.
Proof.
  intros Hf Hm He. unfold skim_image_data.
  pose proof (attrs_ok im IMAGE_META_ATTRS [($"fn", PStr fn)] [($"fn", PStr fn)] (dict_of_snoc [] [] _ _ dict_of_nil)) as A.
  set (m := fold_left _ _ _) in *. clearbody m.
  assert (G : dict_get m $"format" = Some (PStr f)).
  { apply (last_get _ _ _ _ A). clear - Hf. unfold of_format in Hf. unfold IMAGE_META_ATTRS. cbn [flat_map]. rewrite Hf. 
    assert (K : forall (l : list str) k, ~ In k l -> ~ In k (map fst (flat_map (fun a => match o_attrs im a with Some PNone | None => [] | Some v => [(a, v)] end) l))).
    { clear. induction l as [|a l IH]; intros k N; [intros []|]. cbn [flat_map]. rewrite map_app, in_app_iff. intros [I|I]; [|apply (IH k); [intros Q; apply N; now right|exact I]]. apply N. left.
      destruct (o_attrs im a) as [[]|]; cbn in I; try (destruct I as [I|[]]; exact I); destruct I. }
    match goal with |- last_said (?x ++ ?a ++ ?b ++ ?c ++ ?d ++ [(?k, ?v)] ++ ?r) _ _ => exists (x ++ a ++ b ++ c ++ d), r; split; [cbn [app]; now rewrite <- !app_assoc|] end.
    apply (K [$"format_description"; $"n_frames"]). intros [Q|[Q|[]]]; discriminate. }
  rewrite G. cbn [rbind]. rewrite Hm. cbn [rbind]. unfold get_image_metadata. fold (tags im).
  destruct (entries_ok _ _ _ _ He [] [] dict_of_nil) as (d & E & D). rewrite E. cbn [rbind]. eexists. split; [reflexivity|]. apply dict_of_update; [|exact D].
  assert (A' := dict_of_snoc _ _ $"mimetype" (PStr mime) A). unfold known. destruct (o_palette im) as [c|].
  - apply (dict_of_snoc _ _ $"palette" c) in A'. rewrite <- !app_assoc in A'. exact A'.
  - rewrite app_nil_r. rewrite <- !app_assoc in A'. exact A'.
Qed.
