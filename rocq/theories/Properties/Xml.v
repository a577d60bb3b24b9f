(** C43: the MultiDict made of a PDS4 label has every element of the label, with its text. *)
From Coq Require Import Lia.
From Verif.Base Require Import Py Val PyFacts.
From Verif.Model Require Import Xml.
From Verif.Spec Require Import Xml.
From Verif.Proofs Require Import Xml PvlPointers.
Open Scope nat_scope.

(** [names events nm root]: every tag in the label is called as [nm] says *)
Definition names (events : list (str * str)) (nm : str -> str) (root : xml) : Prop :=
  forall e, inside e root -> named events (tag_of e) (nm (tag_of e)).
(** The MultiDict has one entry, for the root; and under every path of names it has the
    values of the elements at that path, in the order of the label, none missing, none twice,
    none from elsewhere.  [content] says what the value of one element is. *)
Theorem C43_label events nm root : proper events -> names events nm root -> (forall e, inside e root -> tidy nm e) ->
  exists v enough, (forall fuel, enough <= fuel -> label_to_multidict fuel events root = Ok [(nm (tag_of root), v)]) /\
    forall path, ~ In $"_text" path -> Forall2 (content nm) (elements_at nm path root) (values_at path v).
Proof.
  intros Hp Hn Ht. destruct (tree_ok (tag_modifications (namespace_map events)) nm root) as (e' & Er & Hk & Hv); [|exact Ht|].
  { intros e He. apply name_ok; [exact Hp|now apply Hn]. }
  exists (view nm root), (needs [xml_to_dict (tag_modifications (namespace_map events)) e']). split.
  - intros fuel Hf. unfold label_to_multidict. rewrite Er. cbn [rbind]. rewrite unpack_ok by exact Hf. cbn [flat_map]. now rewrite Hv, Hk.
  - intros path H. rewrite values_view by exact H. induction (elements_at nm path root) as [|e l IH]; [constructor|]. cbn [map]. constructor; [apply content_view|exact IH].
Qed.
Print Assumptions C43_label.
(** so that nothing is shown where the label has nothing, and the numbers agree *)
Theorem C43_count events nm root fuel md : proper events -> names events nm root -> (forall e, inside e root -> tidy nm e) ->
  label_to_multidict fuel events root = Ok md ->
  forall path, ~ In $"_text" path -> List.length (values_at (nm (tag_of root) :: path) (PMulti md)) = List.length (elements_at nm path root).
Proof.
  intros Hp Hn Ht E path Hpath. destruct (tree_ok (tag_modifications (namespace_map events)) nm root) as (e' & Er & Hk & Hv); [|exact Ht|].
  { intros e He. apply name_ok; [exact Hp|now apply Hn]. }
  unfold label_to_multidict in E. rewrite Er in E. cbn [rbind] in E.
  assert (Mono : forall f g items r, f <= g -> unpack f items = Ok r -> unpack g items = Ok r).
  { clear. induction f as [|f IH]; intros g items r Hl H; [discriminate|]. destruct g as [|g]; [lia|]. cbn [unpack] in *. destruct items as [|[k v] items]; [exact H|].
    assert (Rest : forall v, rbind (unpack f items) (fun r => Ok ((k, v) :: r)) = Ok r -> rbind (unpack g items) (fun r => Ok ((k, v) :: r)) = Ok r).
    { intros w Hw. destruct (unpack f items) as [q|] eqn:Eq; [|discriminate]. now rewrite (IH g items q) by (lia || exact Eq). }
    assert (Dict : forall d, rbind (unpack f d) (fun u => rbind (unpack f items) (fun r => Ok ((k, PMulti u) :: r))) = Ok r -> rbind (unpack g d) (fun u => rbind (unpack g items) (fun r => Ok ((k, PMulti u) :: r))) = Ok r).
    { intros d Hd. destruct (unpack f d) as [u|] eqn:Eu; [|discriminate]. rewrite (IH g d u) by (lia || exact Eu). cbn [rbind] in *. now apply Rest. }
    destruct v; auto. apply IH; [lia|exact H]. }
  assert (E' : unpack (fuel + needs [xml_to_dict (tag_modifications (namespace_map events)) e']) [xml_to_dict (tag_modifications (namespace_map events)) e'] = Ok md) by (apply (Mono fuel); [lia|exact E]).
  rewrite unpack_ok in E' by lia. cbn [flat_map] in E'. rewrite Hv, Hk in E'. injection E' as <-. cbn [values_at getall filter fst]. rewrite str_eqb_refl. cbn [map snd flat_map app]. rewrite app_nil_r.
  rewrite values_view by exact Hpath. apply map_length.
Qed.
Print Assumptions C43_count.
(** The order among elements with different names is kept where those with the same name
    stand together. *)
Theorem C43_order l : contiguous l -> together l = l.
Proof.
  induction l as [|x l IH]; intros Hc; [reflexivity|].
  assert (Hl : contiguous l) by (intros a y b z c -> ; apply (Hc (x :: a) y b z c eq_refl)).
  enough (E : together (x :: l) = x :: together l) by (rewrite E; f_equal; now apply IH). clear IH.
  unfold together. cbn [firsts flat_map]. unfold count at 1. cbn [filter]. rewrite str_eqb_refl. cbn [List.length repeat app]. f_equal. fold (count x l).
  assert (Other : forall ks, flat_map (fun k => repeat k (count k (x :: l))) (filter (fun y => negb (str_eqb x y)) ks) = flat_map (fun k => repeat k (count k l)) (filter (fun y => negb (str_eqb x y)) ks)).
  { induction ks as [|k ks IHk]; [reflexivity|]. cbn [filter]. destruct (str_eqb x k) eqn:E; cbn [negb]; [exact IHk|]. cbn [flat_map]. rewrite IHk. f_equal. unfold count. cbn [filter]. now rewrite E. }
  rewrite Other. destruct (in_dec str_eq_dec x l) as [Hi|Hi].
  - apply in_split in Hi as (b & c & El). assert (Hb : Forall (fun z => z = x) b) by (apply (Hc [] x b x c); [now rewrite El|reflexivity]).
    destruct l as [|y l]; [destruct b; discriminate|]. assert (y = x) as -> by (destruct b as [|z b]; cbn [app] in El; injection El as -> _; [reflexivity|now inversion Hb]).
    cbn [firsts flat_map filter]. rewrite str_eqb_refl. cbn [negb]. f_equal. f_equal. clear. induction (firsts l) as [|k ks IHk]; [reflexivity|]. cbn [filter]. destruct (str_eqb x k) eqn:E; cbn [negb filter]; [exact IHk|]. rewrite E. cbn [negb]. now rewrite IHk.
  - assert (C : count x l = 0).
    { unfold count. clear - Hi. induction l as [|y l IH]; [reflexivity|]. cbn [filter In] in *. destruct (str_eqb_spec y x); [tauto|]. apply IH. tauto. }
    rewrite C. cbn [repeat app]. f_equal. assert (Hf : ~ In x (firsts l)) by (now rewrite firsts_in). clear - Hf. induction (firsts l) as [|k ks IHk]; [reflexivity|]. cbn [filter In] in *. destruct (str_eqb_spec x k) as [->|]; [tauto|]. cbn [negb]. rewrite IHk; [reflexivity|tauto].
Qed.
Print Assumptions C43_order.
(** Unpacking any nested mapping, of any depth: a list gives one entry for each item. *)
Theorem C43_unpack items : exists enough, forall fuel, enough <= fuel -> unpack fuel items = Ok (flat_map (fun kv => entries (fst kv) (snd kv)) items).
Proof. exists (needs items). intros fuel. apply unpack_ok. Qed.
Print Assumptions C43_unpack.

(** The text to be shown is well defined. *)
Lemma words_split s ws : words s ws -> split_ws s = ws.
Proof.
  induction 1 as [s Hb|sp w rest ws Hsp Hw Hn Hr _ IH].
  - induction Hb as [|c s Hc _ IH]; [reflexivity|]. cbn [split_ws]. now rewrite Hc.
  - induction Hsp as [|c sp Hc _ IHsp]; [|cbn [app split_ws]; now rewrite Hc]. cbn [app]. induction Hn as [|c w Hc Hn IHw]; [congruence|]. cbn [app split_ws]. rewrite Hc. destruct w as [|d w].
    + cbn [app]. destruct rest as [|d rest]; [now rewrite <- IH|]. now rewrite Hr, IH.
    + cbn [app] in *. inversion Hn as [|? ? Hd _]; subst. rewrite Hd, IHw by discriminate. reflexivity.
Qed.
Theorem C43_text leaf t a b : text_shown leaf t a -> text_shown leaf t b -> a = b.
Proof.
  assert (N : forall t, one_line t -> ~ blank t).
  { intros x Ho Hb. apply count_1 in Ho. apply count_0 in Hb. congruence. }
  intros Ha Hb. inversion Ha as [|t1 H1|t1 ws1 L1 O1 W1|t1 C1 B1]; subst; inversion Hb as [|t2 H2|t2 ws2 L2 O2 W2|t2 C2 B2]; subst; try reflexivity; try (exfalso; now apply (N _ O2)); try (exfalso; now apply (N _ O1)); try contradiction; try (destruct C2; [discriminate|contradiction]); try (destruct C1; [discriminate|contradiction]).
  apply words_split in W1, W2. now subst.
Qed.
Print Assumptions C43_text.

(** ** What is not kept *)
(** the order of elements with different names, otherwise *)
Theorem C43_order_refuted fuel : 10 <= fuel ->
  label_to_multidict fuel [] (Elem $"r" [] None None [Elem $"a" [] (Some $"1") None []; Elem $"b" [] (Some $"2") None []; Elem $"a" [] (Some $"3") None []]) =
  Ok [($"r", PMulti [($"a", PStr $"1"); ($"a", PStr $"3"); ($"b", PStr $"2")])].
Proof. intros H. do 10 (destruct fuel as [|fuel]; [lia|]). reflexivity. Qed.
Print Assumptions C43_order_refuted.
(** attributes, such as units, and text after an element *)
Theorem C43_attributes_refuted fuel attrib tail : 10 <= fuel ->
  label_to_multidict fuel [] (Elem $"r" [] None None [Elem $"a" attrib (Some $"1") tail []]) = Ok [($"r", PMulti [($"a", PStr $"1")])].
Proof. intros H. do 10 (destruct fuel as [|fuel]; [lia|]). destruct attrib; reflexivity. Qed.
Print Assumptions C43_attributes_refuted.
(** an element called _text, next to text *)
Theorem C43_text_name_refuted fuel value : 10 <= fuel -> value = None \/ value = Some $"1" ->
  label_to_multidict fuel [] (Elem $"r" [] (Some $"words") None [Elem $"_text" [] value None []]) = Ok [($"r", PMulti [($"_text", PStr $"words")])].
Proof. intros H [->| ->]; do 10 (destruct fuel as [|fuel]; [lia|]); reflexivity. Qed.
Print Assumptions C43_text_name_refuted.
(** namespaces: one whose name begins with that of PDS loses its prefix, and two with the same
    prefix become one *)
Theorem C43_namespace_refuted fuel : 10 <= fuel ->
  label_to_multidict fuel [($"x", PDS ++ $"0")] (Elem ($"{" ++ PDS ++ $"0}a") [] (Some $"1") None []) = Ok [($"a", PStr $"1")] /\
  label_to_multidict fuel [($"x", $"u"); ($"x", $"v")] (Elem $"r" [] None None [Elem $"{u}a" [] (Some $"1") None []; Elem $"{v}a" [] (Some $"2") None []]) =
  Ok [($"r", PMulti [($"x:a", PStr $"1"); ($"x:a", PStr $"2")])].
Proof. intros H. do 10 (destruct fuel as [|fuel]; [lia|]). split; reflexivity. Qed.
Print Assumptions C43_namespace_refuted.

(** ** A case: names in three namespaces, repeated elements, text to be squeezed *)
Definition some_label : xml :=
  Elem ($"{" ++ PDS ++ $"}P") [($"v", $"1")] (Some [NL]) None
    [Elem ($"{" ++ DISP ++ $"}D") [] (Some $"  two   words ") None [];
     Elem ($"{" ++ PDS ++ $"}e") [] None None [];
     Elem $"{u}q" [($"unit", $"m")] None None [Elem ($"{" ++ PDS ++ $"}e") [] (Some ($"a" ++ [NL] ++ $"b")) None []];
     Elem $"{u}q" [($"unit", $"m")] (Some $"5") None []].
Definition some_events : list (str * str) := [([], PDS); ($"d", DISP); ($"g", $"u")].
Definition some_names (tag : str) : str :=
  if str_eqb tag ($"{" ++ PDS ++ $"}P") then $"P" else if str_eqb tag ($"{" ++ DISP ++ $"}D") then $"disp:D" else if str_eqb tag $"{u}q" then $"g:q" else $"e".
Lemma name_dec s : (negb (has_char "{" s) && negb (has_char "}" s) && negb (has_char "/" s))%char%bool = true -> xml_name s.
Proof.
  intros H. apply andb_prop in H as [H H3]. apply andb_prop in H as [H1 H2]. apply negb_true_iff in H1, H2, H3.
  repeat split; intros K; apply has_char_iff in K; congruence.
Qed.
Example C43_meets : proper some_events /\ names some_events some_names some_label /\ (forall e, inside e some_label -> tidy some_names e) /\
  label_to_multidict 50 some_events some_label = Ok [($"P", PMulti [($"disp:D", PStr $"two words"); ($"e", PNone); ($"g:q", PMulti [($"e", PStr ($"a" ++ [NL] ++ $"b"))]); ($"g:q", PStr $"5")])].
Proof.
  assert (In4 : forall (P : xml -> Prop) e, inside e some_label -> P some_label -> Forall P (children some_label) -> P (Elem ($"{" ++ PDS ++ $"}e") [] (Some ($"a" ++ [NL] ++ $"b")) None []) -> P e).
  { intros P e He P0 Pc Pe. inversion He as [|? c ? Hc Hi]; subst; [exact P0|]. cbn [children some_label In] in Hc.
    destruct Hc as [<-|[<-|[<-|[<-|[]]]]]; inversion Hi as [|? d ? Hd Hj]; subst; try (cbn [children In] in Hd; now destruct Hd); try (rewrite Forall_forall in Pc; apply Pc; cbn [children some_label In]; tauto).
    cbn [children In] in Hd. destruct Hd as [<-|[]]. inversion Hj as [|? f ? Hf _]; subst; [exact Pe|]. destruct Hf. }
  split; [|split; [|split; [|vm_compute; reflexivity]]].
  - repeat (apply Forall_cons; [split; [apply name_dec; reflexivity|split; [repeat constructor|split; vm_compute; intuition discriminate]]|]). constructor.
  - assert (X : forall n, In n [$"P"; $"D"; $"e"; $"q"] -> xml_name n) by (intros n Hn; apply name_dec; cbn in Hn; destruct Hn as [<-|[<-|[<-|[<-|[]]]]]; reflexivity).
    assert (Ne : named some_events ($"{" ++ PDS ++ $"}e") $"e") by (apply named_pds, X; cbn; tauto).
    assert (Nq : named some_events $"{u}q" $"g:q").
    { apply (named_other some_events [([], PDS); ($"d", DISP)] $"g" $"u" [] $"q"); [apply X; cbn; tauto|discriminate|discriminate| |reflexivity|cbn; intuition discriminate].
      intros a b E. apply (f_equal (@List.length ascii)) in E. rewrite !app_length in E. cbn in E. lia. }
    intros e He. apply (In4 (fun e => named some_events (tag_of e) (some_names (tag_of e))) e He).
    + apply (named_pds some_events $"P"), X. cbn. tauto.
    + repeat (apply Forall_cons; [first [exact Ne|exact Nq|apply (named_known some_events $"disp" $"d" DISP $"D"); [apply X; cbn; tauto|now left|cbn; tauto]]|]). constructor.
    + exact Ne.
  - intros e He. apply (In4 (tidy some_names) e He); [|repeat (apply Forall_cons; [intros t _; cbn; intuition discriminate|]); constructor|intros t _; cbn; tauto].
    intros t _. vm_compute. intuition discriminate.
Qed.
