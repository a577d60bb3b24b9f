(** C83, continued: products without special cases are read as C82 says. *)
From Verif.Base Require Import Py Val.
From Verif.Model Require Import Files Pvl Meta Objects Dispatch Product Checkers SpecialProduct.
From Verif.Spec Require Import Checkers.
From Verif.Proofs Require Import Checkers.
From Verif.Properties Require Import Checkers ProductCases.

(** nothing special about a product, asked about one of its objects and a file *)
Definition unremarkable (a : asked) : Prop := scalars a /\ texts a /\ Spec.Checkers.ordinary a.
Lemma none_special x repr float_of handled p name q file l :
  unremarkable (asked_about x repr float_of p name file) -> ~ In BitStart l ->
  first_special x repr float_of handled p name q file l = Ok None.
Proof.
  intros (S & T & O) N. induction l as [|c l IH]; [reflexivity|]. cbn [first_special].
  rewrite (C83_as_usual _ S T O); [|intros ->; apply N; now left]. cbn. apply IH. intros H. apply N. now right.
Qed.
(** With the special cases, an object of an unremarkable product is read by the general rules
    (those of C82): the handlers of missions have no say in it. *)
Theorem C83_products : forall x d repr float_of handled p name,
  unremarkable (asked_about x repr float_of p name (pstr (p_filename p))) ->
  (forall q, snd (target_path (walk_order x) (p_meta p) (p_keys p) (p_filename p) (p_dirs p) (listing d) None (compkeys x) (files (p_found p)) true false name) = Ok (Some q) ->
     unremarkable (asked_about x repr float_of p name (pstr q))) ->
  load_special x d repr float_of handled p name = snd (load x d p name).
Proof.
  intros x d repr float_of handled p name U1 U2. unfold load_special, load.
  destruct (negb (str_in name (idx (p_found p)))); [reflexivity|].
  rewrite none_special by (try exact U1; now intros [H|[]]). cbn [rbind].
  destruct (target_path _ _ _ _ _ _ _ _ _ _ _ _) as [fl [[q|]|e]] eqn:E; cbn [snd rbind] in *; try reflexivity.
  specialize (U2 q eq_refl).
  replace (if is_trivial name then _ else _) with (@Ok (option (res Product.object)) None)
    by (destruct (is_trivial name); [reflexivity|symmetry; apply none_special; [exact U1|now intros [H|[]]]]).
  cbn [rbind]. rewrite none_special; [reflexivity|exact U2|]. destruct (pointer_to_loader _ _ _ _); cbn; intuition discriminate.
Qed.
Print Assumptions C83_products.
(** A special case that applies, no other one applying before it, is what makes the object. *)
Lemma first_one x repr float_of handled p name q file before c after a r :
  (forall b, In b before -> check b (asked_about x repr float_of p name file) = Ok Nothing) ->
  check c (asked_about x repr float_of p name file) = Ok a -> a <> Nothing -> handled c a p name q = Some r ->
  first_special x repr float_of handled p name q file (before ++ c :: after) = Ok (Some r).
Proof.
  intros B C N H. induction before as [|b before IH]; cbn [app first_special].
  - rewrite C. cbn [rbind]. rewrite H. destruct a; reflexivity || congruence.
  - rewrite (B b (or_introl eq_refl)). cbn [rbind]. apply IH. intros b' Hb. apply B. now right.
Qed.
Theorem C83_handled : forall x d repr float_of handled p name q before c after a r,
  In name (idx (p_found p)) ->
  snd (target_path (walk_order x) (p_meta p) (p_keys p) (p_filename p) (p_dirs p) (listing d) None (compkeys x) (files (p_found p)) true false name) = Ok (Some q) ->
  (forall b, In b [FileName; Trivial] -> check b (asked_about x repr float_of p name (pstr (p_filename p))) = Ok Nothing) ->
  consulted (pointer_to_loader (fun _ => false) (identifier x (p_meta p) (p_keys p) $"DATA_SET_ID") (pname q) name) = before ++ c :: after ->
  (forall b, In b before -> check b (asked_about x repr float_of p name (pstr q)) = Ok Nothing) ->
  check c (asked_about x repr float_of p name (pstr q)) = Ok a -> a <> Nothing -> handled c a p name (Some q) = Some r ->
  load_special x d repr float_of handled p name = r.
Proof.
  intros x d repr float_of handled p name q before c after a r I Q FT K B C N H. unfold load_special.
  rewrite (proj2 (str_in_iff _ _) I). cbn [negb first_special]. rewrite (FT FileName) by now left. cbn [rbind].
  rewrite Q. cbn [rbind].
  replace (if is_trivial name then _ else _) with (@Ok (option (res Product.object)) None)
    by (destruct (is_trivial name); [reflexivity|rewrite (FT Trivial) by (right; now left); reflexivity]).
  cbn [rbind]. rewrite K. rewrite (first_one x repr float_of handled p name (Some q) _ before c after a r B C N H). reflexivity.
Qed.
Print Assumptions C83_handled.
(** Names of files and objects that a handler gives come before all else. *)
Theorem C83_handled_first : forall x d repr float_of handled p name a r,
  In name (idx (p_found p)) -> check FileName (asked_about x repr float_of p name (pstr (p_filename p))) = Ok a -> a <> Nothing ->
  handled FileName a p name None = Some r -> load_special x d repr float_of handled p name = r.
Proof.
  intros x d repr float_of handled p name a r I C N H. unfold load_special. rewrite (proj2 (str_in_iff _ _) I). cbn [negb].
  rewrite (first_one x repr float_of handled p name None _ [] FileName [] a r); [reflexivity|intros b []|assumption..].
Qed.
Print Assumptions C83_handled_first.
(** an example is checked by its identifiers *)
Definition known (g : list (str * pv)) (f : str) : pv := match dict_get g f with Some v => v | None => PNone end.
Definition mark_field (k : mark) : option str := match k with Equals f _ | Mentions f _ | PartOf f _ => Some f | _ => None end.
Definition scalarb (v : pv) : bool := match v with PBool _ | PInt _ | PFloat _ | PStr _ => true | _ => false end.
Definition textb (v : pv) : bool := match v with PStr _ => true | _ => false end.
Definition marks_known : bool := forallb (fun k => match mark_field k with Some f => str_in f fields | None => true end) all_marks.
Lemma marks_known_ok : marks_known = true.
Proof. vm_compute. reflexivity. Qed.
Lemma unremarkable_by a g : Forall (fun f => ident a f = known g f) fields ->
  forallb (fun f => scalarb (known g f)) fields = true -> forallb (fun f => textb (known g f)) searched = true ->
  forallb (fun f => str_in f fields) searched = true ->
  existsb (bearsb (mkAsked (known g) (Checkers.object a) (file a) PNone (fun _ => PNone) [] PNone (to_float a))) all_marks = false -> unremarkable a.
Proof.
  intros E S T TF M. rewrite Forall_forall in E. rewrite forallb_forall in S, T, TF. split; [|split].
  - intros f H. rewrite (E f H). specialize (S f H). destruct (known g f); try discriminate; exact I.
  - intros f H. rewrite (E f (proj1 (str_in_iff _ _) (TF f H))). specialize (T f H). destruct (known g f); try discriminate. eauto.
  - apply ordinary_marks. rewrite <- M. pose proof marks_known_ok as K. unfold marks_known in K. rewrite forallb_forall in K.
    clear M. induction all_marks as [|k l IH]; [reflexivity|]. cbn [existsb]. rewrite IH by (intros k' H; apply K; now right). f_equal.
    specialize (K k (or_introl eq_refl)). destruct k; cbn [mark_field] in K; cbn [bearsb ident Checkers.object file]; try reflexivity; now rewrite (E _ (proj1 (str_in_iff _ _) K)).
Qed.
(** the product of C82's example *)
Definition c83_known (p : product) : list (str * pv) := map (fun f => (f, identifiers c82_outside (fun _ => []) p f)) fields.
Example C83_products_meets : exists p, open_product c82_outside c82_disk c82_path None [] c82_max true = Ok p /\
  forall repr float_of file, In file [$"/d/A.DAT"; $"/d/A.IMG"] -> unremarkable (asked_about c82_outside repr float_of p $"IMAGE" file).
Proof.
  eexists. split; [vm_compute; reflexivity|]. intros repr float_of file Hf.
  match goal with |- unremarkable (asked_about _ _ _ ?p _ _) => set (prod := p) end.
  apply (unremarkable_by _ (c83_known prod)).
  - cbn [asked_about ident]. unfold fields. repeat (apply Forall_cons; [vm_compute; reflexivity|]). apply Forall_nil.
  - vm_compute. reflexivity.
  - vm_compute. reflexivity.
  - vm_compute. reflexivity.
  - cbn [asked_about Checkers.object Checkers.file to_float]. destruct Hf as [<-|[<-|[]]]; vm_compute; reflexivity.
Qed.
(** an EDR of LROC has its own sample types *)
Definition c83_lroc : product := mkProduct (mkPath $"/d" $"A.IMG") (mkPath $"/d" $"A.IMG")
  [($"INSTRUMENT_ID", PStr $"LROC"); ($"PRODUCT_TYPE", PStr $"EDR"); ($"^IMAGE", PInt 3); ($"IMAGE", PMulti [($"LINES", PInt 2)])]
  [$"INSTRUMENT_ID"; $"PRODUCT_TYPE"; $"^IMAGE"; $"IMAGE"] (mkFound [$"LABEL"; $"IMAGE"] [] []) [].
Example C83_handled_meets : forall repr float_of,
  let p := c83_lroc in let q := mkPath $"/d" $"A.IMG" in let asked := asked_about c82_outside repr float_of p $"IMAGE" (pstr q) in
  In $"IMAGE" (idx (p_found p)) /\
  snd (target_path (walk_order c82_outside) (p_meta p) (p_keys p) (p_filename p) (p_dirs p) (listing c82_disk) None (compkeys c82_outside) (files (p_found p)) true false $"IMAGE") = Ok (Some q) /\
  (forall b, In b [FileName; Trivial] -> check b (asked_about c82_outside repr float_of p $"IMAGE" (pstr (p_filename p))) = Ok Nothing) /\
  consulted (pointer_to_loader (fun _ => false) (identifier c82_outside (p_meta p) (p_keys p) $"DATA_SET_ID") (pname q) $"IMAGE") = [BlockOf; Offset] ++ SampleType :: [BandStorage; CompressedReader] /\
  (forall b, In b [BlockOf; Offset] -> check b asked = Ok Nothing) /\ check SampleType asked = Ok (Always $"lroc" $"lroc_edr_sample_type").
Proof.
  intros repr float_of p q asked. repeat apply conj.
  - vm_compute. tauto.
  - vm_compute. reflexivity.
  - intros b [<-|[<-|[]]]; vm_compute; reflexivity.
  - vm_compute. reflexivity.
  - intros b [<-|[<-|[]]]; vm_compute; reflexivity.
  - vm_compute. reflexivity.
Qed.
