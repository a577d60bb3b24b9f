(** Proofs for C84. *)
From Coq Require Import ZArith Lia QArith.
From Verif.Base Require Import Py Val PyFacts.
From Verif.Model Require Import Types Scaling Pds4Types Pds4Values Xml.
From Verif.Spec Require Import Scaling Pds4Types Pds4Values Xml.
From Verif.Proofs Require Import Xml Objects.
From Verif.Proofs Require Scaling Pds4Fields.
From Verif.Properties Require Import Xml Pds4Fields.
From Verif.Model Require Import Pds4Tables Pds4Frame Pds4Product.
From Verif.Spec Require Import Pds4Tables Pds4Frame Objects Pds4Product.
Open Scope nat_scope.
Local Notation parts e := (Spec.Xml.children e).

(** ** Labels with short names *)
Definition short (t : str) : str := match strip_namespace t with Ok t => t | Err _ => t end.
Fixpoint clean (e : xml) : xml :=
  match e with Elem t a x y cs => Elem (short t) a (label_text (match cs with [] => false | _ => true end) x) y (map clean cs) end.
Lemma xtag_clean e : xtag (clean e) = short (tag_of e). Proof. now destruct e. Qed.
Lemma xchildren_clean e : xchildren (clean e) = map clean (parts e). Proof. now destruct e. Qed.
Lemma xtext_leaf e : parts e = [] -> xtext (clean e) = label_text false (text_of e).
Proof. destruct e; cbn. now intros ->. Qed.
Definition wn := well_named.
Lemma wn_child e c : well_named e -> In c (parts e) -> well_named c.
Proof. intros H I x Hx. apply H. eapply inside_child; eauto. Qed.
Lemma wn_name e : well_named e -> has_name e.
Proof. intros H. apply H. constructor. Qed.

Lemma contains_not p s : ~ occurs p s -> contains p s = false.
Proof. intros H. destruct (contains p s) eqn:E; [|reflexivity]. exfalso. apply H. now apply contains_iff in E. Qed.
Lemma contains_occurs p s : contains p s = true <-> occurs p s.
Proof. apply contains_iff. Qed.
Lemma clark_contains p (uri n : str) : ~ In "{"%char p -> ~ In "}"%char p -> contains p ($"{" ++ uri ++ $"}" ++ n) = contains p uri || contains p n.
Proof.
  intros A B. apply Bool.eq_true_iff_eq. rewrite Bool.orb_true_iff. split.
  - intros H. apply (contains_sep "{"%char p [] (uri ++ $"}" ++ n) A) in H. destruct H as [H|H]; [apply contains_iff in H as (a & b & H); destruct a, p; try discriminate H; left; now apply contains_iff; exists [], uri|].
    cbn [app] in H. now apply (contains_sep "}"%char) in H.
  - intros [H|H]; apply contains_iff in H as (a & b & ->); apply contains_iff.
    + exists ($"{" ++ a), (b ++ $"}" ++ n). now rewrite <- !app_assoc.
    + exists ($"{" ++ uri ++ $"}" ++ a), b. now rewrite <- !app_assoc.
Qed.
Lemma pds_braces : ~ In "{"%char PDS /\ ~ In "}"%char PDS.
Proof. exact pds_no_brace. Qed.
Lemma strip_plain n : xml_name n -> strip_namespace n = Ok n.
Proof. intros H. unfold strip_namespace. now rewrite not_contains_name. Qed.
Lemma strip_pds n : xml_name n -> strip_namespace ($"{" ++ PDS ++ $"}" ++ n) = Ok n.
Proof.
  intros H. unfold strip_namespace. rewrite (proj2 (contains_iff _ _)) by (exists $"{", ($"}" ++ n); reflexivity).
  replace ($"{" ++ PDS ++ $"}" ++ n) with (($"{" ++ PDS) ++ "}"%char :: n) by (now rewrite <- app_assoc).
  rewrite cut_at by (intros [X|X]; [discriminate|now apply (proj2 pds_braces)]). cbn [snd].
  change (($"{" ++ PDS) ++ "}"%char :: n) with ([] ++ "{"%char :: (PDS ++ "}"%char :: n)). now rewrite cut_at by (intros []).
Qed.
Lemma strip_other (uri n : str) : xml_name n -> (forall a b, uri <> a ++ PDS ++ b) -> strip_namespace ($"{" ++ uri ++ $"}" ++ n) = Ok ($"{" ++ uri ++ $"}" ++ n).
Proof.
  intros H U. unfold strip_namespace. rewrite clark_contains by apply pds_braces. rewrite (not_contains_name n H).
  rewrite contains_not; [reflexivity|]. intros (a & b & E). now apply (U a b).
Qed.
Lemma strip_called e n : xml_name n -> called e n -> strip_namespace (tag_of e) = Ok n.
Proof. intros H [-> | ->]; [now apply strip_plain|now apply strip_pds]. Qed.
Lemma strip_named e : has_name e -> strip_namespace (tag_of e) = Ok (short (tag_of e)).
Proof.
  intros (n & H & [C|(uri & E & A & B & U)]); unfold short.
  - now rewrite (strip_called e n H C).
  - rewrite E. now rewrite strip_other.
Qed.
Lemma called_iff e n : has_name e -> xml_name n -> called e n <-> xtag (clean e) = n.
Proof.
  intros Hn Hx. rewrite xtag_clean. split.
  - intros C. unfold short. now rewrite (strip_called e n Hx C).
  - destruct Hn as (m & H & [C|(uri & E & A & B & U)]); unfold short.
    + rewrite (strip_called e m H C). now intros <-.
    + rewrite E, strip_other by assumption. intros <-. destruct Hx as (Hx & _). exfalso. apply Hx. now left.
Qed.
Lemma contains_short p e : ~ In "{"%char p -> ~ In "}"%char p -> contains p PDS = false -> has_name e -> contains p (xtag (clean e)) = true <-> occurs p (tag_of e).
Proof.
  intros A B P (n & H & [C|(uri & E & A' & B' & U)]); rewrite xtag_clean, <- contains_occurs; unfold short.
  - rewrite (strip_called e n H C). destruct C as [-> | ->]; [reflexivity|]. now rewrite clark_contains, P.
  - rewrite E, strip_other by assumption. reflexivity.
Qed.
Lemma read_clean e : well_named e -> read_label e = Ok (clean e).
Proof.
  induction e as [t a x y cs IH] using xml_ind'. intros W. rewrite read_label_eq.
  assert (R : rmap read_label cs = Ok (map clean cs)).
  { rewrite Forall_forall in IH. assert (Q : forall c, In c cs -> read_label c = Ok (clean c)) by (intros c Hc; apply IH; [exact Hc|]; now apply (wn_child _ _ W)).
    clear -Q. induction cs as [|c cs IHc]; [reflexivity|]. cbn [rmap map]. rewrite Q by now left. cbn [rbind]. rewrite IHc by (intros d Hd; apply Q; now right). reflexivity. }
  rewrite R. cbn [rbind]. pose proof (strip_named _ (wn_name _ W)) as S. cbn [tag_of] in S. rewrite S. reflexivity.
Qed.

(** ** Children *)
Lemma filter_called e n : well_named e -> xml_name n -> forall c, In c (parts e) -> str_eqb (xtag (clean c)) n = true <-> called c n.
Proof. intros W X c I. rewrite str_eqb_eq. symmetry. apply called_iff; [|exact X]. apply wn_name. eapply wn_child; eauto. Qed.
Definition with_tag (n : str) (e : xml) : list xml := filter (fun c => str_eqb (xtag (clean c)) n) (parts e).
Lemma filter_none {A} (f : A -> bool) l : Forall (fun x => f x = false) l -> filter f l = [].
Proof. induction 1 as [|x l H _ IH]; [reflexivity|]. cbn [filter]. now rewrite H. Qed.
Lemma not_called_false e n c : well_named e -> xml_name n -> In c (parts e) -> ~ called c n -> str_eqb (xtag (clean c)) n = false.
Proof. intros W X I N. destruct (str_eqb (xtag (clean c)) n) eqn:E; [|reflexivity]. exfalso. apply N. now apply (filter_called e n W X c I). Qed.
Lemma with_only e n c : well_named e -> xml_name n -> only e n c -> with_tag n e = [c].
Proof.
  intros W X (before & after & E & C & F). unfold with_tag. apply Forall_app in F as [F1 F2].
  rewrite E, filter_app. cbn [filter]. rewrite (proj2 (filter_called e n W X c ltac:(rewrite E; apply in_or_app; right; now left))) by exact C.
  rewrite !filter_none; [reflexivity| |]; apply Forall_forall; intros x Hx.
  - apply (not_called_false e n x W X); [rewrite E; apply in_or_app; right; now right|]. rewrite Forall_forall in F2. now apply F2.
  - apply (not_called_false e n x W X); [rewrite E; apply in_or_app; now left|]. rewrite Forall_forall in F1. now apply F1.
Qed.
Lemma with_lacks e n : well_named e -> xml_name n -> lacks e n -> with_tag n e = [].
Proof.
  intros W X F. apply filter_none. apply Forall_forall. intros x Hx. apply (not_called_false e n x W X Hx). unfold lacks in F. rewrite Forall_forall in F. now apply F.
Qed.
Lemma with_child e n : well_named e -> xml_name n -> has_child e n -> with_tag n e <> [].
Proof.
  intros W X (c & I & C) E. assert (In c (with_tag n e)) as Q by (apply filter_In; split; [exact I|]; now apply (filter_called e n W X c I)). now rewrite E in Q.
Qed.
Lemma picked_in {A} (P : A -> Prop) f l l' : (forall x, In x l -> f x = true <-> P x) -> picked P l l' -> l' = filter f l.
Proof.
  intros H Q. induction Q as [|x l l' Hx _ IH|x l l' Hx _ IH]; [reflexivity| |]; cbn [filter].
  - rewrite (proj2 (H x (or_introl eq_refl)) Hx). f_equal. apply IH. intros y Hy. apply H. now right.
  - destruct (f x) eqn:E; [exfalso; apply Hx; now apply (H x (or_introl eq_refl))|]. apply IH. intros y Hy. apply H. now right.
Qed.
Lemma picked_with e n l : well_named e -> xml_name n -> picked (fun c => called c n) (parts e) l -> with_tag n e = l.
Proof. intros W X P. symmetry. eapply picked_in; [|exact P]. now apply filter_called. Qed.

(** ** Meta data *)
Definition value_in (mods : list (str * str)) (e : xml) : pv := snd (to_dict mods (clean e)).
Lemma fst_to_dict mods e : fst (to_dict mods e) = modify_tag mods (xtag e). Proof. now destruct e. Qed.
Definition gathered (mods : list (str * str)) (l : list xml) : option pv :=
  match l with [] => None | [c] => Some (value_in mods c) | l => Some (PTuple (map (value_in mods) l)) end.
Definition with_key_of (mods : list (str * str)) (k : str) (e : xml) : list xml := filter (fun c => str_eqb (modify_tag mods (xtag (clean c))) k) (parts e).
Lemma with_key_filter k (l : list (str * pv)) : with_key k l = map snd (filter (fun kv => str_eqb (fst kv) k) l).
Proof. induction l as [|[x v] l IH]; [reflexivity|]. cbn [filter fst]. change ((x, v) :: l) with ([(x, v)] ++ l). rewrite with_key_app, with_key_one, IH. now destruct (str_eqb x k). Qed.
Lemma children_value mods k e : with_key k (map (to_dict mods) (map clean (parts e))) = map (value_in mods) (with_key_of mods k e).
Proof.
  rewrite with_key_filter. unfold with_key_of. induction (parts e) as [|c cs IH]; [reflexivity|]. cbn [map filter]. rewrite fst_to_dict.
  destruct (str_eqb (modify_tag mods (xtag (clean c))) k); cbn [map]; now rewrite IH.
Qed.
Lemma dict_get_singles (l : list (str * pv)) k : dict_get (map single_or_list (groups l)) k = match with_key k l with [] => None | [v] => Some v | vs => Some (PTuple vs) end.
Proof.
  unfold groups. rewrite map_map. unfold single_or_list. cbn [fst snd]. rewrite (dict_get_map (fun k => match with_key k l with [v] => v | vs => PTuple vs end)).
  destruct (str_in k (firsts (map fst l))) eqn:E.
  - apply str_in_iff in E. rewrite firsts_in in E. destruct (with_key k l) as [|v [|w vs]] eqn:W; try reflexivity. exfalso.
    apply in_map_iff in E as (kv & Ek & I). rewrite with_key_filter in W. assert (In kv (filter (fun kv => str_eqb (fst kv) k) l)) as Q by (apply filter_In; split; [exact I|now apply str_eqb_eq]).
    destruct (filter _ l); [destruct Q|discriminate].
  - destruct (with_key k l) as [|v vs] eqn:W; [reflexivity|]. exfalso. rewrite with_key_filter in W. destruct (filter (fun kv => str_eqb (fst kv) k) l) as [|kv r] eqn:Fl; [discriminate|].
    assert (In kv l /\ str_eqb (fst kv) k = true) as [I1 I2] by (apply (proj1 (filter_In (fun kv : str * pv => str_eqb (fst kv) k) kv l)); rewrite Fl; now left). apply str_eqb_eq in I2. subst k.
    assert (str_in (fst kv) (firsts (map fst l)) = true) by (apply str_in_iff, firsts_in, in_map, I1). congruence.
Qed.
Lemma dict_get_set_other {A} (d : list (str * A)) k v k' : k <> k' -> dict_get (dict_set d k v) k' = dict_get d k'.
Proof.
  intros N. rewrite Proofs.Scaling.dict_get_set. destruct (str_eqb_spec k k'); [contradiction|reflexivity].
Qed.
(** what is under a key of an element with children *)
Definition keyed (mods : list (str * str)) (e : xml) (d : meta) : Prop :=
  forall k, k <> $"_text" -> dict_get d k = gathered mods (with_key_of mods k e).
Lemma load_ok mods e : parts e <> [] -> exists d, value_in mods e = PDict d /\ load_keys mods (clean e) = Ok d /\ keyed mods e d.
Proof.
  intros N. assert (Q : exists d, value_in mods e = PDict d /\ keyed mods e d).
  { destruct e as [t a x y cs]. cbn [Spec.Xml.children] in N. destruct cs as [|c cs]; [contradiction|]. unfold value_in. cbn [clean to_dict]. set (l := map clean (c :: cs)).
    assert (Hl : exists z zs, l = z :: zs) by (eexists; eexists; reflexivity). destruct Hl as (z & zs & Hl).
    set (d := map single_or_list (fold_left append_value (map (to_dict mods) l) [])).
    assert (G : keyed mods (Elem t a x y (c :: cs)) d).
    { intros k Nk. unfold d. rewrite groups_ok, dict_get_singles. unfold l. change (map clean (c :: cs)) with (map clean (parts (Elem t a x y (c :: cs)))). rewrite children_value. unfold gathered. destruct (with_key_of mods k (Elem t a x y (c :: cs))) as [|u [|u' us]]; reflexivity. }
    rewrite Hl in *. clear Hl. cbn [snd]. destruct (label_text true x) as [s|]; [|exists d; split; [reflexivity|exact G]].
    destruct (is_blank s); [exists d; split; [reflexivity|exact G]|]. eexists. split; [reflexivity|]. intros k Nk. rewrite dict_get_set_other by congruence. now apply G. }
  destruct Q as (d & E & K). exists d. split; [exact E|]. split; [|exact K]. unfold load_keys. unfold value_in in E. now rewrite E.
Qed.
Lemma modify_none_ t : modify_tag [] t = t. Proof. reflexivity. Qed.
(** keys and names *)
Definition agrees (mods : list (str * str)) (e : xml) (k n : str) : Prop :=
  forall c, In c (parts e) -> str_eqb (modify_tag mods (xtag (clean c))) k = str_eqb (xtag (clean c)) n.
Lemma agrees_plain e n : agrees [] e n n.
Proof. intros c _. reflexivity. Qed.
Lemma agrees_made mods names e k n : well_named e -> made_of names e -> Forall xml_name names ->
  forallb (fun p => Bool.eqb (str_eqb (modify_tag mods p) k) (str_eqb p n)) names = true -> agrees mods e k n.
Proof.
  intros W M X B c I. unfold made_of in M. rewrite Forall_forall in M. destruct (M c I) as (p & Ip & C). rewrite Forall_forall in X. apply called_iff in C; [|apply wn_name; eapply wn_child; eauto|now apply X].
  rewrite C. rewrite forallb_forall in B. specialize (B p Ip). now apply Bool.eqb_prop in B.
Qed.
Lemma key_filter mods e k n : agrees mods e k n -> with_key_of mods k e = with_tag n e.
Proof. intros H. unfold with_key_of, with_tag. apply filter_ext_in. exact H. Qed.
Section Keys.
  Context (mods : list (str * str)) (e : xml) (d : meta) (k n : str).
  Hypotheses (W : well_named e) (K : keyed mods e d) (A : agrees mods e k n) (Nk : k <> $"_text") (X : xml_name n).
  Lemma get_only c : only e n c -> dict_get d k = Some (value_in mods c).
  Proof. intros O. rewrite (K k Nk), (key_filter mods e k n A), (with_only e n c W X O). reflexivity. Qed.
  Lemma get_lacks : lacks e n -> dict_get d k = None.
  Proof. intros O. rewrite (K k Nk), (key_filter mods e k n A), (with_lacks e n W X O). reflexivity. Qed.
  Lemma get_child : has_child e n -> dict_has d k = true.
  Proof. intros O. rewrite dict_has_get, (K k Nk), (key_filter mods e k n A). pose proof (with_child e n W X O). destruct (with_tag n e) as [|u [|u' us]]; [contradiction|reflexivity|reflexivity]. Qed.
End Keys.

(** ** Values *)
Lemma shown_clean c s : text_shown true (text_of c) (Some s) -> label_text false (text_of c) = Some s /\ is_blank s = false.
Proof.
  intros H. pose proof (text_ok false (text_of c)) as T. cbn [negb] in T. pose proof (C43_text true _ _ _ H T) as E.
  destruct (label_text false (text_of c)) as [u|]; [|discriminate]. destruct (is_blank u) eqn:B; [discriminate|]. injection E as ->. now split.
Qed.
Lemma leaf_value mods c s : parts c = [] -> text_shown true (text_of c) (Some s) ->
  value_in mods c = if str_in (modify_tag mods (xtag (clean c))) DEFAULT_CAST_IGNORE then PStr s else cast_int_float_string s.
Proof.
  intros L H. destruct (shown_clean c s H) as [E B]. destruct c as [t a x y cs]. cbn [Spec.Xml.children text_of] in *. subst cs. unfold value_in. cbn [clean map to_dict xtag snd]. rewrite E, B.
  destruct (str_in (modify_tag mods (short t)) DEFAULT_CAST_IGNORE); reflexivity.
Qed.
Lemma cast_int s z : int_text 10 s z -> cast_int_float_string s = PInt z.
Proof. intros H. unfold cast_int_float_string. now rewrite (proj2 (decimal_bytes s z) H). Qed.
Lemma cast_worded s : worded s -> cast_int_float_string s = PStr s.
Proof.
  intros [A B]. unfold cast_int_float_string. destruct (int_bytes 10 s) as [z|] eqn:E; [exfalso; apply (A z); now apply decimal_bytes|].
  destruct (float_bytes s) as [v|] eqn:F; [|reflexivity]. exfalso. apply (B v). now apply Proofs.Pds4Fields.float_real.
Qed.
Ltac xn := apply name_dec; vm_compute; reflexivity.
Lemma gives_has e n s : gives e n s -> has_child e n.
Proof. intros (c & (b & a & E & C & _) & _). exists c. split; [rewrite E; apply in_or_app; right; now left|exact C]. Qed.
Lemma number_has e n z : gives_number e n z -> has_child e n.
Proof. intros (s & H & _). eapply gives_has; eauto. Qed.
Lemma only_has e n c : only e n c -> has_child e n.
Proof. intros (b & a & E & C & _). exists c. split; [rewrite E; apply in_or_app; right; now left|exact C]. Qed.
Lemma only_in e n c : only e n c -> In c (parts e).
Proof. intros (b & a & E & C & _). rewrite E; apply in_or_app; right; now left. Qed.
Lemma has_parts e n : has_child e n -> parts e <> [].
Proof. intros (c & I & _) E. now rewrite E in I. Qed.
Section Get.
  Context (mods : list (str * str)) (e : xml) (d : meta) (k n : str).
  Hypotheses (W : well_named e) (K : keyed mods e d) (A : agrees mods e k n) (Nk : k <> $"_text") (X : xml_name n).
  Lemma get_given s : gives e n s -> dict_get d k = Some (if str_in k DEFAULT_CAST_IGNORE then PStr s else cast_int_float_string s).
  Proof using W K A Nk X.
    intros (c & O & L & T). rewrite (get_only mods e d k n W K A Nk X c O), (leaf_value mods c s L T). f_equal.
    assert (E : modify_tag mods (xtag (clean c)) = k); [|now rewrite E]. pose proof (only_in _ _ _ O) as I. apply str_eqb_eq. rewrite (A c I). apply (filter_called e n W X c I). destruct O as (b & a & _ & C & _). exact C.
  Qed.
  Lemma get_number z : str_in k DEFAULT_CAST_IGNORE = false -> gives_number e n z -> dict_get d k = Some (PInt z).
  Proof using W K A Nk X. intros S (s & G & T). rewrite (get_given s G), S. now rewrite (cast_int s z T). Qed.
  Lemma get_int_ok z : str_in k DEFAULT_CAST_IGNORE = false -> gives_number e n z -> get_int d k = Ok z.
  Proof using W K A Nk X. intros S G. unfold get_int, Pds4Product.get.  now rewrite (get_number z S G). Qed.
  Lemma get_nat_ok x : str_in k DEFAULT_CAST_IGNORE = false -> gives_number e n (Z.of_nat x) -> get_nat d k = Ok x.
  Proof using W K A Nk X.
    intros S G. unfold get_nat, Pds4Product.get. rewrite (get_number _ S G). cbn [rbind]. unfold natural. cbn [whole rbind]. destruct (Z.of_nat x <? 0)%Z eqn:E; [apply Z.ltb_lt in E; lia|]. now rewrite Nat2Z.id.
  Qed.
  Lemma get_text_ok s : cast_int_float_string s = PStr s -> gives e n s -> get_text d k = Ok s.
  Proof using W K A Nk X. intros S G. unfold get_text, Pds4Product.get. rewrite (get_given s G), S. now destruct (str_in k DEFAULT_CAST_IGNORE). Qed.
  Lemma meta_text_ok o : str_in k DEFAULT_CAST_IGNORE = true -> may_give e n o -> meta_text d k = o.
  Proof using W K A Nk X.
    intros S. unfold meta_text. destruct o as [s|]; cbn [may_give]; intros G; [rewrite (get_given s G), S; reflexivity|now rewrite (get_lacks mods e d k n W K A Nk X G)].
  Qed.
  Lemma maybe_int_ok o : str_in k DEFAULT_CAST_IGNORE = false -> may_give_number e n o -> maybe_int d k = Ok o.
  Proof using W K A Nk X.
    intros S. unfold maybe_int. destruct o as [s|]; cbn [may_give_number]; intros G; [rewrite (get_number s S G); reflexivity|now rewrite (get_lacks mods e d k n W K A Nk X G)].
  Qed.
End Get.
Lemma check_ok d ks : Forall (fun k => dict_has d k = true) ks -> check_keys (PDict d) ks = Ok tt.
Proof. induction 1 as [|k ks H _ IH]; [reflexivity|]. cbn [check_keys has_key rbind]. now rewrite H. Qed.
Lemma rmap_map_ {A B C} (f : B -> res C) (g : A -> B) (h : A -> C) l : (forall x, In x l -> f (g x) = Ok (h x)) -> rmap f (map g l) = Ok (map h l).
Proof. induction l as [|x l IH]; intros H; [reflexivity|]. cbn [map rmap]. rewrite (H x) by now left. cbn [rbind]. rewrite IH by (intros y Hy; apply H; now right). reflexivity. Qed.

(** ** Arrays *)
Lemma plain_child e d n : well_named e -> keyed [] e d -> xml_name n -> n <> $"_text" -> has_child e n -> dict_has d n = true.
Proof. intros W K X N. apply (get_child [] e d n n W K (agrees_plain e n) N X). Qed.
Lemma plain_only e d n c : well_named e -> keyed [] e d -> xml_name n -> n <> $"_text" -> only e n c -> dict_get d n = Some (value_in [] c).
Proof. intros W K X N. apply (get_only [] e d n n W K (agrees_plain e n) N X). Qed.
Ltac nt := vm_compute; discriminate.
Lemma axis_values e d l : well_named e -> keyed [] e d -> picked (fun c => called c $"Axis_Array") (parts e) l -> l <> [] -> Forall (fun c => parts c <> []) l ->
  Pds4Product.get d $"Axis_Array" = Ok (match l with [c] => value_in [] c | _ => PTuple (map (value_in []) l) end) /\ axis_arrays d = Ok (map (value_in []) l).
Proof.
  intros W K P N F. assert (G : dict_get d $"Axis_Array" = gathered [] l).
  { rewrite (K $"Axis_Array") by nt. f_equal. rewrite (key_filter [] e $"Axis_Array" $"Axis_Array" (agrees_plain e _)). apply picked_with; [exact W|xn|exact P]. }
  unfold axis_arrays, Pds4Product.get. rewrite G. destruct l as [|c [|c' l]]; [contradiction| |split; reflexivity]. cbn [gathered rbind map].
  split; [reflexivity|]. inversion F as [|? ? Hc _]; subst. destruct (load_ok [] c Hc) as (dc & E & _). now rewrite E.
Qed.
Lemma picked_incl {A} (P : A -> Prop) l l' : picked P l l' -> forall x, In x l' -> In x l /\ P x.
Proof.
  induction 1 as [|x l l' Hx _ IH|x l l' Hx _ IH]; intros y Hy; [destruct Hy| |].
  - destruct Hy as [<-|Hy]; [split; [now left|exact Hx]|]. destruct (IH y Hy). split; [now right|assumption].
  - destruct (IH y Hy). split; [now right|assumption].
Qed.
Lemma array_loads e : well_named e -> has_child e $"offset" -> has_child e $"axes" ->
  (exists axes, picked (fun c => called c $"Axis_Array") (parts e) axes /\ axes <> [] /\ Forall has_axis axes) ->
  (exists el, only e $"Element_Array" el /\ has_child el $"data_type") ->
  exists d, array_from_label (clean e) = Ok d /\ keyed [] e d.
Proof.
  intros W Ho Ha (l & P & Nl & F) (el & Oe & Ht). destruct (load_ok [] e (has_parts _ _ Ho)) as (d & Ev & El & K). exists d. split; [|exact K].
  unfold array_from_label. rewrite El. cbn [rbind].
  assert (Hc : forall c, In c l -> exists dc, value_in [] c = PDict dc /\ dict_has dc $"axis_name" = true /\ dict_has dc $"elements" = true /\ dict_has dc $"sequence_number" = true /\ exists z, get_int dc $"sequence_number" = Ok z).
  { intros c I. rewrite Forall_forall in F. destruct (F c I) as (A1 & A2 & z & A3). destruct (load_ok [] c (has_parts _ _ A1)) as (dc & E & _ & Kc). exists dc. split; [exact E|].
    assert (Wc : well_named c) by (eapply wn_child; [exact W|]; now apply (picked_incl _ _ _ P c I)).
    split; [apply (plain_child c); (assumption || xn || nt)|]. split; [apply (plain_child c); (assumption || xn || nt)|].
    split; [apply (plain_child c); [assumption|assumption|xn|nt|]; eapply number_has; exact A3|]. exists z. apply (get_int_ok [] c dc $"sequence_number" $"sequence_number"); (assumption || (apply agrees_plain) || xn || nt || reflexivity). }
  destruct (axis_values e d l W K P Nl) as [G AA]. { apply Forall_forall. intros c I. rewrite Forall_forall in F. destruct (F c I) as (A1 & _). eapply has_parts; exact A1. }
  assert (Ea : has_child e $"Axis_Array"). { destruct l as [|c l]; [contradiction|]. exists c. apply (picked_incl _ _ _ P). now left. }
  rewrite check_ok. 2:{ repeat constructor; apply (plain_child e); (assumption || xn || nt || (eapply only_has; exact Oe)). }
  cbn [rbind]. rewrite AA. cbn [rbind].
  assert (R : exists r, rmap (axis_value $"sequence_number") (map (value_in []) l) = Ok r).
  { clear -Hc. induction l as [|c l IH]; [now exists []|]. cbn [map rmap]. destruct (Hc c (or_introl eq_refl)) as (dc & E & _ & _ & _ & z & Z). rewrite E. cbn [axis_value mapping rbind]. rewrite Z. cbn [rbind].
    destruct IH as [r ->]; [intros x I; apply Hc; now right|]. now exists (z :: r). }
  destruct R as [r ->]. cbn [rbind].
  assert (Ck : forall c, In c l -> check_keys (value_in [] c) [$"axis_name"; $"elements"; $"sequence_number"] = Ok tt).
  { intros c I. destruct (Hc c I) as (dc & E & B1 & B2 & B3 & _). rewrite E. apply check_ok. repeat constructor; assumption. }
  assert (Q : (match map (value_in []) l with
    | [_] => rbind (Pds4Product.get d $"Axis_Array") (fun a => check_keys a [$"axis_name"; $"elements"; $"sequence_number"])
    | _ => rbind (rmap (fun v => check_keys v [$"axis_name"; $"elements"; $"sequence_number"]) (map (value_in []) l)) (fun _ => Ok tt) end) = Ok tt).
  { rewrite G. destruct l as [|c [|c' l]]; [contradiction| |].
    - cbn [map rbind]. apply Ck. now left.
    - rewrite (rmap_map_ _ (value_in []) (fun _ => tt)) by exact Ck. reflexivity. }
  rewrite Q. cbn [rbind]. unfold Pds4Product.get at 1. rewrite (plain_only e d $"Element_Array" el W K ltac:(xn) ltac:(nt) Oe). cbn [rbind].
  destruct (load_ok [] el (has_parts _ _ Ht)) as (de & Ee & _ & Ke). rewrite Ee, check_ok; [reflexivity|]. repeat constructor. apply (plain_child el); [|assumption|xn|nt|assumption]. eapply wn_child; [exact W|]. eapply only_in; exact Oe.
Qed.
Lemma array_described e d offset axes type : well_named e -> keyed [] e d -> describes_array e offset axes type -> axes <> [] -> cast_int_float_string type = PStr type ->
  array_meta_of d = Ok (mkArray offset axes type None (constants d)).
Proof.
  intros W K (_ & Ho & (l & P & F) & (el & Oe & Ht) & Ls) Na Ct. unfold array_meta_of.
  rewrite (get_nat_ok [] e d $"offset" $"offset" W K (agrees_plain e _) ltac:(nt) ltac:(xn) offset eq_refl Ho). cbn [rbind].
  assert (Nl : l <> []) by (intros ->; inversion F; subst; contradiction).
  destruct (axis_values e d l W K P Nl) as [_ AA].
  { clear -F. induction F as [|c a l axes [H _] _ IH]; constructor; [eapply has_parts; eapply number_has; exact H|exact IH]. }
  rewrite AA. cbn [rbind].
  assert (R : rmap axis_of (map (value_in []) l) = Ok axes).
  { assert (Wl : Forall well_named l) by (apply Forall_forall; intros c I; eapply wn_child; [exact W|]; now apply (picked_incl _ _ _ P c I)). clear -F Wl. induction F as [|c [s n] l axes [H1 H2] _ IH]; [reflexivity|]. inversion Wl as [|? ? Wc Wl']; subst. cbn [map rmap]. cbn [fst snd] in *.
    destruct (load_ok [] c (has_parts _ _ (number_has _ _ _ H1))) as (dc & E & _ & Kc). rewrite E. cbn [axis_of mapping rbind].
    rewrite (get_int_ok [] c dc $"sequence_number" $"sequence_number" Wc Kc (agrees_plain c _) ltac:(nt) ltac:(xn) s eq_refl H1). cbn [rbind].
    rewrite (get_nat_ok [] c dc $"elements" $"elements" Wc Kc (agrees_plain c _) ltac:(nt) ltac:(xn) n eq_refl H2). cbn [rbind]. now rewrite (IH Wl'). }
  rewrite R. cbn [rbind]. unfold Pds4Product.get at 1. rewrite (plain_only e d $"Element_Array" el W K ltac:(xn) ltac:(nt) Oe). cbn [rbind].
  destruct (load_ok [] el (has_parts _ _ (gives_has _ _ _ Ht))) as (de & Ee & _ & Ke). rewrite Ee. cbn [mapping rbind].
  assert (We : well_named el) by (eapply wn_child; [exact W|]; eapply only_in; exact Oe).
  rewrite (get_text_ok [] el de $"data_type" $"data_type" We Ke (agrees_plain el _) ltac:(nt) ltac:(xn) type Ct Ht). cbn [rbind]. f_equal. f_equal.
  unfold bit_mask. now rewrite (get_lacks [] e d $"Object_Statistics" $"Object_Statistics" W K (agrees_plain e _) ltac:(nt) ltac:(xn) Ls).
Qed.

(** ** Kinds of structures *)
Lemma table_names n : In n TABLES -> xml_name n /\ contains $"Header" n = false /\ contains $"Array" n = false /\ str_in n PDS4_TABLE_TYPES = true.
Proof. intros I. cbn in I. repeat (destruct I as [<-|I]; [split; [xn|repeat split; vm_compute; reflexivity]|]). destruct I. Qed.
Lemma kind_iff c k : has_name c -> kind_is c k <-> exists s, kind_of (xtag (clean c)) = Some s /\ kind_name s = k.
Proof.
  intros N. pose proof (contains_short $"Header" c ltac:(cbn; intuition discriminate) ltac:(cbn; intuition discriminate) ltac:(vm_compute; reflexivity) N) as H.
  pose proof (contains_short $"Array" c ltac:(cbn; intuition discriminate) ltac:(cbn; intuition discriminate) ltac:(vm_compute; reflexivity) N) as A.
  assert (T : (exists n, In n TABLES /\ called c n) <-> str_in (xtag (clean c)) PDS4_TABLE_TYPES = true).
  { split.
    - intros (n & I & C). destruct (table_names n I) as (X & _ & _ & S). apply called_iff in C; [|exact N|exact X]. now rewrite C.
    - intros S. apply str_in_iff in S. exists (xtag (clean c)). split; [exact S|]. apply called_iff; [exact N| |reflexivity]. now apply table_names. }
  unfold kind_is, kind_of. split.
  - intros [(-> & O)|[(-> & O1 & O2)|(-> & O)]].
    + exists SHeader. rewrite (proj2 H O). now split.
    + exists SArray. destruct (contains $"Header" (xtag (clean c))); [exfalso; apply O1; now apply H|]. rewrite (proj2 A O2). now split.
    + exists STable. pose proof O as O'. destruct O' as (n & I & C). destruct (table_names n I) as (X & S1 & S2 & S3). apply called_iff in C; [|exact N|exact X]. rewrite C, S1, S2, S3. now split.
  - intros (s & E & <-). destruct (contains $"Header" (xtag (clean c))) eqn:E1; [injection E as <-; left; split; [reflexivity|now apply H]|].
    destruct (contains $"Array" (xtag (clean c))) eqn:E2; [injection E as <-; right; left; split; [reflexivity|split; [intros O; apply H in O; discriminate|now apply A]]|].
    destruct (str_in (xtag (clean c)) PDS4_TABLE_TYPES) eqn:E3; [|discriminate]. injection E as <-. right; right. split; [reflexivity|now apply T].
Qed.
Lemma kind_name_inj a b : kind_name a = kind_name b -> a = b.
Proof. destruct a, b; intros H; try reflexivity; vm_compute in H; discriminate H. Qed.

(** ** Records *)
Lemma picked_single {A} (P : A -> Prop) l r : picked P l [r] -> exists before after, l = before ++ r :: after /\ P r /\ Forall (fun x => ~ P x) (before ++ after).
Proof.
  assert (Z : forall l, picked P l [] -> Forall (fun x => ~ P x) l).
  { clear. intros l H. remember [] as m eqn:E. induction H as [|x l l' Hx _ IH|x l l' Hx _ IH]; [constructor|discriminate|constructor; auto]. }
  intros H. remember [r] as m eqn:E. induction H as [|x l l' Hx Hp IH|x l l' Hx Hp IH]; [discriminate| |].
  - injection E as -> ->. exists [], l. split; [reflexivity|]. split; [exact Hx|]. now apply Z.
  - destruct (IH E) as (b & a & -> & Hr & F). exists (x :: b), a. split; [reflexivity|]. split; [exact Hr|]. now constructor.
Qed.
Lemma record_name type : In type [$"Character"; $"Binary"; $"Delimited"] -> xml_name ($"Record_" ++ type) /\ $"Record_" ++ type <> $"_text" /\ table_type ($"Record_" ++ type) = type.
Proof. intros I. repeat (destruct I as [<-|I]; [split; [xn|split; [nt|vm_compute; reflexivity]]|]). destruct I. Qed.
Lemma record_only e type r : record_of e type r -> only e ($"Record_" ++ type) r.
Proof.
  intros (P & C & I). destruct (picked_single _ _ _ P) as (b & a & E & O & F). exists b, a. split; [exact E|]. split; [exact C|].
  eapply Forall_impl; [|exact F]. intros x N [T|T]; apply N; rewrite T; [exists [], type; reflexivity|]. exists ($"{" ++ PDS ++ $"}"), type. now rewrite <- !app_assoc.
Qed.
Lemma record_tag_ok e type r : well_named e -> record_of e type r -> record_tag (clean e) = Ok ($"Record_" ++ type).
Proof.
  intros W R. pose proof (record_only e type r R) as O. destruct R as (P & C & I). destruct (record_name type I) as (X & _). unfold record_tag. rewrite xchildren_clean, map_map.
  assert (E : filter (contains $"Record_") (map (fun c => xtag (clean c)) (parts e)) = [xtag (clean r)]).
  { rewrite filter_map_. change [xtag (clean r)] with (map (fun c => xtag (clean c)) [r]). apply (f_equal (map (fun c => xtag (clean c)))). symmetry. refine (picked_in _ _ _ _ _ P). intros x Ix. apply contains_short; [cbn; intuition discriminate|cbn; intuition discriminate|vm_compute; reflexivity|]. apply wn_name. eapply wn_child; eauto. }
  rewrite E. f_equal. apply called_iff; [|exact X|exact C]. apply wn_name. eapply wn_child; [exact W|]. eapply only_in; exact O.
Qed.
Lemma table_loads e type r : well_named e -> record_of e type r -> has_child e $"offset" -> has_child e $"records" -> has_child r $"fields" -> has_child r $"groups" ->
  (type = $"Delimited" -> has_child e $"record_delimiter" /\ has_child e $"field_delimiter") -> (type <> $"Delimited" -> has_child r $"record_length") ->
  exists d, table_from_label (clean e) = Ok d /\ keyed [] e d.
Proof.
  intros W R Ho Hr Hf Hg Hd Hl. destruct (load_ok [] e (has_parts _ _ Ho)) as (d & Ev & El & K). exists d. split; [|exact K].
  pose proof (record_only e type r R) as O. unfold table_from_label. rewrite El. cbn [rbind]. rewrite (record_tag_ok e type r W R). cbn [rbind].
  assert (I : In type [$"Character"; $"Binary"; $"Delimited"]) by apply R. destruct (record_name type I) as (X & Nt & Ty).
  assert (G : Pds4Product.get d ($"Record_" ++ type) = Ok (value_in [] r)) by (unfold Pds4Product.get; now rewrite (plain_only e d _ r W K X Nt O)). rewrite G. cbn [rbind]. rewrite Ty.
  assert (Wr : well_named r) by (eapply wn_child; [exact W|]; eapply only_in; exact O).
  destruct (load_ok [] r (has_parts _ _ Hf)) as (dr & Er & _ & Kr). rewrite Er.
  assert (Hrec : dict_has d ($"Record_" ++ type) = true) by (apply (plain_child e); [assumption..|]; eapply only_has; exact O).
  assert (H : forall n, xml_name n -> n <> $"_text" -> has_child e n -> dict_has d n = true) by (intros n Xn Nn; now apply (plain_child e)).
  assert (H' : forall n, xml_name n -> n <> $"_text" -> has_child r n -> dict_has dr n = true) by (intros n Xn Nn; now apply (plain_child r)).
  destruct (str_eqb type $"Delimited") eqn:D.
  - apply str_eqb_eq in D. destruct (Hd D) as [D1 D2]. rewrite D. change (is_delimited $"Delimited") with true. cbn match. rewrite <- D.
    rewrite check_ok by (apply Forall_cons; [apply H; [xn|nt|exact Ho]|]; apply Forall_cons; [apply H; [xn|nt|exact Hr]|]; apply Forall_cons; [apply H; [xn|nt|exact D1]|]; apply Forall_cons; [apply H; [xn|nt|exact D2]|]; apply Forall_cons; [exact Hrec|constructor]).
    cbn [rbind]. rewrite check_ok by (apply Forall_cons; [apply H'; [xn|nt|exact Hf]|]; apply Forall_cons; [apply H'; [xn|nt|exact Hg]|constructor]). reflexivity.
  - assert (N : type <> $"Delimited") by (intros E; rewrite E in D; vm_compute in D; discriminate D). specialize (Hl N).
    assert (Q : is_delimited type = false) by (destruct I as [<-|[<-|[<-|[]]]]; [vm_compute; reflexivity..|contradiction]). rewrite Q.
    rewrite check_ok by (apply Forall_cons; [apply H; [xn|nt|exact Ho]|]; apply Forall_cons; [apply H; [xn|nt|exact Hr]|]; apply Forall_cons; [exact Hrec|constructor]).
    cbn [rbind]. rewrite check_ok by (apply Forall_cons; [apply H'; [xn|nt|exact Hf]|]; apply Forall_cons; [apply H'; [xn|nt|exact Hg]|]; apply Forall_cons; [apply H'; [xn|nt|exact Hl]|constructor]). reflexivity.
Qed.

(** ** Products *)
Definition struct_ok (path : str) (c : xml) (s : struct4) : Prop :=
  kind_is c (kind_name (q_kind s)) /\ q_label s = clean c /\ q_file s = path /\ keyed [] c (q_meta s) /\ well_named c.
Lemma loads k c : well_named c -> sufficient c -> kind_is c (kind_name k) -> exists d, from_label k (clean c) = Ok d /\ keyed [] c d.
Proof.
  intros W (S1 & S2 & S3) Hk. destruct k; cbn [kind_name from_label] in *.
  - destruct (S1 Hk) as (H1 & H2 & H3). destruct (load_ok [] c (has_parts _ _ H1)) as (d & _ & El & K). exists d. split; [|exact K]. rewrite El. cbn [rbind].
    rewrite check_ok; [reflexivity|]. apply Forall_cons; [|apply Forall_cons; [|apply Forall_cons; [|constructor]]]; apply (plain_child c); (assumption || xn || nt).
  - destruct (S2 Hk) as (H1 & H2 & H3 & H4). now apply array_loads.
  - destruct (S3 Hk) as (H1 & H2 & type & r & H3 & H4 & H5 & H6 & H7). now apply (table_loads c type r).
Qed.
Lemma area_ok path cs0 cs : Forall well_named cs0 -> picked (fun c => exists k, kind_is c k) cs0 cs -> Forall sufficient cs ->
  exists l, area_structures path (map clean cs0) = Ok l /\ Forall2 (struct_ok path) cs l.
Proof.
  intros W P. induction P as [|c cs0 cs [k Hk] _ IH|c cs0 cs Hk _ IH]; intros S.
  - exists []. split; [reflexivity|constructor].
  - inversion W as [|? ? Wc W']; subst. inversion S as [|? ? Sc S']; subst. destruct (IH W' S') as (l & E & F). cbn [map area_structures].
    pose proof Hk as Hk'. apply kind_iff in Hk' as (s & Ek & En); [|now apply wn_name]. rewrite Ek. rewrite <- En in Hk.
    destruct (loads s c Wc Sc Hk) as (d & Ed & K). rewrite Ed. cbn [rbind]. rewrite E. cbn [rbind]. eexists. split; [reflexivity|]. constructor; [|exact F]. repeat split; assumption.
  - inversion W as [|? ? Wc W']; subst. destruct (IH W' S) as (l & E & F). cbn [map area_structures].
    destruct (kind_of (xtag (clean c))) as [s|] eqn:Ek; [exfalso; apply Hk; exists (kind_name s); apply kind_iff; [now apply wn_name|eauto]|]. exists l. now split.
Qed.
Lemma file_found area f : well_named area -> names_file area f -> exists c, find_below $"file_name" (clean area) = Some c /\ xtext c = Some f.
Proof.
  intros W (file & rest & E & C & L & G). assert (Wf : well_named file) by (eapply wn_child; [exact W|]; rewrite E; now left).
  assert (Q : exists c, find_below $"file_name" (clean file) = Some c /\ xtext c = Some f).
  { destruct G as (c & O & Lc & T). exists (clean c). split; [|rewrite (xtext_leaf c Lc); now apply shown_clean].
    pose proof (with_only file $"file_name" c Wf ltac:(xn) O) as Hw. unfold with_tag in Hw. destruct file as [t a x y cs]. cbn [Spec.Xml.children] in *. cbn [clean find_below]. clear - L Hw.
    induction L as [|z cs Lz _ IH]; [discriminate|]. cbn [map filter] in *. destruct (str_eqb (xtag (clean z)) $"file_name"); [now injection Hw as ->|].
    assert (Nz : find_below $"file_name" (clean z) = None) by (destruct z as [tz az xz yz cz]; cbn [Spec.Xml.children] in Lz; subst cz; reflexivity). rewrite Nz. now apply IH. }
  destruct Q as (c & Q1 & Q2). exists c. split; [|exact Q2]. destruct area as [t a x y cs]. cbn [Spec.Xml.children] in E. subst cs. cbn [clean find_below map].
  assert (Nf : str_eqb (xtag (clean file)) $"file_name" = false).
  { apply called_iff in C; [|now apply wn_name|xn]. rewrite C. reflexivity. }
  now rewrite Nf, Q1.
Qed.
Lemma file_area_ok dir area l : well_named area -> area_lists area l -> Forall (fun x => sufficient (snd x)) l ->
  exists ss, file_area dir (clean area) = Ok ss /\ Forall2 (fun x => struct_ok (path_join dir (fst x)) (snd x)) l ss.
Proof.
  intros W (f & cs & Nf & P & ->) S. destruct (file_found area f W Nf) as (c & F1 & F2). unfold file_area. rewrite F1, F2, xchildren_clean.
  assert (Sc : Forall sufficient cs) by (apply Forall_map in S; rewrite map_map, map_id in S; exact S).
  destruct (area_ok (path_join dir f) (parts area) cs) as (ss & E & F); [|exact P|exact Sc|].
  { apply Forall_forall. intros z Hz. eapply wn_child; eauto. }
  exists ss. split; [exact E|]. clear -F. induction F; constructor; assumption.
Qed.
Lemma areas_ok label areas_ : well_named label -> Forall2 (fun kind => picked (fun c => called c kind) (parts label)) FILE_AREAS areas_ -> areas (clean label) = map clean (concat areas_).
Proof.
  intros W F. unfold areas. change PDS4_DATA_FILE_AREAS with FILE_AREAS. assert (X : Forall xml_name FILE_AREAS) by (unfold FILE_AREAS; repeat (apply Forall_cons; [xn|]); constructor).
  revert X. induction F as [|k a ks as_ P _ IH]; intros X; [reflexivity|]. inversion X as [|? ? X1 X2]; subst. cbn [flat_map concat]. rewrite map_app, (IH X2). f_equal.
  rewrite xchildren_clean, filter_map_. f_equal. symmetry. refine (picked_in _ _ _ _ _ P). intros c I. now apply (filter_called label k W X1).
Qed.
Lemma structures_ok dir label l : well_named label -> product_lists label l -> Forall (fun x => sufficient (snd x)) l ->
  exists ss, read_structures dir (clean label) = Ok ss /\ Forall2 (fun x => struct_ok (path_join dir (fst x)) (snd x)) l ss.
Proof.
  intros W (as_ & ls & F & G & ->) S. unfold read_structures. rewrite (areas_ok label as_ W F).
  assert (Wa : Forall well_named (concat as_)).
  { clear G S. induction F as [|k a ks as_ P _ IH]; [constructor|]. cbn [concat]. apply Forall_app. split; [|exact IH]. apply Forall_forall. intros c I. eapply wn_child; [exact W|]. now apply (picked_incl _ _ _ P c I). }
  assert (Q : exists sss, rmap (file_area dir) (map clean (concat as_)) = Ok sss /\ Forall2 (fun x => struct_ok (path_join dir (fst x)) (snd x)) (concat ls) (concat sss)).
  { clear F. induction G as [|a l as' ls' A _ IH]; [exists []; split; [reflexivity|constructor]|]. inversion Wa as [|? ? Wa1 Wa2]; subst. cbn [concat] in S. apply Forall_app in S as [S1 S2].
    destruct (file_area_ok dir a l Wa1 A S1) as (ss & E & F). destruct (IH S2 Wa2) as (sss & E' & F'). cbn [map rmap]. rewrite E. cbn [rbind]. rewrite E'. cbn [rbind]. exists (ss :: sss). split; [reflexivity|]. cbn [concat]. now apply Forall2_app. }
  destruct Q as (sss & -> & Q). cbn [rbind]. eauto.
Qed.
Lemma named_ok path c s st : struct_ok path c s -> entitled c st -> named_structure s = st.
Proof.
  intros (Hk & _ & _ & K & W) (Hk' & Hl & Hn). unfold named_structure. destruct st as [k lo na]. cbn [s_kind s_local s_name] in *.
  assert (E : kind_name (q_kind s) = k). { apply kind_iff in Hk as (a & A1 & A2); [|now apply wn_name]. apply kind_iff in Hk' as (b & B1 & B2); [|now apply wn_name]. congruence. }
  rewrite E. f_equal; [apply (meta_text_ok [] c (q_meta s) $"local_identifier" $"local_identifier")|apply (meta_text_ok [] c (q_meta s) $"name" $"name")]; (assumption || apply agrees_plain || xn || nt || reflexivity).
Qed.

(** ** Fields and groups of tables *)
Definition label_list (ty : str) : list xml -> res (list lfield) :=
  fix go (cs : list xml) : res (list lfield) :=
    match cs with
    | [] => Ok []
    | c :: cs =>
        if str_eqb (xtag c) ($"Field_" ++ ty) then rbind (field_from_label ty c) (fun f => rbind (go cs) (fun r => Ok (f :: r)))
        else if str_eqb (xtag c) ($"Group_Field_" ++ ty) then
          rbind (group_from_label c []) (fun _ => rbind (label_items ty c) (fun inner => rbind (group_from_label c inner) (fun g => rbind (go cs) (fun r => Ok (g :: r)))))
        else go cs
    end.
Lemma label_items_eq ty e : label_items ty (clean e) = label_list ty (map clean (parts e)).
Proof. destruct e. reflexivity. Qed.
Lemma types_cases type : In type [$"Character"; $"Binary"; $"Delimited"] ->
  (str_eqb type $"Delimited" = true /\ contains $"Delimited" ($"Group_Field_" ++ type) = true) \/
  (str_eqb type $"Delimited" = false /\ (str_eqb type $"Character" || str_eqb type $"Binary") = true /\ contains $"Delimited" ($"Group_Field_" ++ type) = false).
Proof. intros I. destruct I as [<-|[<-|[<-|[]]]]; [right|right|left]; vm_compute; repeat split; reflexivity. Qed.
Lemma types_names type : In type [$"Character"; $"Binary"; $"Delimited"] -> xml_name ($"Field_" ++ type) /\ xml_name ($"Group_Field_" ++ type) /\
  Forall xml_name (GROUP_PARTS type) /\ str_eqb ($"Group_Field_" ++ type) ($"Field_" ++ type) = false /\
  (forall k n, In (k, n) [($"name", $"name"); ($"repetitions", $"repetitions"); ($"fields", $"fields"); ($"groups", $"groups"); ($"location", $"group_location"); ($"length", $"group_length")] ->
     forallb (fun p => Bool.eqb (str_eqb (modify_tag [($"group_", [])] p) k) (str_eqb p n)) (GROUP_PARTS type) = true).
Proof.
  intros I. assert (Q : forall t, In t [$"Character"; $"Binary"; $"Delimited"] -> forall k n, In (k, n) [($"name", $"name"); ($"repetitions", $"repetitions"); ($"fields", $"fields"); ($"groups", $"groups"); ($"location", $"group_location"); ($"length", $"group_length")] ->
     forallb (fun p => Bool.eqb (str_eqb (modify_tag [($"group_", [])] p) k) (str_eqb p n)) (GROUP_PARTS t) = true).
  { intros t It k n Ik. assert (B : forallb (fun kn => forallb (fun p => Bool.eqb (str_eqb (modify_tag [($"group_", [])] p) (fst kn)) (str_eqb p (snd kn))) (GROUP_PARTS t))
      [($"name", $"name"); ($"repetitions", $"repetitions"); ($"fields", $"fields"); ($"groups", $"groups"); ($"location", $"group_location"); ($"length", $"group_length")] = true).
    { destruct It as [<-|[<-|[<-|[]]]]; vm_compute; reflexivity. }
    rewrite forallb_forall in B. exact (B (k, n) Ik). }
  split; [|split; [|split; [|split; [|now apply Q]]]]; destruct I as [<-|[<-|[<-|[]]]]; try xn; try (vm_compute; reflexivity); (apply Forall_forall; intros n Hn; cbn in Hn; repeat (destruct Hn as [<-|Hn]; [xn|]); destruct Hn).
Qed.
Lemma field_names_ok : Forall xml_name FIELD_PARTS.
Proof. unfold FIELD_PARTS. repeat (apply Forall_cons; [xn|]). constructor. Qed.
Lemma field_agrees c k n : well_named c -> made_of FIELD_PARTS c -> forallb (fun p => Bool.eqb (str_eqb (modify_tag [($"field_", [])] p) k) (str_eqb p n)) FIELD_PARTS = true -> agrees [($"field_", [])] c k n.
Proof. intros W M B. apply (agrees_made _ FIELD_PARTS); [exact W|exact M|apply field_names_ok|exact B]. Qed.
Lemma field_ok type c name l n t : In type [$"Character"; $"Binary"; $"Delimited"] -> well_named c -> describes_field type c name l n t ->
  exists o, field_from_label type (clean c) = Ok (LField name l n (mkM t o)) /\ (lacks c $"Special_Constants" -> o = None).
Proof.
  intros I W (C & M & Hn & Ht & Wt & P). destruct (load_ok [($"field_", [])] c (has_parts _ _ (gives_has _ _ _ Hn))) as (d & _ & El & K).
  exists (constants d). split.
  2:{ intros L. unfold constants. now rewrite (get_lacks [($"field_", [])] c d $"Special_Constants" $"Special_Constants" W K ltac:(apply field_agrees; [assumption..|vm_compute; reflexivity]) ltac:(nt) ltac:(xn) L). }
  assert (An : agrees [($"field_", [])] c $"name" $"name") by (apply field_agrees; [assumption..|vm_compute; reflexivity]).
  assert (At : agrees [($"field_", [])] c $"data_type" $"data_type") by (apply field_agrees; [assumption..|vm_compute; reflexivity]).
  assert (Al : agrees [($"field_", [])] c $"location" $"field_location") by (apply field_agrees; [assumption..|vm_compute; reflexivity]).
  assert (Ag : agrees [($"field_", [])] c $"length" $"field_length") by (apply field_agrees; [assumption..|vm_compute; reflexivity]).
  assert (Kn : dict_has d $"name" = true) by (apply (get_child [($"field_", [])] c d $"name" $"name" W K An ltac:(nt) ltac:(xn)); eapply gives_has; exact Hn).
  assert (Kt : dict_has d $"data_type" = true) by (apply (get_child [($"field_", [])] c d $"data_type" $"data_type" W K At ltac:(nt) ltac:(xn)); eapply gives_has; exact Ht).
  assert (Gn : get_text d $"name" = Ok name).
  { unfold get_text, Pds4Product.get. rewrite (get_given [($"field_", [])] c d $"name" $"name" W K An ltac:(nt) ltac:(xn) name Hn). reflexivity. }
  assert (Gt : get_text d $"data_type" = Ok t) by (apply (get_text_ok [($"field_", [])] c d $"data_type" $"data_type" W K At ltac:(nt) ltac:(xn) t); [now apply cast_worded|exact Ht]).
  unfold field_from_label. rewrite El. cbn [rbind]. rewrite check_ok by (apply Forall_cons; [exact Kn|constructor]). cbn [rbind]. rewrite Gn. cbn [rbind].
  unfold placed in P. destruct (types_cases type I) as [[D _]|(D & E & _)]; rewrite D in *.
  - destruct P as [-> ->]. rewrite check_ok by (apply Forall_cons; [exact Kt|constructor]). cbn [rbind]. now rewrite Gt.
  - rewrite E. destruct P as [Pl Pn]. change ($"field" ++ $"_location") with $"field_location" in Pl. change ($"field" ++ $"_length") with $"field_length" in Pn.
    rewrite check_ok.
    2:{ apply Forall_cons; [apply (get_child [($"field_", [])] c d $"location" $"field_location" W K Al ltac:(nt) ltac:(xn)); eapply number_has; exact Pl|].
        apply Forall_cons; [apply (get_child [($"field_", [])] c d $"length" $"field_length" W K Ag ltac:(nt) ltac:(xn)); eapply number_has; exact Pn|]. apply Forall_cons; [exact Kt|constructor]. }
    cbn [rbind]. rewrite (get_int_ok [($"field_", [])] c d $"location" $"field_location" W K Al ltac:(nt) ltac:(xn) l eq_refl Pl). cbn [rbind].
    rewrite (get_int_ok [($"field_", [])] c d $"length" $"field_length" W K Ag ltac:(nt) ltac:(xn) n eq_refl Pn). cbn [rbind]. now rewrite Gt.
Qed.
Lemma group_ok type c name r l n inner : In type [$"Character"; $"Binary"; $"Delimited"] -> well_named c -> describes_group type c name r l n ->
  group_from_label (clean c) inner = Ok (LGroup name r l n inner).
Proof.
  intros I W (C & M & Hn & Hr & Hf & Hg & P). destruct (types_names type I) as (_ & Xg & Xs & _ & B).
  assert (A : forall k n, In (k, n) [($"name", $"name"); ($"repetitions", $"repetitions"); ($"fields", $"fields"); ($"groups", $"groups"); ($"location", $"group_location"); ($"length", $"group_length")] -> agrees [($"group_", [])] c k n).
  { intros k m Ik. apply (agrees_made _ (GROUP_PARTS type)); [exact W|exact M|exact Xs|]. now apply B. }
  destruct (load_ok [($"group_", [])] c (has_parts _ _ Hf)) as (d & _ & El & K). unfold group_from_label. rewrite El. cbn [rbind].
  rewrite check_ok.
  2:{ apply Forall_cons; [apply (get_child [($"group_", [])] c d $"repetitions" $"repetitions" W K ltac:(apply A; cbn; auto 9) ltac:(nt) ltac:(xn)); eapply number_has; exact Hr|].
      apply Forall_cons; [apply (get_child [($"group_", [])] c d $"fields" $"fields" W K ltac:(apply A; cbn; auto 9) ltac:(nt) ltac:(xn)); exact Hf|].
      apply Forall_cons; [apply (get_child [($"group_", [])] c d $"groups" $"groups" W K ltac:(apply A; cbn; auto 9) ltac:(nt) ltac:(xn)); exact Hg|constructor]. }
  cbn [rbind]. assert (T : xtag (clean c) = $"Group_Field_" ++ type) by (apply called_iff; [now apply wn_name|exact Xg|exact C]). rewrite T.
  pose proof (get_nat_ok [($"group_", [])] c d $"repetitions" $"repetitions" W K ltac:(apply A; cbn; auto 9) ltac:(nt) ltac:(xn) r eq_refl Hr) as Gr.
  pose proof (meta_text_ok [($"group_", [])] c d $"name" $"name" W K ltac:(apply A; cbn; auto 9) ltac:(nt) ltac:(xn) name eq_refl Hn) as Gn. unfold meta_text in Gn.
  unfold placed in P. destruct (types_cases type I) as [(D & E)|(D & _ & E)]; rewrite D in P; rewrite E.
  - cbn [rbind]. rewrite Gr. cbn [rbind]. destruct P as [-> ->]. now rewrite Gn.
  - destruct P as [Pl Pn]. change ($"group" ++ $"_location") with $"group_location" in Pl. change ($"group" ++ $"_length") with $"group_length" in Pn.
    assert (Al : agrees [($"group_", [])] c $"location" $"group_location") by (apply A; cbn; auto 9). assert (Ag : agrees [($"group_", [])] c $"length" $"group_length") by (apply A; cbn; auto 9).
    rewrite check_ok.
    2:{ apply Forall_cons; [apply (get_child [($"group_", [])] c d $"location" $"group_location" W K Al ltac:(nt) ltac:(xn)); eapply number_has; exact Pl|].
        apply Forall_cons; [apply (get_child [($"group_", [])] c d $"length" $"group_length" W K Ag ltac:(nt) ltac:(xn)); eapply number_has; exact Pn|constructor]. }
    cbn [rbind]. rewrite Gr. cbn [rbind]. rewrite (get_int_ok [($"group_", [])] c d $"location" $"group_location" W K Al ltac:(nt) ltac:(xn) l eq_refl Pl). cbn [rbind].
    rewrite (get_int_ok [($"group_", [])] c d $"length" $"group_length" W K Ag ltac:(nt) ltac:(xn) n eq_refl Pn). cbn [rbind]. now rewrite Gn.
Qed.
Lemma items_ok type cs F T : In type [$"Character"; $"Binary"; $"Delimited"] -> Forall well_named cs -> lists_fields type cs F T ->
  exists fs, label_list type (map clean cs) = Ok fs /\ map item_of fs = label_fields F /\ flat_map names_in fs = label_names F /\ map m_type (flat_map abouts fs) = T /\
    ((forall c x, In c cs -> inside x c -> ~ called x $"Special_Constants") -> Forall (fun me => m_special me = None) (flat_map abouts fs)).
Proof.
  intros I W L. revert W. destruct (types_names type I) as (Xf & Xg & _ & Nfg & _).
  induction L as [|c cs F T N1 N2 _ IH|c name l n t cs F T D _ IH|c name r l n inner T' cs F T D _ IHi _ IH]; intros W.
  - exists []. repeat split. intros _. constructor.
  - inversion W as [|? ? Wc W']; subst. destruct (IH W') as (fs & E & E1 & E2 & E3 & E4). exists fs. cbn [map label_list].
    destruct (str_eqb (xtag (clean c)) ($"Field_" ++ type)) eqn:A; [exfalso; apply N1; apply called_iff; [now apply wn_name|exact Xf|now apply str_eqb_eq]|].
    destruct (str_eqb (xtag (clean c)) ($"Group_Field_" ++ type)) eqn:B; [exfalso; apply N2; apply called_iff; [now apply wn_name|exact Xg|now apply str_eqb_eq]|].
    repeat split; try assumption. intros S. apply E4. intros z x Hz. apply S. now right.
  - inversion W as [|? ? Wc W']; subst. destruct (IH W') as (fs & E & E1 & E2 & E3 & E4). destruct (field_ok type c name l n t I Wc D) as (o & Ef & Eo).
    exists (LField name l n (mkM t o) :: fs). cbn [map label_list]. assert (C : xtag (clean c) = $"Field_" ++ type) by (apply called_iff; [now apply wn_name|exact Xf|apply D]).
    rewrite C, str_eqb_refl, Ef. cbn [rbind]. rewrite E. cbn [rbind]. split; [reflexivity|]. split; [cbn [map item_of]; rewrite E1; reflexivity|]. split; [cbn [flat_map names_in]; rewrite E2; reflexivity|]. split; [cbn [flat_map abouts app map m_type]; now rewrite E3|].
    intros S. cbn [flat_map abouts app]. constructor; [|apply E4; intros z x Hz; apply S; now right]. cbn [m_special]. apply Eo. apply Forall_forall. intros x Hx. apply (S c x (or_introl eq_refl)). eapply inside_child; [exact Hx|constructor].
  - inversion W as [|? ? Wc W']; subst. destruct (IH W') as (fs & E & E1 & E2 & E3 & E4).
    destruct IHi as (gs & G & G1 & G2 & G3 & G4). { apply Forall_forall. intros z Hz. eapply wn_child; eauto. }
    exists (LGroup name r l n gs :: fs). cbn [map label_list]. assert (C : xtag (clean c) = $"Group_Field_" ++ type) by (apply called_iff; [now apply wn_name|exact Xg|apply D]).
    rewrite C, Nfg, str_eqb_refl, label_items_eq, G, (group_ok type c name r l n [] I Wc D). cbn [rbind]. rewrite (group_ok type c name r l n gs I Wc D). cbn [rbind]. rewrite E. cbn [rbind]. split; [reflexivity|].
    split; [cbn [map item_of]; rewrite E1, G1; reflexivity|]. split; [cbn [flat_map names_in]; rewrite E2, G2; reflexivity|]. split; [cbn [flat_map abouts]; now rewrite map_app, E3, G3|].
    intros S. cbn [flat_map abouts]. apply Forall_app. split; [|apply E4; intros z x Hz; apply S; now right]. apply G4. intros z x Hz Hx. apply (S c x (or_introl eq_refl)). eapply inside_child; eassumption.
Qed.
Lemma count_ok r n z : well_named r -> xml_name n -> gives_number r n z -> count_text (clean r) n = Ok z.
Proof.
  intros W X (s & (c & O & L & T) & Z). unfold count_text. rewrite xchildren_clean. pose proof (with_only r n c W X O) as Hw. unfold with_tag in Hw.
  assert (E : find (fun c => str_eqb (xtag c) n) (map clean (parts r)) = Some (clean c)).
  { clear - Hw. induction (parts r) as [|x l IH]; [discriminate|]. cbn [filter map find] in *. destruct (str_eqb (xtag (clean x)) n); [now injection Hw as ->|now apply IH]. }
  rewrite E, (xtext_leaf c L). destruct (shown_clean c s T) as [-> _]. now apply decimal_bytes.
Qed.
Lemma find_clean e n : well_named e -> xml_name n -> lacks e n -> find (fun c => str_eqb (xtag c) n) (xchildren (clean e)) = None.
Proof.
  intros W X L. rewrite xchildren_clean. pose proof (with_lacks e n W X L) as Hw. unfold with_tag in Hw. clear - Hw. induction (parts e) as [|x l IH]; [reflexivity|]. cbn [filter map find] in *. destruct (str_eqb (xtag (clean x)) n); [discriminate|now apply IH].
Qed.
Lemma find_only e n c : well_named e -> xml_name n -> only e n c -> find (fun c => str_eqb (xtag c) n) (xchildren (clean e)) = Some (clean c).
Proof.
  intros W X L. rewrite xchildren_clean. pose proof (with_only e n c W X L) as Hw. unfold with_tag in Hw. clear - Hw. induction (parts e) as [|x l IH]; [discriminate|]. cbn [filter map find] in *. destruct (str_eqb (xtag (clean x)) n); [now injection Hw as ->|now apply IH].
Qed.
