(** Proofs about Model/Checkers. *)
From Verif.Base Require Import Py Val.
From Verif.Model Require Import Checkers.
From Verif.Spec Require Import Checkers.
From Coq Require Import QArith.

(** ** When a condition cannot be true without one of these marks *)
(** the texts a pattern can begin with *)
Fixpoint prefixes (l : list piece) : list str :=
  match l with
  | Lit w :: l => map (app w) (prefixes l)
  | OneOf cs :: l => flat_map (fun c => map (cons c) (prefixes l)) cs
  | _ => [[]]
  end.
Definition equal_mark (marks : list mark) (f s : str) : bool :=
  existsb (fun k => match k with Equals g w => str_eqb f g && str_eqb s w | Mentions g w => str_eqb f g && contains w s | _ => false end) marks.
Definition part_mark (marks : list mark) (f s : str) : bool :=
  existsb (fun k => match k with Mentions g w => str_eqb f g && contains w s | _ => false end) marks.
Definition path_mark (marks : list mark) (s : str) : bool := existsb (fun k => match k with InPath w => contains w s | _ => false end) marks.
Definition name_mark (marks : list mark) (s : str) : bool := existsb (fun k => match k with ObjectIs w => str_eqb w s | _ => false end) marks.
Definition within_mark (marks : list mark) (f s : str) : bool := existsb (fun k => match k with PartOf g w => str_eqb f g && str_eqb s w | _ => false end) marks.
Fixpoint untrue (marks : list mark) (c : cond) : bool :=
  match c with
  | Is (Ident f) s => equal_mark marks f s
  | Is Name s => name_mark marks s
  | IsOneOf (Ident f) l => forallb (equal_mark marks f) l
  | Has w (Ident f) => part_mark marks f w && str_in f fields
  | Has w File => path_mark marks w
  | Starts (Ident f) s => part_mark marks f s
  | Matches (Ident f) l => forallb (fun r => forallb (part_mark marks f) (prefixes r)) l
  | Search (Ident f) words => forallb (part_mark marks f) words
  | Within (Ident f) s => within_mark marks f s
  | And a b => untrue marks a || untrue marks b
  | Or a b => untrue marks a && untrue marks b
  | _ => false
  end.
(** ** When it cannot raise *)
Definition text_subject (x : subject) : bool :=
  match x with Ident f => str_in f searched | Name | File => true | _ => false end.
Definition plain_subject (x : subject) : bool := match x with Ident _ | Name | File => true | _ => false end.
Fixpoint total (marks : list mark) (c : cond) : bool :=
  match c with
  | Is x _ | IsOneOf x _ | IsNumber x _ => plain_subject x
  | Has _ x | Starts x _ | Ends x _ | Matches x _ | Search x _ | Within x _ => text_subject x
  | Listed _ => true
  | Not c => total marks c
  | And a b => total marks a && (untrue marks a || total marks b)
  | Or a b => total marks a && total marks b
  | _ => false
  end.

Lemma contains_trans a b c : contains a b = true -> contains b c = true -> contains a c = true.
Proof.
  intros H H0. apply contains_iff in H as (x & y & ->). apply contains_iff in H0 as (z & t & ->).
  apply contains_iff. exists (z ++ x), (y ++ t). now rewrite <- !app_assoc.
Qed.
Lemma contains_self a : contains a a = true.
Proof. apply contains_iff. exists [], []. now rewrite app_nil_r. Qed.
Lemma contains_start a b : contains a (a ++ b) = true.
Proof. apply contains_iff. now exists [], b. Qed.

Lemma re_match_prefix r : forall s, re_match r s = true -> exists w t, In w (prefixes r) /\ s = w ++ t.
Proof.
  induction r as [|k r IH]; intros s H; [exists [], s; split; [now left|reflexivity]|].
  destruct k as [w| |cs|cs]; cbn [re_match prefixes] in *; try (exists [], s; split; [now left|reflexivity]).
  - apply andb_prop in H as [H H0]. apply startswith_iff in H as [t ->].
    rewrite skipn_app, skipn_all, Nat.sub_diag in H0. cbn in H0. apply IH in H0 as (w' & t' & H0 & ->).
    exists (w ++ w'), t'. split; [now apply in_map|now rewrite <- app_assoc].
  - destruct s as [|c s]; [discriminate|]. apply andb_prop in H as [H H0]. apply IH in H0 as (w' & t' & H0 & ->).
    exists (c :: w'), t'. split; [|reflexivity]. apply in_flat_map. exists c. split; [now apply has_char_iff|now apply in_map].
Qed.

Section Marks.
Variable p : asked.
Variable marks : list mark.
Hypothesis S : scalars p.
Hypothesis NB : forall k, In k marks -> ~ bears p k.

Lemma not_equal f s : equal_mark marks f s = true -> is_text (ident p f) s = false.
Proof.
  intros H. apply existsb_exists in H as (k & H & H0). pose proof (NB _ H) as B. destruct (ident p f) as [| | | |t| | | |] eqn:E; try reflexivity.
  cbn [is_text]. apply Bool.not_true_is_false. intros E'. apply str_eqb_eq in E' as ->.
  destruct k as [g w|g w| | |]; try discriminate; apply andb_prop in H0 as [H0 H1]; apply str_eqb_eq in H0 as <-.
  - apply str_eqb_eq in H1 as ->. now apply B.
  - apply B. exists s. split; [assumption|]. now apply contains_iff in H1.
Qed.
Lemma not_part f w s : part_mark marks f w = true -> ident p f = PStr s -> contains w s = false.
Proof.
  intros H E. apply existsb_exists in H as (k & H & H0). pose proof (NB _ H) as B. destruct k as [|g v| | |]; try discriminate.
  apply andb_prop in H0 as [H0 H1]. apply str_eqb_eq in H0 as <-. apply Bool.not_true_is_false. intros H2.
  apply B. exists s. split; [assumption|]. apply contains_iff. now apply contains_trans with w.
Qed.

Lemma text_only e f (g : str -> bool) : on_text e (ident p f) g = Ok true -> exists s, ident p f = PStr s /\ g s = true.
Proof. destruct (ident p f) as [| | | |s| | | |]; try discriminate. cbn. intros [= H]. now exists s. Qed.

Lemma untrue_ok c : untrue marks c = true -> eval p c <> Ok true.
Proof.
  induction c as [x s|x l|x n|w x|x s|x s|x l|x ws|x s|k|n x|n x|c IH|a IHa b IHb|a IHa b IHb];
    cbn [untrue]; try discriminate; intros H E; cbn [eval] in E.
  - destruct x; try discriminate; cbn in E.
    + rewrite (not_equal _ _ H) in E. discriminate.
    + apply existsb_exists in H as (k & H & H0). pose proof (NB _ H) as B. destruct k; try discriminate.
      apply str_eqb_eq in H0 as ->. injection E as E. apply str_eqb_eq in E. now apply B.
  - destruct x; try discriminate. cbn in E. injection E as E. apply existsb_exists in E as (s & Hs & E).
    rewrite forallb_forall in H. now rewrite (not_equal _ _ (H s Hs)) in E.
  - destruct x; try discriminate; cbn in E.
    + apply andb_prop in H as [H Hf]. apply str_in_iff in Hf. pose proof (S f Hf) as Sf. destruct (ident p f) as [| | | |s| | | |] eqn:Ei; try discriminate; try easy.
      cbn in E. rewrite (not_part _ _ _ H Ei) in E. discriminate.
    + apply existsb_exists in H as (k & H & H0). pose proof (NB _ H) as B. destruct k; try discriminate.
      apply B. cbn. apply contains_iff. injection E as E. now apply contains_trans with w.
  - destruct x; try discriminate. apply text_only in E as (t & E & E'). apply startswith_iff in E' as (u & ->).
    pose proof (not_part _ _ _ H E) as C. now rewrite contains_start in C.
  - destruct x; try discriminate. apply text_only in E as (t & E & E'). apply existsb_exists in E' as (r & Hr & E').
    rewrite forallb_forall in H. specialize (H r Hr). rewrite forallb_forall in H.
    apply re_match_prefix in E' as (w & u & Hw & ->). pose proof (not_part _ _ _ (H w Hw) E) as C. now rewrite contains_start in C.
  - destruct x; try discriminate. apply text_only in E as (t & E & E'). apply existsb_exists in E' as (w & Hw & E').
    rewrite forallb_forall in H. now rewrite (not_part _ _ _ (H w Hw) E) in E'.
  - destruct x; try discriminate. apply text_only in E as (t & E & E').
    apply existsb_exists in H as (k & H & H0). pose proof (NB _ H) as B. destruct k; try discriminate.
    apply andb_prop in H0 as [H0 H1]. apply str_eqb_eq in H0 as <-. apply str_eqb_eq in H1 as <-.
    apply B. exists t. split; [assumption|]. now apply contains_iff.
  - destruct (eval p a) as [[|]|] eqn:Ea; cbn in E; try discriminate.
    apply orb_true_iff in H as [H|H]; [now apply IHa in H|now apply IHb in H].
  - apply andb_prop in H as [H H0]. destruct (eval p a) as [[|]|] eqn:Ea; cbn in E; try discriminate; [now apply IHa in H|now apply IHb in H0].
Qed.

Hypothesis T : texts p.
Lemma text_ok x : text_subject x = true -> exists s, value p x = Ok (PStr s).
Proof.
  destruct x; try discriminate; cbn [text_subject value]; intros H.
  - apply str_in_iff in H. destruct (T _ H) as [s ->]. now exists s.
  - now eexists. - now eexists.
Qed.
Lemma plain_ok x : plain_subject x = true -> exists v, value p x = Ok v.
Proof. destruct x; try discriminate; intros _; eexists; reflexivity. Qed.
Lemma total_ok c : total marks c = true -> exists b, eval p c = Ok b.
Proof.
  induction c as [x s|x l|x n|w x|x s|x s|x l|x ws|x s|k|n x|n x|c IH|a IHa b IHb|a IHa b IHb];
    cbn [total]; try discriminate; intros H; cbn [eval].
  1-3: destruct (plain_ok x H) as [v ->]; eexists; reflexivity.
  1-6: destruct (text_ok x H) as [t ->]; eexists; reflexivity.
  - eexists; reflexivity.
  - destruct (IH H) as [b ->]. eexists; reflexivity.
  - apply andb_prop in H as [H H0]. destruct (IHa H) as [x E]. rewrite E. destruct x; [|now exists false].
    apply orb_true_iff in H0 as [H0|H0]; [now apply untrue_ok in H0|]. destruct (IHb H0) as [y ->]. now exists y.
  - apply andb_prop in H as [H H0]. destruct (IHa H) as [x E]. rewrite E. destruct x; [now exists true|].
    destruct (IHb H0) as [y ->]. now exists y.
Qed.
Lemma decide_nothing rules :
  forallb (fun r => untrue marks (when r) && total marks (when r)) rules = true -> decide p rules = Ok Nothing.
Proof.
  induction rules as [|r rules IH]; [reflexivity|]. cbn [forallb decide]. intros H.
  apply andb_prop in H as [H H0]. apply andb_prop in H as [H H1]. destruct (total_ok _ H1) as [b E]. rewrite E.
  destruct b; [now apply untrue_ok in H|]. cbn. now apply IH.
Qed.
End Marks.

Lemma decide_from p rules a : decide p rules = Ok a -> a = Nothing \/ exists r, In r rules /\ action_of r = a /\ eval p (when r) = Ok true.
Proof.
  induction rules as [|r rules IH]; cbn [decide]; intros H; [injection H as <-; now left|].
  destruct (eval p (when r)) as [[|]|] eqn:E; cbn in H; try discriminate.
  - injection H as <-. right. exists r. repeat split; [now left|assumption].
  - apply IH in H as [H|(s & Hs & H)]; [now left|]. right. exists s. split; [now right|assumption].
Qed.

Definition all_checkers : list checker :=
  [Offset; TableReader; Structure; Position; SampleType; BitColumn; BitStart; BitFormat; BlockOf; Trivial;
   FileName; BandStorage; FitsStart; CompressedReader; Pds4; LabelText].
Lemma all_in c : In c all_checkers.
Proof. destruct c; cbn; tauto. Qed.
Definition all_rules : list rule := flat_map rules_of all_checkers.
Definition plain_strays := filter (fun x : str * str * list mark => negb (str_eqb (fst (fst x)) $"juno")) strays.
Definition all_marks : list mark := flat_map snd missions ++ flat_map snd plain_strays ++ msb_instruments.
Definition is_bit_start (c : checker) : bool := match c with BitStart => true | _ => false end.

Definition handler (a : action) : option (str * str) := match a with Always m f | Maybe m f => Some (m, f) | _ => None end.
(** the marks a handler is for *)
Definition stray_marks (m f : str) : option (list mark) :=
  option_map snd (find (fun x => str_eqb m (fst (fst x)) && str_eqb f (snd (fst x))) strays).
Definition mission_marks (m : str) : list mark := flat_map snd (filter (fun x => str_eqb m (fst x)) missions).
Definition rule_own (r : rule) : bool :=
  match handler (action_of r) with
  | Some (m, f) => match stray_marks m f with Some l => untrue l (when r) | None => untrue (mission_marks m) (when r) end
  | None => match action_of r with Says _ => untrue msb_instruments (when r) | _ => true end
  end.
Lemma rules_own : forallb rule_own all_rules = true.
Proof. vm_compute. reflexivity. Qed.
Lemma rules_nothing : forallb (fun r => untrue all_marks (when r) && total all_marks (when r)) (flat_map rules_of (filter (fun c => negb (is_bit_start c)) all_checkers)) = true.
Proof. vm_compute. reflexivity. Qed.

(** ** No special case hides another: a product for each of them *)
Fixpoint same (x y : subject) : bool :=
  match x, y with
  | Ident f, Ident g | Block f, Block g | Label f, Label g | LabelOr f, LabelOr g | LabelFirst f, LabelFirst g => str_eqb f g
  | BlockIn f g, BlockIn f' g' => str_eqb f f' && str_eqb g g'
  | Lower x, y => same x y
  | Name, Name | File, File | Sample, Sample => true
  | _, _ => false
  end.
Fixpoint instance (l : list piece) : str :=
  match l with [] => [] | Lit w :: l => w ++ instance l | Any :: l => "."%char :: instance l | OneOf cs :: l | Several cs :: l => firstn 1 cs ++ instance l end.
(** what a condition asks of a subject: to be a text, or to have this start and these parts *)
Fixpoint exact (c : cond) (x : subject) : option str :=
  match c with
  | Is y s => if same y x then Some s else None
  | IsOneOf y (s :: _) => if same y x then Some s else None
  | Within y s => if same y x then Some s else None
  | And a b => match exact a x with Some s => Some s | None => exact b x end
  | Or a _ => exact a x
  | _ => None
  end.
Fixpoint start (c : cond) (x : subject) : str :=
  match c with
  | Starts y w => if same y x then w else []
  | Matches y (r :: _) => if same y x then instance r else []
  | And a b => start a x ++ start b x
  | Or a _ => start a x
  | _ => []
  end.
Fixpoint parts (c : cond) (x : subject) : str :=
  match c with
  | Has w y | Ends y w => if same y x then w else []
  | Search y (w :: _) => if same y x then w else []
  | And a b => parts a x ++ parts b x
  | Or a _ => parts a x
  | _ => []
  end.
Definition wanted (c : cond) (x : subject) : str := match exact c x with Some s => s | None => start c x ++ parts c x end.
Fixpoint wanted_number (c : cond) : Z := match c with IsNumber _ n | AtLeast n _ => n | And a b | Or a b => Z.max (wanted_number a) (wanted_number b) | _ => 0 end.
Fixpoint wanted_key (c : cond) : list str := match c with Listed k => [k] | And a b | Or a b => wanted_key a ++ wanted_key b | _ => [] end.
Definition product_for (c : cond) : asked :=
  mkAsked (fun f => if str_eqb f $"FILE_RECORDS" then PInt (wanted_number c) else PStr (wanted c (Ident f)))
    (wanted c Name) (wanted c File)
    (PMulti [($"^STRUCTURE", PStr (wanted c (Block $"^STRUCTURE"))); ($"INTERCHANGE_FORMAT", PStr (wanted c (Block $"INTERCHANGE_FORMAT")));
             ($"CONTAINER", PMulti [($"^STRUCTURE", PStr (wanted c (BlockIn $"CONTAINER" $"^STRUCTURE")))])])
    (fun f => if str_eqb f $"SPACECRAFT_CLOCK_STOP_COUNT" then PInt (wanted_number c)
              else if str_eqb f $"^IMAGE" then PTuple [PStr (wanted c (LabelFirst f))] else PStr (wanted c (Label f) ++ wanted c (LabelOr f)))
    (wanted_key c) (PStr (wanted c Sample)) (fun v => match v with PInt z => Ok (inject_Z z) | _ => Err ValueError end).
Definition reaches (p : asked) (rules : list rule) (i : nat) : bool :=
  forallb (fun r => match eval p (when r) with Ok false => true | _ => false end) (firstn i rules)
  && match nth_error rules i with Some r => match eval p (when r) with Ok true => true | _ => false end | None => false end.
Definition shown (c : checker) : bool :=
  forallb (fun i => match nth_error (rules_of c) i with Some r => reaches (product_for (when r)) (rules_of c) i | None => false end) (seq 0 (length (rules_of c))).
Lemma all_shown : forallb shown all_checkers = true.
Proof. vm_compute. reflexivity. Qed.

Lemma of_mission_marks p m k : In k (mission_marks m) -> bears p k -> of_mission p m.
Proof.
  unfold mission_marks. intros H B. apply in_flat_map in H as ([m' l] & H & H0). apply filter_In in H as [H E].
  cbn in E. apply str_eqb_eq in E as <-. now exists l, k.
Qed.
Lemma stray_marks_in m f l : stray_marks m f = Some l -> In (m, f, l) strays.
Proof.
  unfold stray_marks. destruct (find _ strays) as [[[m' f'] l']|] eqn:E; [|discriminate]. cbn. intros [= ->].
  apply find_some in E as [H E]. cbn in E. apply andb_prop in E as [E E']. apply str_eqb_eq in E as <-. apply str_eqb_eq in E' as <-. exact H.
Qed.
Lemma not_stray m f : stray_marks m f = None -> ~ stray m f.
Proof.
  unfold stray_marks. intros H [l Hl]. destruct (find _ strays) eqn:E; [discriminate|].
  apply (find_none _ _ E) in Hl. cbn in Hl. now rewrite !str_eqb_refl in Hl.
Qed.
(** ** Marks, computed *)
Definition bearsb (p : asked) (k : mark) : bool :=
  match k with
  | Equals f w => is_text (ident p f) w
  | Mentions f w => match ident p f with PStr s => contains w s | _ => false end
  | InPath w => contains w (file p)
  | ObjectIs w => str_eqb (object p) w
  | PartOf f w => match ident p f with PStr s => contains s w | _ => false end
  end.
Lemma bears_iff p k : bearsb p k = true <-> bears p k.
Proof.
  destruct k as [f w|f w|w|w|f w]; cbn.
  - destruct (ident p f); cbn; try (split; discriminate). rewrite str_eqb_eq. split; [now intros ->|now intros [= ->]].
  - destruct (ident p f) as [| | | |s| | | |]; try (split; [discriminate|intros (? & ? & _); discriminate]).
    rewrite contains_iff. split; [intros H; now exists s|now intros (t & [= <-] & H)].
  - apply contains_iff.
  - apply str_eqb_eq.
  - destruct (ident p f) as [| | | |s| | | |]; try (split; [discriminate|intros (? & ? & _); discriminate]).
    rewrite contains_iff. split; [intros H; now exists s|now intros (t & [= <-] & H)].
Qed.
Lemma bears_none p marks : existsb (bearsb p) marks = false -> forall k, In k marks -> ~ bears p k.
Proof. intros H k Hk B. apply bears_iff in B. assert (X : existsb (bearsb p) marks = true) by (apply existsb_exists; now exists k). congruence. Qed.
(** one of the marks is there, if a condition that needs one is true *)
Lemma needs_mark p marks c : scalars p -> untrue marks c = true -> eval p c = Ok true -> exists k, In k marks /\ bears p k.
Proof.
  intros S U E. destruct (existsb (bearsb p) marks) eqn:B.
  - apply existsb_exists in B as (k & Hk & B). exists k. split; [assumption|now apply bears_iff].
  - exfalso. apply (untrue_ok p marks S) with c; try assumption. now apply bears_none.
Qed.
Lemma no_mission p : existsb (bearsb p) (flat_map snd missions) = false -> forall m, ~ of_mission p m.
Proof. intros H m (l & k & Hm & Hk & B). apply (bears_none _ _ H k); [|assumption]. apply in_flat_map. now exists (m, l). Qed.
Lemma ordinary_marks p : existsb (bearsb p) all_marks = false -> ordinary p.
Proof.
  intros H. unfold all_marks in H. rewrite !existsb_app, !Bool.orb_false_iff in H. destruct H as (H & H0 & H1). split; [|split].
  - now apply no_mission.
  - intros m f l k Hm Nj Hk. apply (bears_none _ _ H0). apply in_flat_map. exists (m, f, l). split; [|assumption]. apply filter_In. split; [assumption|].
    cbn [fst]. now rewrite (proj2 (str_eqb_neq _ _) Nj).
  - now apply bears_none.
Qed.
