(** C65: the values of PDS4 table fields. *)
From Coq Require Import QArith Lia ZArith.
From Verif.Base Require Import Py PyFacts Val Numpy Float.
From Verif.Model Require Import Types PvlLiteral Xml Scaling Pds4Types Pds4Values.
From Verif.Spec Require Import Scaling Pvl Pds4Tables Pds4Types Pds4Values.
From Verif.Proofs Require Import Scaling Pds4Types Pds4Values Pds4Fields.
Open Scope Z_scope.

(** ** Decimal integers *)
Definition integer_name (signed : bool) : str := if signed then $"ASCII_Integer" else $"ASCII_NonNegative_Integer".
Lemma integer_type s : numpy_type (integer_name s) = Some (Little, VInt s, 8%nat).
Proof. now destruct s. Qed.
Lemma integer_base s : numeric_base (integer_name s) = 10.
Proof. now destruct s. Qed.
Lemma in_range_width s w z : (0 < w)%nat -> in_range s (Z.of_nat w) z = true <-> of_width s w z.
Proof.
  intros W. unfold in_range, of_width, imin, imax. rewrite andb_true_iff, !Z.leb_le. destruct s; lia.
Qed.
Lemma rmap_check s w l r : (0 < w)%nat -> rmap (fun z => if in_range s (Z.of_nat w) z then Ok z else Err OverflowError) l = Ok r <-> r = l /\ Forall (of_width s w) l.
Proof.
  intros W. revert r. induction l as [|z l IH]; intros r; cbn [rmap].
  - split; [intros [= <-]; auto|intros [-> _]; reflexivity].
  - destruct (in_range s (Z.of_nat w) z) eqn:E; cbn [rbind].
    + apply in_range_width in E; [|exact W]. destruct (rmap _ l) as [r'|] eqn:R; cbn [rbind].
      * destruct (proj1 (IH r') eq_refl) as [-> F]. split; [intros [= <-]; auto|intros [-> _]; reflexivity].
      * split; [discriminate|]. intros [_ F]. inversion F; subst. assert (X : Err (A := list Z) e = Ok l) by (apply IH; auto). discriminate X.
    + split; [discriminate|]. intros [_ F]. inversion F; subst. assert (in_range s (Z.of_nat w) z = true) by now apply in_range_width. congruence.
Qed.
Lemma rmap_check_err s w l : (exists r, rmap (fun z => if in_range s (Z.of_nat w) z then Ok z else Err OverflowError) l = Ok r) \/
  rmap (fun z => if in_range s (Z.of_nat w) z then Ok z else Err OverflowError) l = Err OverflowError.
Proof.
  induction l as [|z l [[r IH]|IH]]; cbn [rmap]; [left; eauto| |]; destruct (in_range _ _ _); cbn [rbind]; auto; rewrite IH; cbn [rbind]; [left; eauto|now right].
Qed.
Lemma rmap_or_err {A B} (f : A -> res B) e l : (forall a, In a l -> (exists b, f a = Ok b) \/ f a = Err e) -> (exists r, rmap f l = Ok r) \/ rmap f l = Err e.
Proof.
  induction l as [|a l IH]; intros H; cbn [rmap]; [left; eauto|]. destruct (H a (or_introl eq_refl)) as [[b ->]| ->]; cbn [rbind]; [|now right].
  destruct IH as [[r ->]| ->]; [intros; apply H; now right| |]; cbn [rbind]; [left; eauto|now right].
Qed.
Lemma decimal_bytes s z : int_bytes 10 s = Ok z <-> int_text 10 s z.
Proof. apply (int_bytes_iff 10 s); [lia|apply decimal_no_prefix]. Qed.
Lemma decimal_bytes_err s : (exists z, int_bytes 10 s = Ok z) \/ int_bytes 10 s = Err ValueError.
Proof. apply (int_bytes_iff 10 s); [lia|apply decimal_no_prefix]. Qed.
Lemma F2_and {A B} (P : B -> Prop) (Q : A -> B -> Prop) l r : Forall2 Q l r -> Forall P r -> Forall2 (fun a b => Q a b /\ P b) l r.
Proof. induction 1; intros F; inversion F; subst; constructor; auto. Qed.
Lemma F2_imp {A B} (P Q : A -> B -> Prop) l r : (forall a b, P a b -> Q a b) -> Forall2 P l r -> Forall2 Q l r.
Proof. intros H. induction 1; constructor; auto. Qed.
Lemma F2_right {A B} (P : B -> Prop) (Q : A -> B -> Prop) l r : (forall a b, Q a b -> P b) -> Forall2 Q l r -> Forall P r.
Proof. intros H. induction 1; constructor; eauto. Qed.
Lemma F2_len {A B} (P : A -> B -> Prop) l r : Forall2 P l r -> length l = length r.
Proof. induction 1; cbn; congruence. Qed.
Lemma combine_fst {A B} (l : list A) (m : list B) : length l = length m -> map fst (combine l m) = l.
Proof. revert m. induction l as [|a l IH]; intros [|b m] H; cbn in *; try discriminate; [reflexivity|]. f_equal. apply IH. lia. Qed.
Lemma filled_len {A} (f : str -> res A) nulls data v : rmap f (map fst (fill_nulls nulls data)) = Ok v -> length v = length (map snd (fill_nulls nulls data)).
Proof. intros H. apply rmap_spec in H. apply F2_len in H. rewrite !map_length in *. auto. Qed.
(** every number of a field of decimal integers is the one its text says: perhaps a sign, and
    digits, with white space around; it fits 64 bits; missing values are masked, if allowed;
    any other text is an error *)
Theorem C65_integers signed nulls data r :
  convert_ascii (integer_name signed) nulls data = Ok r <->
  exists l, r = FInts (TNum (DInt signed 8)) l /\
    Forall2 (nullable nulls 0 (fun s z => int_text 10 s z /\ of_width signed 8 z)) data l.
Proof.
  unfold convert_ascii. rewrite integer_type, integer_base.
  pose proof (fill_convert (int_bytes 10) 0 (int_text 10) nulls eq_refl data (fun s a _ => decimal_bytes s a)) as FC.
  assert (Z0 : of_width signed 8 0) by (destruct signed; unfold of_width; cbn; lia).
  split.
  - destruct (rmap _ (map fst _)) as [v|] eqn:R; cbn [rbind]; [|discriminate]. destruct (rmap _ v) as [v'|] eqn:R'; cbn [rbind]; [|discriminate].
    apply rmap_check in R' as [-> W]; [|lia]. intros [= <-]. eexists. split; [reflexivity|].
    pose proof (proj1 (FC _) (ex_intro _ v (conj eq_refl eq_refl))) as F. apply filled_len in R.
    assert (W' : Forall (fun p => of_width signed 8 (fst p)) (combine v (map snd (fill_nulls nulls data)))) by (apply Forall_map; now rewrite combine_fst).
    eapply F2_imp; [|exact (F2_and _ _ _ _ F W')]. intros s p [[(N1 & N2 & N3)|(N1 & N2 & N3)] Hw]; [left|right]; auto.
  - intros (l & -> & F). assert (F' : Forall2 (nullable nulls 0 (int_text 10)) data l).
    { eapply F2_imp; [|exact F]. intros s p [(N1 & N2 & N3)|(N1 & [N2 _] & N3)]; [left|right]; auto. }
    assert (W : Forall (fun p => of_width signed 8 (fst p)) l).
    { eapply F2_right; [|exact F]. intros s p [(_ & _ & ->)|(_ & [_ N2] & _)]; [exact Z0|exact N2]. }
    apply FC in F' as (v & R & ->). rewrite R. cbn [rbind]. apply filled_len in R. apply Forall_map in W. rewrite combine_fst in W by exact R.
    pose proof (proj2 (rmap_check signed 8 v v ltac:(lia)) (conj eq_refl W)) as R'. rewrite R'. reflexivity.
Qed.
Print Assumptions C65_integers.
(** and the error says which it is *)
Theorem C65_integers_error signed nulls data e : convert_ascii (integer_name signed) nulls data = Err e ->
  (e = ValueError /\ exists s, In s data /\ ~ (nulls = true /\ blanks s) /\ ~ exists z, int_text 10 s z) \/
  (e = OverflowError /\ exists s z, In s data /\ int_text 10 s z /\ ~ of_width signed 8 z).
Proof.
  unfold convert_ascii. rewrite integer_type, integer_base.
  assert (In0 : forall p, In p (map fst (fill_nulls nulls data)) -> p = $"0" \/ (In p data /\ ~ (nulls = true /\ blanks p))).
  { intros p Hp. apply in_map_iff in Hp as ([q m] & E & Hq). cbn [fst] in E. subst q. unfold fill_nulls in Hq. apply in_map_iff in Hq as (s & E & Hs).
    destruct (fill_spec nulls s) as (p' & E' & D). cbv beta in E'. rewrite E in E'. subst p'. destruct D as [(_ & _ & D)|(D1 & D)]; injection D as -> ->; auto. }
  destruct (rmap _ (map fst _)) as [v|e'] eqn:R; cbn [rbind].
  - destruct (rmap _ v) as [v'|e'] eqn:R'; cbn [rbind]; [discriminate|]. intros [= <-]. right.
    destruct (rmap_check_err signed 8 v) as [[r X]|X]; change (Z.of_nat 8) with 8 in *; rewrite R' in X; [discriminate|]. injection X as ->. split; [reflexivity|].
    assert (X : exists z, In z v /\ ~ of_width signed 8 z).
    { destruct (forallb (in_range signed (Z.of_nat 8)) v) eqn:F.
      - exfalso. rewrite forallb_forall in F. assert (Forall (of_width signed 8) v) by (apply Forall_forall; intros z Hz; apply in_range_width; [lia|now apply F]).
        assert (X : rmap (fun z => if in_range signed (Z.of_nat 8) z then Ok z else Err OverflowError) v = Ok v) by (apply rmap_check; [lia|auto]).
        change (Z.of_nat 8) with 8 in X. rewrite R' in X. discriminate X.
      - apply not_true_iff_false in F. rewrite forallb_forall in F. clear - F. induction v as [|z v IH]; [destruct F; intros ? []|].
        destruct (in_range signed (Z.of_nat 8) z) eqn:E.
        + destruct IH as (y & Hy & Ny); [|exists y; split; [now right|exact Ny]]. intros X. apply F. intros y [<-|Hy]; auto.
        + exists z. split; [now left|]. intros W. apply in_range_width in W; [congruence|lia]. }
    destruct X as (z & Hz & Nz). apply rmap_spec in R. assert (exists s, In s (map fst (fill_nulls nulls data)) /\ int_bytes 10 s = Ok z) as (s & Hs & Es).
    { clear - R Hz. induction R as [|a b l r Hab _ IH]; [destruct Hz|]. destruct Hz as [->|Hz]; [exists a; split; [now left|exact Hab]|].
      destruct (IH Hz) as (s & Hs & E). exists s. split; [now right|exact E]. }
    exists s, z. destruct (In0 s Hs) as [->|[Hd _]].
    + exfalso. vm_compute in Es. injection Es as <-. apply Nz. destruct signed; unfold of_width; cbn; lia.
    + split; [exact Hd|]. split; [now apply decimal_bytes|exact Nz].
  - intros [= <-]. left. destruct (rmap_or_err (int_bytes 10) ValueError (map fst (fill_nulls nulls data))) as [[r X]|X]; [intros; apply decimal_bytes_err|congruence|].
    rewrite R in X. injection X as ->. split; [reflexivity|].
    assert (exists s, In s (map fst (fill_nulls nulls data)) /\ int_bytes 10 s = Err ValueError) as (s & Hs & Es).
    { clear - R. induction (map fst (fill_nulls nulls data)) as [|a l IH]; [discriminate R|]. cbn [rmap] in R. destruct (decimal_bytes_err a) as [[b E]|E].
      - rewrite E in R. cbn [rbind] in R. destruct (rmap _ l); cbn [rbind] in R; [discriminate|]. destruct IH as (s & Hs & Es); [congruence|]. exists s. split; [now right|exact Es].
      - exists a. split; [now left|exact E]. }
    destruct (In0 s Hs) as [->|[Hd N]]; [vm_compute in Es; discriminate|]. exists s. split; [exact Hd|]. split; [exact N|]. intros [z Hz]. apply decimal_bytes in Hz. congruence.
Qed.
Print Assumptions C65_integers_error.
Example C65_integers_meets : convert_ascii (integer_name true) true [$" -12"; $"   "; $"+7 "] = Ok (FInts (TNum (DInt true 8)) [(-12, false); (0, true); (7, false)]) /\
  convert_ascii (integer_name false) true [$"-1"] = Err OverflowError /\ convert_ascii (integer_name true) false [$" "] = Err ValueError /\ convert_ascii (integer_name true) true [$"1.5"] = Err ValueError.
Proof. repeat split; reflexivity. Qed.

(** ** Integers to other bases *)
Definition based_name (b : N) : str := $"ASCII_Numeric_Base" ++ str_of_N b.
(** the numbers of a field of binary, octal or hexadecimal integers are kept whole, in a type
    wide enough for all *)
Theorem C65_based b nulls data l : In b [2; 8; 16]%N -> data <> [] -> Forall2 (nullable nulls 0 (int_text b)) data l ->
  exists t, convert_ascii (based_name b) nulls data = Ok (FInts t l) /\ int_type t /\ forall z m, In (z, m) l -> int_fits t z.
Proof.
  intros Hb Nd F. assert (E : numpy_type (based_name b) = Some (Little, VObject, 8%nat) /\ numeric_base (based_name b) = Z.of_N b /\ (2 <= b <= 36)%N).
  { destruct Hb as [<-|[<-|[<-|[]]]]; repeat split; try reflexivity; lia. }
  destruct E as (E1 & E2 & E3). unfold convert_ascii. rewrite E1, E2.
  assert (Z0 : int_bytes (Z.of_N b) $"0" = Ok 0) by (destruct Hb as [<-|[<-|[<-|[]]]]; reflexivity).
  assert (F' : Forall2 (nullable nulls 0 (fun s z => int_bytes (Z.of_N b) s = Ok z)) data l).
  { eapply F2_imp; [|exact F]. intros s p [(N1 & N2 & N3)|(N1 & N2 & N3)]; [now left|right]. split; [exact N1|]. split; [now apply int_text_ok|exact N3]. }
  apply (fill_convert (int_bytes (Z.of_N b)) 0 _ nulls Z0 data (fun s a _ => iff_refl _)) in F' as (v & R & ->). rewrite R. cbn [rbind].
  pose proof (filled_len _ _ _ _ R) as L. assert (Nv : v <> []). { intros ->. destruct data; [easy|]. cbn in L. discriminate L. }
  assert (T : exists t, min_type_list v = Ok t). { unfold min_type_list. destruct v as [|z v]; [easy|]. cbn [fold1 rbind]. eauto. }
  destruct T as [t T]. rewrite T. cbn [rbind]. exists t. split; [reflexivity|]. split; [now apply min_list_int in T|].
  intros z m Hz. apply inside_fits. eapply min_list_inside; [exact T|]. rewrite <- (combine_fst v _ L). change z with (fst (z, m)). now apply in_map.
Qed.
Print Assumptions C65_based.
Example C65_based_meets : convert_ascii (based_name 16) true [$"ff"; $" "; $"DEADBEEF "] = Ok (FInts (TNum (DInt false 4)) [(255, false); (0, true); (3735928559, false)]) /\
  convert_ascii (based_name 2) false [$"101"] = Ok (FInts (TNum (DInt true 1)) [(5, false)]) /\ convert_ascii (based_name 8) false [$"18"] = Err ValueError.
Proof. repeat split; reflexivity. Qed.

(** ** Real numbers *)
(** each real number is the double next to the decimal number of its text *)
Theorem C65_reals nulls data :
  (forall r, convert_ascii $"ASCII_Real" nulls data = Ok r -> exists l, r = FReals l /\ Forall2 (nullable nulls (Fin 0) real_text) data l) /\
  ((exists l, Forall2 (nullable nulls (Fin 0) real_text) data l) -> exists r, convert_ascii $"ASCII_Real" nulls data = Ok r) /\
  (forall e, convert_ascii $"ASCII_Real" nulls data = Err e -> e = ValueError).
Proof.
  unfold convert_ascii. change (numpy_type $"ASCII_Real") with (Some (Little, VFloat, 8%nat)). cbv beta iota zeta.
  assert (Z0 : exists z, float_bytes $"0" = Ok (Fin z) /\ z = 0%Q) by (eexists; split; vm_compute; reflexivity).
  destruct Z0 as (z & Z0 & ->).
  pose proof (fill_convert float_bytes (Fin 0) (fun s v => float_bytes s = Ok v) nulls Z0 data (fun s a _ => iff_refl _)) as FC.
  assert (F2_in : forall (P Q : str -> num * bool -> Prop) l, (forall s p, In s data -> P s p -> Q s p) -> Forall2 P data l -> Forall2 Q data l).
  { intros P Q l H F. clear - H F. induction F; constructor; [apply H; [now left|assumption]|]. apply IHF. intros; apply H; [now right|assumption]. }
  repeat apply conj.
  - intros r. destruct (rmap _ _) as [v|] eqn:R; cbn [rbind]; [|discriminate]. intros [= <-]. eexists. split; [reflexivity|].
    pose proof (proj1 (FC _) (ex_intro _ v (conj eq_refl eq_refl))) as F. eapply F2_in; [|exact F].
    intros s p Hs [(N1 & N2 & N3)|(N1 & N2 & N3)]; [now left|right]. split; [exact N1|]. split; [|exact N3]. apply float_real. exact N2.
  - intros [l F]. assert (X : exists l', Forall2 (nullable nulls (Fin 0) (fun s v => float_bytes s = Ok v)) data l').
    { clear FC F2_in. induction F as [|s p data' l' H _ IH]; [exists []; constructor|]. destruct IH as [l1 IH].
      destruct H as [(N1 & N2 & N3)|(N1 & N2 & N3)].
      - exists (p :: l1). constructor; [now left|exact IH].
      - destruct (real_total s (fst p)) as [v Hv]; [exact N2|]. exists ((v, false) :: l1). constructor; [right; auto|exact IH]. }
    destruct X as [l' X]. apply FC in X as (v & -> & _). cbn [rbind]. eauto.
  - intros e. destruct (rmap _ _) as [v|e'] eqn:R; cbn [rbind]; [discriminate|]. intros [= <-].
    destruct (rmap_or_err float_bytes ValueError (map fst (fill_nulls nulls data))) as [[r X]|X]; [|congruence|congruence].
    intros s Hs. apply in_map_iff in Hs as ([p m] & E & Hs). cbn [fst] in E. subst p. unfold fill_nulls in Hs. apply in_map_iff in Hs as (s' & E & Hs').
    destruct (fill_spec nulls s') as (p' & E' & D). cbv beta in E'. rewrite E in E'. subst p'. destruct D as [(_ & _ & D)|(_ & D)]; injection D as -> ->; [left; eauto|]. apply float_err.
Qed.
Print Assumptions C65_reals.
Example C65_reals_meets : exists q1 q2, convert_ascii $"ASCII_Real" true [$" 1.5E0_1"; $""; $"-.25"; $"1e999"; $"NaN "] = Ok (FReals [(Fin q1, false); (Fin 0, true); (Fin q2, false); (Inf false, false); (NaN, false)]) /\
    (q1 == 15 /\ q2 == -1 # 4)%Q /\ convert_ascii $"ASCII_Real" false [$"1,5"] = Err ValueError /\ convert_ascii $"ASCII_Real" false [$"1_.5"] = Err ValueError.
Proof.
  eexists _, _. split; [vm_compute; reflexivity|]. split; [split; vm_compute; reflexivity|]. split; reflexivity.
Qed.

(** ** Truth values *)
Lemma bool_no_at s b : bool_text s b -> ~ In "@"%char s.
Proof.
  intros (core & (a & c & -> & A & C) & H) X. assert (B : forall l, blanks l -> ~ In "@"%char l).
  { intros l Hl Hi. unfold blanks in Hl. rewrite Forall_forall in Hl. specialize (Hl _ Hi). apply blank_iff in Hl. discriminate Hl. }
  apply in_app_or in X as [X|X]; [exact (B _ A X)|]. apply in_app_or in X as [X|X]; [|exact (B _ C X)]. destruct b; destruct H as [<-|[<-|[]]]; cbn in X; intuition discriminate.
Qed.
Lemma digit_padded s (b : bool) a c : s = a ++ (if b then $"1" else $"0") ++ c -> blanks a -> blanks c -> int_bytes 10 s = Ok (if b then 1 else 0).
Proof.
  intros -> A C. apply decimal_bytes. exists (if b then $"1" else $"0"). split; [exists a, c; auto|]. destruct b; [apply (SN_plain 10 _ 1)|apply (SN_plain 10 _ 0)]; now apply G_digit.
Qed.
(** "true" and "1" are true, "false" and "0" are false *)
Theorem C65_booleans nulls data l : data <> [] -> Forall2 (nullable nulls false bool_text) data l -> convert_ascii $"ASCII_Boolean" nulls data = Ok (FBools l).
Proof.
  intros Nd F. unfold convert_ascii. change (numpy_type $"ASCII_Boolean") with (Some (Little, VBool, 1%nat)). cbv beta iota zeta.
  set (filled := fill_nulls nulls data).
  assert (G : Forall2 (fun p r => bool_text (fst p) (fst r) /\ snd p = snd r) filled l).
  { unfold filled. clear filled Nd. induction F as [|s r data l H _ IH]; [constructor|]. unfold fill_nulls. cbn [map]. fold (fill_nulls nulls data). constructor; [|exact IH].
    destruct (fill_spec nulls s) as (p & E & D). cbv beta in E. rewrite E. destruct H as [(N1 & N2 & ->)|(N1 & N2 & N3)], D as [(D1 & D2 & ->)|(D1 & ->)]; cbn [fst snd]; try tauto; [|now rewrite N3].
    split; [|reflexivity]. exists $"0". split; [|right; now left]. exists [], []. repeat split; constructor. }
  assert (At : Forall (fun x => ~ In "@"%char x) (map fst filled)).
  { apply Forall_map. clear - G. induction G as [|p r f l [H _] _ IH]; constructor; [|exact IH]. eapply bool_no_at; exact H. }
  assert (Nf : map fst filled <> []). { unfold filled. destruct data; [easy|discriminate]. }
  change $"@" with ["@"%char]. rewrite replace_join; [|discriminate|cbn; intuition discriminate|exact At].
  rewrite replace_join; [|discriminate|cbn; intuition discriminate|].
  2: { apply Forall_map. apply Forall_forall. intros x Hx X. rewrite Forall_forall in At. apply (At x Hx). clear - X.
       unfold replace in X. revert X. generalize 0%nat. induction x as [|c x IH]; intros k X; cbn [replace_from] in X; [destruct k; exact X|].
       destruct k; [|right; now apply (IH k)]. destruct (startswith $"true" (c :: x)); [|destruct X as [->|X]; [now left|right; now apply (IH 0%nat)]].
       apply in_app_or in X as [X|X]; [cbn in X; intuition discriminate|right; now apply IH in X]. }
  rewrite map_map, split_on_join.
  2: { destruct (map fst filled); [easy|discriminate]. }
  2: { apply Forall_map, Forall_map. clear - G. induction G as [|p r f l [H _] _ IH]; constructor; [|exact IH]. destruct (to_digit_ok _ _ H) as (a & c & E & A & C). unfold to_digit in E. rewrite E.
       apply (bool_no_at _ (fst r)). exists (if fst r then $"1" else $"0"). split; [exists a, c; auto|]. destruct (fst r); cbn; auto. }
  assert (R : rmap (fun s => do z <- int_bytes 10 s; if in_range false 1 z then Ok (negb (z =? 0)) else Err OverflowError)
                (map (fun x => replace $"false" $"0" (replace $"true" $"1" x)) (map fst filled)) = Ok (map fst l)).
  { apply rmap_spec. clear - G. induction G as [|p r f l [H _] _ IH]; constructor; [|exact IH]. destruct (to_digit_ok _ _ H) as (a & c & E & A & C). unfold to_digit in E.
    rewrite (digit_padded _ _ _ _ E A C). destruct (fst r); reflexivity. }
  rewrite R. cbn [rbind]. do 2 f_equal. clear - G. assert (X : forall rest, combine (map fst l) (map snd filled ++ rest) = l); [|apply X]. intros rest.
  induction G as [|p [v m] f l [_ H] _ IH]; [reflexivity|]. cbn in *. now rewrite H, IH.
Qed.
Print Assumptions C65_booleans.
Example C65_booleans_meets : Forall2 (nullable true false bool_text) [$"true"; $" 0"; $" "; $"false"; $"1"] [(true, false); (false, false); (false, true); (false, false); (true, false)].
Proof.
  assert (X : forall s (r : bool * bool) core, s = core \/ s = " "%char :: core -> In core (if fst r then [$"true"; $"1"] else [$"false"; $"0"]) -> ~ blanks s -> snd r = false -> nullable true false bool_text s r).
  { intros s r core E H N M. right. split; [now intros [_ ?]|]. split; [|exact M]. exists core. split; [|exact H]. destruct E as [->| ->].
    - exists [], []. split; [now rewrite app_nil_r|split; constructor].
    - exists [" "%char], []. split; [now rewrite app_nil_r|split; repeat constructor]. }
  assert (NB : forall s, bstrip s <> [] -> ~ blanks s) by (intros s H B; now apply bstrip_blank in B).
  constructor; [apply X with (core := $"true"); cbn; auto; apply NB; discriminate|].
  constructor; [apply X with (core := $"0"); cbn; auto; apply NB; discriminate|].
  constructor; [left; split; [reflexivity|split; [repeat constructor|reflexivity]]|].
  constructor; [apply X with (core := $"false"); cbn; auto; apply NB; discriminate|].
  constructor; [apply X with (core := $"1"); cbn; auto; apply NB; discriminate|]. constructor.
Qed.

(** ** Binary fields *)
Lemma concat_chunks w data : (0 < w)%nat -> Forall (fun s : list ascii => length s = w) data -> length (concat data) = (length data * w)%nat /\ chunks w (concat data) = data.
Proof.
  intros W F. assert (L : length (concat data) = (length data * w)%nat). { induction F as [|s data H _ IH]; [reflexivity|]. cbn [concat length]. rewrite app_length, IH, H. lia. }
  split; [exact L|]. unfold chunks. rewrite L, Nat.div_mul by lia. clear L. induction F as [|s data H _ IH]; [reflexivity|].
  cbn [length seq map concat]. rewrite <- seq_shift, map_map. f_equal.
  - cbn [Nat.mul skipn]. rewrite <- H. rewrite firstn_app, Nat.sub_diag, firstn_all, app_nil_r. reflexivity.
  - rewrite <- IH at 2. apply map_ext. intros k. f_equal. cbn [Nat.mul]. rewrite <- H at 1. rewrite skipn_app.
    rewrite (skipn_all2 s) by lia. cbn [app]. f_equal. lia.
Qed.
(** the values of a field of a binary type are the numbers its bytes hold *)
Theorem C65_binary name o f w data : pds4_type name o f w -> Forall (fun s => length s = w) data ->
  exists t l, convert_binary name data = Ok (FRaw t l) /\ Forall2 (pixel_holds o f w) data l.
Proof.
  intros T L. destruct (type_known _ _ _ _ T) as (o' & N & _). destruct (numpy_not_object _ _ _ _ _ T N) as (W & _ & _ & _ & _ & FB).
  assert (B : is_binary_type name = true). { unfold is_binary_type. rewrite N. clear - T. destruct T as [s o1|s o1 w1 H|o1|o1|o1 w1 H]; try (destruct s, o1); try destruct o1; try reflexivity;
    cbn [In] in H; intuition (subst; reflexivity). }
  unfold convert_binary. rewrite B, N, FB. destruct (concat_chunks w data W L) as [E1 E2]. rewrite E1, Nat.mod_mul by lia. cbn [Nat.eqb rbind]. rewrite E2. do 2 eexists. split; [reflexivity|].
  clear - L T N. induction L as [|s data H _ IH]; cbn [map]; constructor; [|exact IH]. now apply decode_ok with (name := name).
Qed.
Print Assumptions C65_binary.
(** numbers in characters mean the same in binary tables, where none may be missing *)
Theorem C65_binary_characters name data : contains $"ascii" (lower name) = true \/ numpy_type name = None -> convert_binary name data = convert_ascii name false data.
Proof. intros H. unfold convert_binary, is_binary_type. destruct H as [H|H]; [rewrite H|now rewrite H]. now destruct (numpy_type name). Qed.
Print Assumptions C65_binary_characters.
Example C65_binary_meets : pds4_type $"SignedMSB2" MSB (Integer true) 2 /\ contains $"ascii" (lower $"ASCII_Integer") = true /\
  convert_binary $"SignedMSB2" [["255"%char; "254"%char]; ["001"%char; "000"%char]] = Ok (FRaw (Big, VInt true, 2%nat) [PElt (EI (-2)); PElt (EI 256)]).
Proof. split; [apply (t_int true MSB 2); cbn; auto|]. split; reflexivity. Qed.

(** ** Text *)
(** text is kept, except for zero bytes at its end *)
Theorem C65_text name nulls data : ~ In name (map fst PDS_NUMERIC_TYPES) ->
  exists l, convert_ascii name nulls data = Ok (FText l) /\
    Forall2 (fun s t => no_final_nul t /\ exists n, s = t ++ repeat "000"%char n) data l.
Proof.
  intros N. assert (E : numpy_type name = None).
  { unfold numpy_type. revert N. generalize PDS_NUMERIC_TYPES. induction l as [|[k t] l IH]; intros N; [reflexivity|]. cbn [lookup_type map fst] in *.
    destruct (str_eqb k name) eqn:E; [destruct N; left; now apply str_eqb_eq|]. apply IH. intros X. apply N. now right. }
  unfold convert_ascii. rewrite E. eexists. split; [reflexivity|]. clear. induction data as [|s data IH]; cbn [map]; constructor; [|exact IH].
  unfold drop_nuls, rstrip_by. destruct (lstrip_by_spec (fun c => Ascii.eqb c "000"%char) (rev s)) as (w & Ew & Hw & Hn). split.
  - destruct (lstrip_by _ (rev s)) as [|c u] eqn:L; [now left|]. right. exists (rev u), c. split; [reflexivity|]. cbn in Hn. now apply Ascii.eqb_neq.
  - exists (length w). rewrite <- (rev_involutive s) at 1. rewrite Ew at 1. rewrite rev_app_distr. f_equal. clear - Hw.
    assert (X : w = repeat "000"%char (length w)). { induction Hw as [|c w H _ IH]; [reflexivity|]. cbn. apply Ascii.eqb_eq in H. now f_equal. }
    rewrite X at 1. clear. induction (length w) as [|n IH]; [reflexivity|]. cbn. rewrite IH. clear. induction n; [reflexivity|]. cbn. now f_equal.
Qed.
Print Assumptions C65_text.
Example C65_text_meets : ~ In $"UTF8_String" (map fst PDS_NUMERIC_TYPES) /\ convert_ascii $"UTF8_String" true [$" a "; ["b"; "000"]%char; []] = Ok (FText [$" a "; $"b"; []]).
Proof. split; [|reflexivity]. intros H. cbn in H. repeat (destruct H as [H|H]; [discriminate H|]). exact H. Qed.
