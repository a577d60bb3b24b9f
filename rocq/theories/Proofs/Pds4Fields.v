(** Proofs about the values of fields in Model/Pds4Values.v. *)
From Coq Require Import QArith Qpower Qabs Lia ZArith.
From Verif.Base Require Import Py PyFacts Val Numpy Float.
From Verif.Model Require Import Types PvlLiteral Xml Scaling Pds4Types Pds4Values.
From Verif.Spec Require Import Scaling Pvl Pds4Types Pds4Values.
From Verif.Proofs Require Import Scaling PvlLiteral PvlMore Pds4Types Pds4Values.
Open Scope Z_scope.

(** ** White space *)
Lemma blank_iff c : blank_char c <-> is_bspace c = true.
Proof.
  split.
  - intros H. repeat (destruct H as [<-|H]; [reflexivity|]). destruct H.
  - destruct c as [[] [] [] [] [] [] [] []]; intros H; vm_compute in H; try discriminate H; vm_compute; auto 10.
Qed.
Lemma blanks_iff s : blanks s <-> Forall (fun c => is_bspace c = true) s.
Proof. split; apply Forall_impl; intros c; apply blank_iff. Qed.
Lemma strip_split f s : exists a c, s = a ++ strip_by f s ++ c /\ Forall (fun c => f c = true) a /\ Forall (fun c => f c = true) c.
Proof.
  unfold strip_by. destruct (lstrip_by_spec f s) as (w & E & Hw & _). destruct (lstrip_by_spec f (rev (lstrip_by f s))) as (v & E' & Hv & _).
  exists w, (rev v). split; [|split; [exact Hw|now apply Forall_rev]]. rewrite E at 1. f_equal. unfold rstrip_by.
  rewrite <- (rev_involutive (lstrip_by f s)) at 1. rewrite E' at 1. now rewrite rev_app_distr.
Qed.
Lemma bstrip_padded s : padded s (bstrip s).
Proof. destruct (strip_split is_bspace s) as (a & c & E & A & C). exists a, c. split; [exact E|]. split; now apply blanks_iff. Qed.
Lemma padded_bstrip s core : padded s core -> bstrip core = core -> bstrip s = core.
Proof. intros (a & c & -> & A & C) <-. unfold bstrip. rewrite strip_by_blank_around by now apply blanks_iff. apply strip_by_idem. Qed.
Lemma bstrip_blank s : bstrip s = [] <-> blanks s.
Proof.
  split; [|intros H; apply strip_by_blank; now apply blanks_iff].
  intros H. destruct (bstrip_padded s) as (a & c & E & A & C). rewrite H in E. rewrite E. now apply Forall_app.
Qed.
Lemma lstrip_ext f g s : (forall c, In c s -> f c = g c) -> lstrip_by f s = lstrip_by g s.
Proof.
  induction s as [|c s IH]; intros H; [reflexivity|]. cbn [lstrip_by]. rewrite (H c (or_introl eq_refl)). destruct (g c); [|reflexivity]. apply IH. intros x Hx. apply H. now right.
Qed.
Lemma lstrip_incl f s c : In c (lstrip_by f s) -> In c s.
Proof. destruct (lstrip_by_spec f s) as (w & E & _). intros H. rewrite E. apply in_or_app. now right. Qed.
Lemma strip_ext f g s : (forall c, In c s -> f c = g c) -> strip_by f s = strip_by g s.
Proof.
  intros H. unfold strip_by, rstrip_by. rewrite (lstrip_ext f g s H). f_equal. apply lstrip_ext. intros c Hc. apply in_rev in Hc. apply H. now apply lstrip_incl in Hc.
Qed.
Definition odd_space (c : ascii) : bool := is_space c && negb (is_bspace c).
Lemma strip_bstrip s : existsb odd_space s = false -> strip s = bstrip s.
Proof.
  intros H. apply strip_ext. intros c Hc. destruct (is_space c) eqn:E, (is_bspace c) eqn:E'; try reflexivity; exfalso.
  - assert (X : existsb odd_space s = true) by (apply existsb_exists; exists c; split; [exact Hc|unfold odd_space; now rewrite E, E']). congruence.
  - clear H Hc. destruct c as [[] [] [] [] [] [] [] []]; vm_compute in E, E'; congruence.
Qed.

(** ** Integers *)
Lemma unsigned_iff b s : (2 <= b)%N -> prefix_base s <> Some b ->
  (forall n, int_unsigned b s = Ok n <-> grouped b s n) /\ ((exists n, int_unsigned b s = Ok n) \/ int_unsigned b s = Err ValueError).
Proof.
  intros Hb N. assert (E : int_unsigned b s = match s with [] => Err ValueError | c :: _ => if Ascii.eqb c "_"%char then Err ValueError else match int_digits b 0 false s with Some n => Ok n | None => Err ValueError end end).
  { unfold int_unsigned. destruct (prefix_base s) as [pb|].
    - destruct (N.eqb_spec b 0) as [?|_]; [lia|]. destruct (N.eqb_spec b pb) as [->|_]; [now destruct N|]. reflexivity.
    - destruct (N.eqb_spec b 0) as [?|_]; [lia|]. reflexivity. }
  rewrite E. clear E.
  destruct s as [|c s]; [split; [|now right]; intros n; split; [discriminate|]; intros G; now destruct (grouped_head _ _ _ G) as (? & ? & ? & ? & ?)|].
  destruct (Ascii.eqb_spec c "_"%char) as [->|Ne].
  { split; [|now right]. intros n; split; [discriminate|]. intros G. destruct (grouped_head _ _ _ G) as (? & ? & ? & E & H). injection E as <- <-. discriminate H. }
  destruct (int_digits b 0 false (c :: s)) as [m|] eqn:E.
  - split; [|left; now exists m]. intros n. split.
    + injection 1 as <-. now apply digits_grouped.
    + intros G. apply grouped_digits in G. congruence.
  - split; [|now right]. intros n. split; [discriminate|]. intros G. apply grouped_digits in G. congruence.
Qed.
Definition core_int (b : N) (s : str) : res Z :=
  match s with
  | [] => Err ValueError
  | c :: s' =>
      if Ascii.eqb c "-"%char then do n <- int_unsigned b s'; Ok (- Z.of_N n)%Z
      else if Ascii.eqb c "+"%char then do n <- int_unsigned b s'; Ok (Z.of_N n)
      else do n <- int_unsigned b (c :: s'); Ok (Z.of_N n)
  end.
Lemma prefix_base_lower s b : prefix_base s = Some b -> exists c t, s = "0"%char :: c :: t /\ In (to_lower c, b) [("x"%char, 16%N); ("o"%char, 8%N); ("b"%char, 2%N)].
Proof.
  destruct s as [|z [|x s]]; cbn [prefix_base]; try discriminate. destruct (Ascii.eqb_spec z "0"%char) as [->|]; [|discriminate]. intros H. exists x, s. split; [reflexivity|].
  destruct (Ascii.eqb_spec (to_lower x) "x"%char) as [->|]; [injection H as <-; now left|].
  destruct (Ascii.eqb_spec (to_lower x) "o"%char) as [->|]; [injection H as <-; right; now left|].
  destruct (Ascii.eqb_spec (to_lower x) "b"%char) as [->|]; [injection H as <-; right; right; now left|discriminate].
Qed.
Lemma core_iff b s : (2 <= b)%N -> ~ base_prefix b s ->
  (forall z, core_int b s = Ok z <-> signed_numeral b s z) /\ ((exists z, core_int b s = Ok z) \/ core_int b s = Err ValueError).
Proof.
  intros Hb Np. assert (P : forall sg body, In sg [[]; $"+"; $"-"] -> s = sg ++ body -> prefix_base body <> Some b).
  { intros sg body Hs E H. apply prefix_base_lower in H as (c & t & -> & H). apply Np. exists sg, c, t. auto. }
  unfold core_int. destruct s as [|c s].
  { split; [|now right]. intros z. split; [discriminate|]. intros H. inversion H as [s' n G| |]; subst.
    now destruct (grouped_head _ _ _ G) as (? & ? & ? & ? & ?). }
  destruct (Ascii.eqb_spec c "-"%char) as [->|N1].
  { destruct (unsigned_iff b s Hb) as [I1 I2]; [apply (P $"-"); [cbn; auto|reflexivity]|]. split.
    - intros z. split.
      + destruct (int_unsigned b s) as [n|e] eqn:En; cbn [rbind]; [|discriminate]. injection 1 as <-. apply SN_minus. now apply I1.
      + intros H. inversion H as [s' n G|s' n G|s' n G]; subst.
        * destruct (grouped_head _ _ _ G) as (? & ? & ? & E & H'). injection E as <- <-. discriminate H'.
        * apply I1 in G. now rewrite G.
    - destruct I2 as [(n & ->)| ->]; [left; eexists; reflexivity|now right]. }
  destruct (Ascii.eqb_spec c "+"%char) as [->|N2].
  { destruct (unsigned_iff b s Hb) as [I1 I2]; [apply (P $"+"); [cbn; auto|reflexivity]|]. split.
    - intros z. split.
      + destruct (int_unsigned b s) as [n|e] eqn:En; cbn [rbind]; [|discriminate]. injection 1 as <-. apply SN_plus. now apply I1.
      + intros H. inversion H as [s' n G|s' n G|s' n G]; subst.
        * destruct (grouped_head _ _ _ G) as (? & ? & ? & E & H'). injection E as <- <-. discriminate H'.
        * apply I1 in G. now rewrite G.
    - destruct I2 as [(n & ->)| ->]; [left; eexists; reflexivity|now right]. }
  destruct (unsigned_iff b (c :: s) Hb) as [I1 I2]; [apply (P []); [cbn; auto|reflexivity]|]. split.
  - intros z. split.
    + destruct (int_unsigned b (c :: s)) as [n|e] eqn:En; cbn [rbind]; [|discriminate]. injection 1 as <-. apply SN_plain. now apply I1.
    + intros H. inversion H as [s' n G|s' n G|s' n G]; subst; [apply I1 in G; now rewrite G|now destruct N2|now destruct N1].
  - destruct I2 as [(n & ->)| ->]; [left; eexists; reflexivity|now right].
Qed.
Lemma py_int_core b s : (2 <= b <= 36)%N -> py_int (Z.of_N b) s = core_int b (strip s).
Proof.
  intros Hb. unfold py_int. destruct ((Z.of_N b =? 0) || ((2 <=? Z.of_N b) && (Z.of_N b <=? 36)))%Z eqn:E; [|lia]. rewrite N2Z.id. reflexivity.
Qed.
(** the characters of a numeral *)
Definition numeral_char (c : ascii) : Prop := c = "_"%char \/ c = "+"%char \/ c = "-"%char \/ exists d, digit_val c = Some d.
Lemma grouped_chars b s n : grouped b s n -> Forall numeral_char s /\ exists u c d, s = u ++ [c] /\ digit_val c = Some d.
Proof.
  induction 1 as [c d H _|s n c d G [IH _] H _|s n c d G [IH _] H _]; unfold numeral_char in *.
  - split; [constructor; eauto 6|]. exists [], c, d. auto.
  - split; [apply Forall_app; split; [exact IH|constructor; eauto 6]|]. exists s, c, d. auto.
  - split; [apply Forall_app; split; [exact IH|constructor; eauto 6]|]. exists (s ++ ["_"%char]), c, d. split; [now rewrite <- app_assoc|exact H].
Qed.
Lemma numeral_char_space c : numeral_char c -> is_space c = false.
Proof. intros [->|[->|[->|(d & H)]]]; try reflexivity. apply digit_val_facts in H. tauto. Qed.
Lemma space_bspace c : is_space c = false -> is_bspace c = false.
Proof. destruct c as [[] [] [] [] [] [] [] []]; intros H; vm_compute in H |- *; congruence. Qed.
Lemma signed_chars b s z : signed_numeral b s z -> Forall numeral_char s /\ exists u c, s = u ++ [c].
Proof.
  intros [s' n G|s' n G|s' n G]; destruct (grouped_chars _ _ _ G) as [F (u & c & d & -> & _)].
  - eauto.
  - split; [constructor; unfold numeral_char; auto|]. now exists ("+"%char :: u), c.
  - split; [constructor; unfold numeral_char; auto|]. now exists ("-"%char :: u), c.
Qed.
Lemma signed_trimmed b s z : signed_numeral b s z -> bstrip s = s.
Proof.
  intros H. destruct (signed_chars _ _ _ H) as [F (u & d & E)]. destruct s as [|c t]; [now destruct u|].
  eapply strip_by_fixed; [reflexivity|exact E| |].
  - inversion F; subst. now apply space_bspace, numeral_char_space.
  - rewrite E in F. apply Forall_app in F as [_ F]. inversion F; subst. now apply space_bspace, numeral_char_space.
Qed.
Lemma blanks_no_odd s : blanks s -> existsb odd_space s = false.
Proof.
  intros H. destruct (existsb odd_space s) eqn:E; [|reflexivity]. apply existsb_exists in E as (c & Hc & Ho). rewrite blanks_iff, Forall_forall in H.
  specialize (H c Hc). unfold odd_space in Ho. rewrite H in Ho. now rewrite andb_false_r in Ho.
Qed.
Lemma padded_odd s core : padded s core -> existsb odd_space s = existsb odd_space core.
Proof. intros (a & c & -> & A & C). rewrite !existsb_app, (blanks_no_odd _ A), (blanks_no_odd _ C), orb_false_r. reflexivity. Qed.
Lemma int_bytes_iff b s : (2 <= b <= 36)%N -> ~ base_prefix b (bstrip s) ->
  (forall z, int_bytes (Z.of_N b) s = Ok z <-> int_text b s z) /\ ((exists z, int_bytes (Z.of_N b) s = Ok z) \/ int_bytes (Z.of_N b) s = Err ValueError).
Proof.
  intros Hb Np. unfold int_bytes. fold odd_space. change (existsb (fun c => is_space c && negb (is_bspace c)) s) with (existsb odd_space s).
  destruct (existsb odd_space s) eqn:O.
  - split; [|now right]. intros z. split; [discriminate|]. intros (core & P & H). exfalso. rewrite (padded_odd _ _ P) in O.
    apply existsb_exists in O as (c & Hc & Ho). destruct (signed_chars _ _ _ H) as [F _]. rewrite Forall_forall in F. specialize (F c Hc).
    apply numeral_char_space in F. unfold odd_space in Ho. now rewrite F in Ho.
  - rewrite py_int_core, strip_bstrip by assumption. destruct (core_iff b (bstrip s)) as [I1 I2]; [lia|exact Np|]. split; [|exact I2].
    intros z. rewrite I1. split.
    + intros H. exists (bstrip s). split; [apply bstrip_padded|exact H].
    + intros (core & P & H). now rewrite (padded_bstrip _ _ P (signed_trimmed _ _ _ H)).
Qed.
Lemma grouped_second b s n c t : grouped b s n -> s = "0"%char :: c :: t -> c = "_"%char \/ exists d, digit_val c = Some d /\ (d < b)%N.
Proof.
  intros G. revert c t. induction G as [c d H _|s n c d G IH H L|s n c d G IH H L]; intros c' t E.
  - discriminate E.
  - destruct s as [|z [|y s]]; [discriminate E| |]; cbn [app] in E; injection E as E1 E2 E3; subst; [right; eauto|eapply IH; reflexivity].
  - destruct s as [|z [|y s]]; [discriminate E| |]; cbn [app] in E; injection E as E1 E2 E3; subst; [now left|eapply IH; reflexivity].
Qed.
(** a numeral does not begin with the prefix of its base *)
Lemma numeral_no_prefix b s z : signed_numeral b s z -> ~ base_prefix b s.
Proof.
  intros H (sg & c & t & Hs & E & Hc). assert (G : exists n, grouped b ("0"%char :: c :: t) n).
  { destruct Hs as [<-|[<-|[<-|[]]]]; cbn [app list_ascii_of_string] in E; subst s; inversion H as [s' n G|s' n G|s' n G]; subst; try (now exists n);
      destruct (grouped_head _ _ _ G) as (? & ? & ? & E & H'); injection E as <- <-; discriminate H'. }
  destruct G as [n G]. destruct (grouped_second _ _ _ _ _ G eq_refl) as [->|(d & D & L)].
  - cbn in Hc. destruct Hc as [[=]|[[=]|[[=]|[]]]].
  - destruct Hc as [X|[X|[X|[]]]]; injection X as X1 X2; subst b; destruct c as [[] [] [] [] [] [] [] []]; vm_compute in X1; try discriminate X1; vm_compute in D; injection D as <-; vm_compute in L; discriminate L.
Qed.
Lemma int_text_ok b s z : (2 <= b <= 36)%N -> int_text b s z -> int_bytes (Z.of_N b) s = Ok z.
Proof.
  intros Hb (core & P & H). pose proof (padded_bstrip _ _ P (signed_trimmed _ _ _ H)) as E. destruct (int_bytes_iff b s Hb) as [I1 _].
  - rewrite E. now apply (numeral_no_prefix _ _ z).
  - apply I1. now exists core.
Qed.
Lemma decimal_no_prefix s : ~ base_prefix 10 s.
Proof. intros (sg & c & t & _ & _ & H). destruct H as [[=]|[[=]|[[=]|[]]]]. Qed.

(** ** Reals *)
Lemma digit_iff c : is_digit c = true <-> exists d, digit_val c = Some d /\ (d < 10)%N.
Proof.
  split.
  - destruct c as [[] [] [] [] [] [] [] []]; intros H; vm_compute in H; try discriminate H; eexists; (split; [vm_compute; reflexivity|lia]).
  - intros (d & D & L). destruct c as [[] [] [] [] [] [] [] []]; vm_compute in D; try discriminate D; injection D as <-; try (vm_compute in L; discriminate L); reflexivity.
Qed.
Definition digits (s : str) : Prop := Forall (fun c => is_digit c = true) s.
Lemma numeral_digits_from acc s : digits s -> numeral_value_from 10 acc s = Some (Z.to_N (fold_left (fun z c => 10 * z + Z.of_N (match digit_val c with Some d => d | None => 0%N end)) s (Z.of_N acc))).
Proof.
  intros H. revert acc. induction H as [|c s Hc _ IH]; intros acc; cbn [numeral_value_from fold_left]; [now rewrite N2Z.id|].
  apply digit_iff in Hc as (d & -> & L). destruct (N.ltb_spec d 10); [|lia]. rewrite IH. do 2 f_equal. f_equal. lia.
Qed.
Lemma digits_nonneg_from s : forall z, 0 <= z -> 0 <= fold_left (fun z c => 10 * z + Z.of_N (match digit_val c with Some d => d | None => 0%N end)) s z.
Proof. induction s as [|c s IH]; intros z H; cbn [fold_left]; [exact H|]. apply IH. lia. Qed.
Lemma numeral_digits s : digits s -> s <> [] -> numeral_value 10 s = Some (Z.to_N (digits_value s)).
Proof. intros H N. unfold numeral_value. destruct s as [|c s]; [easy|]. now rewrite numeral_digits_from. Qed.
Lemma digits_value_N s : Z.of_N (Z.to_N (digits_value s)) = digits_value s.
Proof. apply Z2N.id. apply digits_nonneg_from. lia. Qed.
Lemma digits_numeral s n : numeral_value 10 s = Some n -> digits s /\ s <> [] /\ digits_value s = Z.of_N n.
Proof.
  intros H. destruct (numeral_chars _ _ _ H) as [Ne F]. assert (D : digits s) by (eapply Forall_impl; [|exact F]; intros c (d & D & L); apply digit_iff; eauto).
  split; [exact D|]. split; [exact Ne|]. rewrite (numeral_digits s D Ne) in H. injection H as <-. now rewrite digits_value_N.
Qed.
Lemma span_spec (f : ascii -> bool) s : forall a r, span f s = (a, r) -> s = a ++ r /\ Forall (fun c => f c = true) a /\ match r with [] => True | c :: _ => f c = false end.
Proof.
  induction s as [|c s IH]; intros a r H; cbn [span] in H; [injection H as <- <-; auto|]. destruct (f c) eqn:E.
  - destruct (span f s) as [a' r'] eqn:S. injection H as <- <-. destruct (IH _ _ eq_refl) as (-> & F & R). split; [reflexivity|]. split; [now constructor|exact R].
  - injection H as <- <-. cbn. auto.
Qed.
Lemma span_app f a r : Forall (fun c => f c = true) a -> match r with [] => True | c :: _ => f c = false end -> span f (a ++ r) = (a, r).
Proof.
  induction 1 as [|c a Hc _ IH]; intros R; cbn [app span].
  - destruct r as [|c r]; [reflexivity|]. cbn. now rewrite R.
  - now rewrite Hc, IH.
Qed.
Lemma sign_cases neg sg : sign_text neg sg -> (neg = true /\ sg = $"-") \/ (neg = false /\ (sg = [] \/ sg = $"+")).
Proof. destruct neg; cbn; auto. Qed.
Definition no_sign (s : str) : Prop := match s with c :: _ => c <> "-"%char /\ c <> "+"%char | [] => True end.
Lemma take_sign_ok neg sg s : sign_text neg sg -> no_sign s -> take_sign (sg ++ s) = (neg, s).
Proof.
  intros H N. destruct (sign_cases _ _ H) as [[-> ->]|[-> [->| ->]]]; try reflexivity. cbn [app]. destruct s as [|c s]; [reflexivity|]. cbn. destruct N as [N1 N2].
  destruct (Ascii.eqb_spec c "-"%char); [easy|]. destruct (Ascii.eqb_spec c "+"%char); [easy|]. reflexivity.
Qed.
Lemma take_sign_inv s neg r : take_sign s = (neg, r) -> exists sg, sign_text neg sg /\ s = sg ++ r.
Proof.
  destruct s as [|c s]; cbn; [intros [= <- <-]; exists []; cbn; auto|].
  destruct (Ascii.eqb_spec c "-"%char) as [->|]; [intros [= <- <-]; now exists $"-"|].
  destruct (Ascii.eqb_spec c "+"%char) as [->|]; [intros [= <- <-]; exists $"+"; cbn; auto|]. intros [= <- <-]. exists []. cbn. auto.
Qed.
Lemma digit_no_sign2 c : is_digit c = true -> c <> "-"%char /\ c <> "+"%char.
Proof. intros H. split; intros ->; discriminate H. Qed.
Lemma exponent_iff r e : take_exponent r = Ok e <-> exponent_text r e.
Proof.
  split.
  - destruct r as [|c r]; cbn [take_exponent]; [intros [= <-]; constructor|]. destruct (Ascii.eqb_spec (to_lower c) "e"%char) as [E|]; [|discriminate].
    destruct (take_sign r) as [neg t] eqn:S. apply take_sign_inv in S as (sg & Hs & ->). destruct (span is_digit t) as [d u] eqn:P. apply span_spec in P as (-> & F & _).
    destruct d as [|x d]; [discriminate|]. destruct u; [|discriminate]. intros H. rewrite app_nil_r.
    pose proof (numeral_digits (x :: d) F ltac:(discriminate)) as Nv. pose proof (fun Hc => x_some c neg sg (x :: d) _ Hc Hs Nv) as X.
    rewrite digits_value_N in X. injection H as <-. apply X. destruct c as [[] [] [] [] [] [] [] []]; vm_compute in E; try discriminate E; cbn; auto.
  - intros [|c neg sg d k Hc Hs Nv]; [reflexivity|]. cbn [app take_exponent]. assert (E : Ascii.eqb (to_lower c) "e"%char = true) by (destruct Hc as [<-|[<-|[]]]; reflexivity).
    rewrite E. destruct (digits_numeral _ _ Nv) as (D & Ne & V). rewrite (take_sign_ok neg sg d Hs).
    + replace (span is_digit d) with (d, @nil ascii) by (symmetry; rewrite <- (app_nil_r d) at 1; apply span_app; [exact D|exact I]).
      destruct d as [|x d]; [easy|]. rewrite V. reflexivity.
    + destruct d as [|x d]; [easy|]. inversion D; subst. now apply digit_no_sign2.
Qed.
Lemma exponent_err r : (exists e, take_exponent r = Ok e) \/ take_exponent r = Err ValueError.
Proof.
  destruct r as [|c r]; cbn [take_exponent]; [left; now exists 0|]. destruct (Ascii.eqb _ _); [|now right]. destruct (take_sign r) as [neg t]. destruct (span is_digit t) as [[|x d] [|y u]]; auto.
  left. eexists. reflexivity.
Qed.
Lemma exponent_head ex e : exponent_text ex e -> match ex with [] => True | c :: _ => is_digit c = false /\ c <> "."%char end.
Proof. intros [|c neg sg d k Hc _ _]; [exact I|]. cbn [app]. destruct Hc as [<-|[<-|[]]]; (split; [reflexivity|discriminate]). Qed.
Lemma decimal_ok s q : decimal_value s = Ok q -> decimal_text s q.
Proof.
  unfold decimal_value. destruct (span is_digit s) as [ip r] eqn:S. apply span_spec in S as (-> & Fi & Hr).
  assert (X : forall point fp ex, (point = $"." \/ (point = [] /\ fp = [])) -> digits fp -> r = point ++ fp ++ ex ->
    match ip ++ fp with [] => Err ValueError | _ => do e <- take_exponent ex; Ok (inject_Z (digits_value (ip ++ fp)) * Qpower 10 (e - Z.of_nat (length fp)))%Q end = Ok q -> decimal_text (ip ++ r) q).
  { intros point fp ex Hp Df -> H. destruct (ip ++ fp) as [|x l] eqn:E; [discriminate|]. destruct (take_exponent ex) as [e|] eqn:Ee; [|discriminate]. injection H as <-.
    apply exponent_iff in Ee. eapply d_text; [exact Hp| |exact Ee|].
    - rewrite E. apply numeral_digits; [|discriminate]. rewrite <- E. apply Forall_app. auto.
    - rewrite digits_value_N. reflexivity. }
  destruct r as [|c r].
  - intros H. apply (X [] [] []); [auto|constructor|reflexivity|exact H].
  - destruct (Ascii.eqb_spec c "."%char) as [->|Nc].
    + destruct (span is_digit r) as [fp ex] eqn:S. apply span_spec in S as (-> & Ff & _). intros H. apply (X $"." fp ex); auto.
    + intros H. apply (X [] [] (c :: r)); [auto|constructor|reflexivity|exact H].
Qed.
Lemma decimal_total s q : decimal_text s q -> exists q', decimal_value s = Ok q' /\ (q' == q)%Q.
Proof.
  intros [ip fp point ex n e q' Hp Nv Hx Eq]. destruct (digits_numeral _ _ Nv) as (D & Ne & V). unfold digits in D. apply Forall_app in D as [Di Df]. pose proof (exponent_head _ _ Hx) as Hh.
  apply exponent_iff in Hx. unfold decimal_value.
  rewrite span_app; [|exact Di|].
  - lazymatch goal with |- exists q', (let (_, _) := ?M in _) = _ /\ _ => replace M with (fp, ex) end.
    + destruct (ip ++ fp) as [|x l] eqn:E; [easy|]. rewrite Hx. cbn [rbind]. eexists. split; [reflexivity|]. rewrite <- E in V |- *. rewrite V. now symmetry.
    + destruct Hp as [->|[-> ->]]; cbn [app list_ascii_of_string].
      * change (Ascii.eqb "." ".")%char with true. cbn beta iota. rewrite span_app; [reflexivity|exact Df|]. destruct ex; [exact I|apply Hh].
      * destruct ex as [|c ex]; [reflexivity|]. destruct (Ascii.eqb_spec c "."%char); [now destruct Hh|]. reflexivity.
  - destruct Hp as [->|[-> ->]]; cbn [app list_ascii_of_string]; [reflexivity|]. destruct ex; [exact I|apply Hh].
Qed.
Lemma decimal_err s : (exists q, decimal_value s = Ok q) \/ decimal_value s = Err ValueError.
Proof.
  unfold decimal_value. destruct (span is_digit s) as [ip r]. destruct (match r with [] => _ | _ => _ end) as [fp r']. destruct (ip ++ fp); [now right|].
  destruct (exponent_err r') as [(e & ->)| ->]; [left; eexists; reflexivity|now right].
Qed.
Lemma fconv_double q : double_for q (fconv DF64 q).
Proof.
  unfold fconv. destruct (Qle_bool (Qabs (round_to DF64 q)) (fmax DF64)) eqn:E; cbn [double_for].
  - apply Qle_bool_iff in E. apply nearest_round; [exact I|exact E].
  - split.
    + destruct (Qlt_le_dec (two_to 1023) (Qabs q)) as [L|L]; [exact L|exfalso]. destruct (fconv_ok q L) as [F _]. unfold fconv in F. rewrite E in F. discriminate F.
    + rewrite Z.ltb_lt. unfold q_sign. unfold Qlt. destruct q as [n d]. cbn. lia.
Qed.
Lemma decimal_digit_iff c : decimal_digit c <-> is_digit c = true.
Proof.
  unfold decimal_digit. split.
  - intros H. cbn [In] in H. repeat (destruct H as [<-|H]; [reflexivity|]). destruct H.
  - destruct c as [[] [] [] [] [] [] [] []]; intros H; vm_compute in H; try discriminate H; cbn [In]; tauto.
Qed.
Definition not_us (c : ascii) : bool := negb (Ascii.eqb c "_"%char).
(** every underscore of [s], after the character [prev], stands between digits *)
Fixpoint between (prev : option ascii) (s : str) : Prop :=
  match s with
  | [] => prev <> Some "_"%char
  | c :: s => (if Ascii.eqb c "_"%char then exists p, prev = Some p /\ is_digit p = true else prev = Some "_"%char -> is_digit c = true) /\ between (Some c) s
  end.
Lemma drop_iff s : forall prev t, drop_underscores prev s = Some t <-> t = filter not_us s /\ between prev s.
Proof.
  induction s as [|c s IH]; intros prev t; cbn [drop_underscores filter between].
  - destruct prev as [p|]; [|split; [intros [= <-]; split; [reflexivity|discriminate]|now intros [-> _]]].
    destruct (Ascii.eqb_spec p "_"%char) as [->|N]; [split; [discriminate|intros [_ H]; congruence]|]. split; [intros [= <-]; split; [reflexivity|congruence]|now intros [-> _]].
  - unfold not_us at 1. destruct (Ascii.eqb_spec c "_"%char) as [->|N]; cbn [negb].
    + destruct prev as [p|]; [|split; [discriminate|intros (_ & (p & E & _) & _); discriminate E]].
      destruct (is_digit p) eqn:D; [|split; [discriminate|intros (_ & (q & E & D') & _); congruence]]. rewrite IH. split; [intros [-> B]; eauto|now intros (-> & _ & B)].
    + assert (X : (match prev with Some p => Ascii.eqb p "_"%char | None => false end && negb (is_digit c) = false) <-> (prev = Some "_"%char -> is_digit c = true)).
      { destruct prev as [p|]; [|split; [discriminate|reflexivity]]. destruct (Ascii.eqb_spec p "_"%char) as [->|Np]; cbn [andb]; [|split; [congruence|reflexivity]].
        destruct (is_digit c); cbn; split; auto. intros H. discriminate (H eq_refl). }
      destruct (match prev with Some p => Ascii.eqb p "_"%char | None => false end && negb (is_digit c)).
      * split; [discriminate|]. intros (_ & H & _). apply X in H. discriminate H.
      * specialize (IH (Some c)). destruct (drop_underscores (Some c) s) as [r|].
        -- destruct (proj1 (IH r) eq_refl) as [-> B]. split; [intros [= <-]|intros [-> _]; reflexivity]. split; [reflexivity|]. split; [now apply X|exact B].
        -- split; [discriminate|]. intros (-> & _ & B). discriminate (proj2 (IH _) (conj eq_refl B)).
Qed.
Lemma between_in s : forall prev, between prev s -> forall a b, s = a ++ "_"%char :: b ->
  (exists c, is_digit c = true /\ ((a = [] /\ prev = Some c) \/ exists a', a = a' ++ [c])) /\ exists d b', b = d :: b' /\ is_digit d = true.
Proof.
  induction s as [|c s IH]; intros prev B a b E; [destruct a; discriminate E|]. cbn [between] in B. destruct B as [H B]. destruct a as [|x a]; injection E as -> E.
  - subst s. cbn [Ascii.eqb Bool.eqb] in H. destruct H as (p & -> & Hp). split; [exists p; auto|]. destruct b as [|d b]; [now destruct B|]. exists d, b. split; [reflexivity|].
    cbn [between] in B. destruct (Ascii.eqb_spec d "_"%char) as [->|]; [destruct B as [(q & [= <-] & Hq) _]; discriminate Hq|]. now apply B.
  - destruct (IH _ B a b E) as [(p & Hp & D) Hb]. split; [|exact Hb]. exists p. split; [exact Hp|]. right. destruct D as [[-> [= ->]]|(a' & ->)]; [now exists []|now exists (x :: a')].
Qed.
Lemma in_between s : forall prev, (prev = Some "_"%char -> exists d s', s = d :: s' /\ is_digit d = true) ->
  (forall a b, s = a ++ "_"%char :: b -> (exists c, is_digit c = true /\ ((a = [] /\ prev = Some c) \/ exists a', a = a' ++ [c])) /\ exists d b', b = d :: b' /\ is_digit d = true) -> between prev s.
Proof.
  induction s as [|c s IH]; intros prev P H; cbn [between]; [intros E; destruct (P E) as (? & ? & X & _); discriminate X|]. split.
  - destruct (Ascii.eqb_spec c "_"%char) as [->|N].
    + destruct (H [] s eq_refl) as [(p & Hp & [[_ ->]|(a' & X)]) _]; [eauto|destruct a'; discriminate X].
    + intros E. destruct (P E) as (d & s' & [= -> _] & D). exact D.
  - apply IH.
    + intros [= ->]. exact (proj2 (H [] s eq_refl)).
    + intros a b ->. destruct (H (c :: a) b eq_refl) as [(p & Hp & [[X _]|(a' & X)]) Hb]; [discriminate X|]. split; [|exact Hb]. exists p. split; [exact Hp|].
      destruct a' as [|x a']; injection X as -> X; [left; auto|right; eauto].
Qed.
Lemma drop_ungrouped u t : drop_underscores None u = Some t <-> ungrouped u t.
Proof.
  rewrite drop_iff. unfold ungrouped. split; intros [E B]; (split; [exact E|]).
  - intros a b H. destruct (between_in _ _ B a b H) as [(c & Hc & [[_ X]|(a' & ->)]) (d & b' & -> & Hd)]; [discriminate X|]. exists a', c, d, b'. rewrite !decimal_digit_iff. auto.
  - apply in_between; [discriminate|]. intros a b H. destruct (B a b H) as (a' & c & d & b' & -> & -> & Hc & Hd). rewrite decimal_digit_iff in Hc, Hd. split; [exists c; eauto|eauto].
Qed.
Lemma bstrip_none s : Forall (fun c => is_bspace c = false) s -> bstrip s = s.
Proof.
  intros H. destruct s as [|c t]; [reflexivity|]. destruct (exists_last (l := c :: t) ltac:(discriminate)) as (u & d & E).
  eapply strip_by_fixed; [reflexivity|exact E|now inversion H|]. rewrite E in H. apply Forall_app in H as [_ H]. now inversion H.
Qed.
Lemma float_real s v : float_bytes s = Ok v -> real_text s v.
Proof.
  unfold float_bytes. destruct (drop_underscores None (bstrip s)) as [t|] eqn:U; [|discriminate].
  assert (P : spelled s t) by (exists (bstrip s); split; [apply bstrip_padded|now apply drop_ungrouped]).
  destruct (take_sign t) as [neg body] eqn:S. apply take_sign_inv in S as (sg & Hs & E). rewrite E in P.
  destruct (str_in (lower body) [$"inf"; $"infinity"]) eqn:Ei.
  { intros [= <-]. eapply r_infinite; [exact P|exact Hs| |reflexivity]. apply str_in_iff in Ei. destruct Ei as [X|[X|[]]]; auto. }
  destruct (str_eqb (lower body) $"nan") eqn:En; [intros [= <-]; eapply r_nan; [exact P|exact Hs|now apply str_eqb_eq|reflexivity]|].
  destruct (decimal_value body) as [q|] eqn:D; cbn [rbind]; [|discriminate]. intros [= <-]. eapply r_number; [exact P|exact Hs|apply decimal_ok; exact D|apply fconv_double].
Qed.
Lemma float_err s : (exists v, float_bytes s = Ok v) \/ float_bytes s = Err ValueError.
Proof.
  unfold float_bytes. destruct (drop_underscores None (bstrip s)) as [t|]; [|now right]. destruct (take_sign t) as [neg body].
  destruct (str_in _ _); [left; eexists; reflexivity|]. destruct (str_eqb _ _); [left; eexists; reflexivity|]. destruct (decimal_err body) as [(q & ->)| ->]; [left; eexists; reflexivity|now right].
Qed.
Lemma lower_letter body w : lower body = w -> Forall (fun c => is_lower c = true) w -> Forall (fun c => is_bspace c = false /\ c <> "-"%char /\ c <> "+"%char) body.
Proof.
  intros <-. unfold lower. rewrite Forall_map. apply Forall_impl. intros c H. destruct c as [[] [] [] [] [] [] [] []]; vm_compute in H; try discriminate H; (split; [reflexivity|split; discriminate]).
Qed.
Lemma digit_bspace c : is_digit c = true -> is_bspace c = false.
Proof. destruct c as [[] [] [] [] [] [] [] []]; intros H; vm_compute in H |- *; congruence. Qed.
Lemma sign_bspace neg sg : sign_text neg sg -> Forall (fun c => is_bspace c = false) sg.
Proof. intros H. destruct (sign_cases _ _ H) as [[-> ->]|[-> [->| ->]]]; repeat constructor. Qed.
Lemma digits_bspace d : digits d -> Forall (fun c => is_bspace c = false) d.
Proof. apply Forall_impl. exact digit_bspace. Qed.
Lemma decimal_chars s q : decimal_text s q -> Forall (fun c => is_bspace c = false) s /\ no_sign s.
Proof.
  intros [ip fp point ex n e q' Hp Nv Hx _]. destruct (digits_numeral _ _ Nv) as (D & Ne & _). apply Forall_app in D as [Di Df]. split.
  - apply Forall_app. split; [now apply digits_bspace|]. apply Forall_app. split; [destruct Hp as [->|[-> _]]; repeat constructor|].
    apply Forall_app. split; [now apply digits_bspace|]. destruct Hx as [|c neg sg d k Hc Hs Nk]; [constructor|]. destruct (digits_numeral _ _ Nk) as (Dk & _).
    apply Forall_app. split; [destruct Hc as [<-|[<-|[]]]; repeat constructor|]. apply Forall_app. split; [now apply sign_bspace in Hs|now apply digits_bspace].
  - destruct ip as [|c ip]; [|inversion Di; subst; now apply digit_no_sign2]. destruct Hp as [->|[-> ->]]; [split; discriminate|now destruct Ne].
Qed.
Lemma letters_no_sign s : Forall (fun c => is_bspace c = false /\ c <> "-"%char /\ c <> "+"%char) s -> no_sign s.
Proof. intros H. destruct s; [exact I|]. now inversion H. Qed.
Lemma real_total s v : real_text s v -> exists v', float_bytes s = Ok v'.
Proof.
  intros H. assert (X : exists neg sg body, spelled s (sg ++ body) /\ sign_text neg sg /\ Forall (fun c => is_bspace c = false) body /\ no_sign body /\
    ((exists q, decimal_text body q) \/ lower body = $"inf" \/ lower body = $"infinity" \/ lower body = $"nan")).
  { destruct H as [neg sg body q P Hs D _|neg sg body P Hs L _|neg sg body P Hs L _].
    - exists neg, sg, body. destruct (decimal_chars _ _ D). split; [exact P|]. split; [exact Hs|]. split; [assumption|]. split; [assumption|]. left. now exists q.
    - exists neg, sg, body. assert (F : Forall (fun c => is_bspace c = false /\ c <> "-"%char /\ c <> "+"%char) body)
        by (destruct L as [L|L]; apply (lower_letter _ _ L); repeat constructor).
      split; [exact P|]. split; [exact Hs|]. split; [eapply Forall_impl; [|exact F]; now intros ? []|]. split; [now apply letters_no_sign|]. tauto.
    - exists neg, sg, body. assert (F : Forall (fun c => is_bspace c = false /\ c <> "-"%char /\ c <> "+"%char) body)
        by (apply (lower_letter _ _ L); repeat constructor).
      split; [exact P|]. split; [exact Hs|]. split; [eapply Forall_impl; [|exact F]; now intros ? []|]. split; [now apply letters_no_sign|]. tauto. }
  destruct X as (neg & sg & body & (u & P & U) & Hs & F & Ns & C). assert (E : bstrip s = u).
  { apply padded_bstrip; [exact P|]. apply bstrip_none. apply Forall_forall. intros c Hc. destruct (Ascii.eqb_spec c "_"%char) as [->|N]; [reflexivity|].
    assert (Hf : In c (sg ++ body)) by (rewrite (proj1 U); apply filter_In; split; [exact Hc|]; now destruct (Ascii.eqb_spec c "_"%char)).
    apply in_app_or in Hf as [Hf|Hf]; [apply sign_bspace in Hs; rewrite Forall_forall in Hs; now apply Hs|rewrite Forall_forall in F; now apply F]. }
  unfold float_bytes. rewrite E, (proj2 (drop_ungrouped u (sg ++ body)) U), (take_sign_ok _ _ _ Hs Ns).
  destruct (str_in (lower body) _) eqn:Ei; [eexists; reflexivity|]. destruct (str_eqb (lower body) _) eqn:En; [eexists; reflexivity|].
  destruct C as [(q & D)|C].
  - destruct (decimal_total _ _ D) as (q' & -> & _). eexists. reflexivity.
  - exfalso. destruct C as [C|[C|C]]; rewrite C in Ei, En; discriminate.
Qed.

(** ** Nulls *)
Lemma fill_spec nulls s : exists p, (fun d => if nulls && match bstrip d with [] => true | _ => false end then ($"0", true) else (d, false)) s = p /\
  ((nulls = true /\ blanks s /\ p = ($"0", true)) \/ (~ (nulls = true /\ blanks s) /\ p = (s, false))).
Proof.
  cbv beta. eexists. split; [reflexivity|]. destruct nulls; cbn [andb]; [|right; split; [now intros [? _]|reflexivity]].
  destruct (bstrip s) as [|c t] eqn:E; [left; apply bstrip_blank in E; auto|]. right. split; [|reflexivity]. intros [_ B]. apply bstrip_blank in B. congruence.
Qed.
Lemma fill_length nulls data : length (fill_nulls nulls data) = length data.
Proof. apply map_length. Qed.
(** converting the filled values is converting each *)
Lemma fill_convert {A} (conv : str -> res A) (zero : A) (text : str -> A -> Prop) nulls : conv $"0" = Ok zero ->
  forall data, (forall s a, In s data -> conv s = Ok a <-> text s a) ->
  forall l, (exists v, rmap conv (map fst (fill_nulls nulls data)) = Ok v /\ l = combine v (map snd (fill_nulls nulls data))) <-> Forall2 (nullable nulls zero text) data l.
Proof.
  intros Z0. induction data as [|s data IH]; intros C l.
  - cbn. split; [intros (v & [= <-] & ->); constructor|]. intros H. inversion H. exists []. auto.
  - unfold fill_nulls. cbn [map]. fold (fill_nulls nulls data). destruct (fill_spec nulls s) as ([p pm] & E & S). cbv beta in E. rewrite E. cbn [fst snd rmap].
    assert (C' : forall s' a, In s' data -> conv s' = Ok a <-> text s' a) by (intros; apply C; now right). specialize (IH C'). split.
    + intros (v & R & ->). destruct (conv p) as [a|] eqn:Ca; cbn [rbind] in R; [|discriminate]. destruct (rmap conv (map fst (fill_nulls nulls data))) as [v'|] eqn:R'; cbn [rbind] in R; [|discriminate].
      injection R as <-. cbn [combine]. constructor; [|apply IH; now exists v']. destruct S as [(S1 & S2 & S3)|(S1 & S3)]; injection S3 as -> ->.
      * left. split; [exact S1|]. split; [exact S2|]. pose proof (eq_trans (eq_sym Ca) Z0) as X; now injection X as ->.
      * right. split; [exact S1|]. split; [apply C; [now left|exact Ca]|reflexivity].
    + intros H. inversion H as [|? r ? l' Hr Hl]; subst. apply IH in Hl as (v' & -> & ->).
      destruct S as [(S1 & S2 & S3)|(S1 & S3)]; injection S3 as -> ->.
      * destruct Hr as [(_ & _ & ->)|(Hr & _)]; [|now destruct Hr]. change (conv _) with (conv $"0"). rewrite Z0. cbn [rbind]. eexists. split; [reflexivity|]. reflexivity.
      * destruct Hr as [(H1 & H2 & _)|(_ & Ht & Hm)]; [now destruct S1|]. destruct r as [a m]. cbn [fst snd] in *. subst m. apply C in Ht; [|now left]. rewrite Ht. cbn [rbind].
        eexists. split; [reflexivity|]. reflexivity.
Qed.

(** ** Truth values *)
Lemma replace_from_sep old new c x y : old <> [] -> ~ In c old -> ~ In c x -> forall k, (k <= length x)%nat ->
  replace_from old new k (x ++ c :: y) = replace_from old new k x ++ c :: replace_from old new 0 y.
Proof.
  intros No Nc. induction x as [|a x IH]; intros Nx k K.
  - cbn [length] in K. destruct k; [|lia]. cbn [app replace_from]. destruct (startswith old (c :: y)) eqn:S; [|reflexivity].
    exfalso. destruct old as [|o old]; [easy|]. cbn [startswith] in S. apply andb_true_iff in S as [S _]. apply Ascii.eqb_eq in S. apply Nc. now left.
  - cbn [app replace_from]. destruct k; [|apply IH; [intros X; apply Nx; now right|cbn [length] in K; lia]].
    assert (E : startswith old (a :: x ++ c :: y) = startswith old (a :: x)).
    { clear - Nc. revert x a. induction old as [|o old IH]; intros x a; [reflexivity|]. cbn [startswith]. f_equal.
      assert (Nc' : ~ In c old) by (intros X; apply Nc; now right). destruct x as [|b x].
      - cbn [app]. destruct old as [|o' old]; [reflexivity|]. cbn [startswith]. destruct (Ascii.eqb_spec o' c) as [->|]; [exfalso; apply Nc'; now left|]. reflexivity.
      - cbn [app]. apply IH. exact Nc'. }
    rewrite E. destruct (startswith old (a :: x)) eqn:S.
    + rewrite <- app_assoc. f_equal. apply IH; [intros X; apply Nx; now right|]. apply startswith_iff in S as (t & S). apply (f_equal (@length _)) in S. rewrite app_length in S. cbn [length] in S. lia.
    + cbn [app]. f_equal. apply IH; [intros X; apply Nx; now right|lia].
Qed.
Lemma replace_join old new c l : old <> [] -> ~ In c old -> Forall (fun x => ~ In c x) l -> replace old new (join [c] l) = join [c] (map (replace old new) l).
Proof.
  intros No Nc. induction 1 as [|x l Hx Hl IH]; [reflexivity|]. destruct l as [|y l]; [reflexivity|].
  change (join [c] (x :: y :: l)) with (x ++ [c] ++ join [c] (y :: l)). change (map (replace old new) (x :: y :: l)) with (replace old new x :: map (replace old new) (y :: l)).
  change (join [c] (replace old new x :: map (replace old new) (y :: l))) with (replace old new x ++ [c] ++ join [c] (map (replace old new) (y :: l))).
  rewrite <- IH. unfold replace. cbn [app]. apply replace_from_sep; auto. lia.
Qed.
Lemma replace_blank o old new a s : ~ blank_char o -> blanks a -> replace (o :: old) new (a ++ s) = a ++ replace (o :: old) new s.
Proof.
  intros No. induction 1 as [|c a Hc _ IH]; [reflexivity|]. unfold replace in *. cbn [app replace_from startswith]. destruct (Ascii.eqb_spec o c) as [->|]; [easy|]. cbn [andb]. now rewrite IH.
Qed.
Lemma replace_blanks o old new a : ~ blank_char o -> blanks a -> replace (o :: old) new a = a.
Proof. intros No B. rewrite <- (app_nil_r a) at 1. rewrite replace_blank by assumption. apply app_nil_r. Qed.
Definition to_digit (s : str) : str := replace $"false" $"0" (replace $"true" $"1" s).
Lemma not_blank_t : ~ blank_char "t"%char. Proof. rewrite blank_iff. discriminate. Qed.
Lemma not_blank_f : ~ blank_char "f"%char. Proof. rewrite blank_iff. discriminate. Qed.
Lemma to_digit_ok s b : bool_text s b -> exists a c, to_digit s = a ++ (if b then $"1" else $"0") ++ c /\ blanks a /\ blanks c.
Proof.
  intros (core & (a & c & -> & A & C) & H). exists a, c. split; [|auto]. unfold to_digit.
  change $"true" with ("t"%char :: $"rue"). change $"false" with ("f"%char :: $"alse"). rewrite !replace_blank by auto using not_blank_t, not_blank_f.
  assert (R : forall x, ~ In "t"%char x -> replace ("t"%char :: $"rue") $"1" (x ++ c) = x ++ c).
  { intros x. induction x as [|y x IH]; intros N; [cbn [app]; apply replace_blanks; auto using not_blank_t|]. unfold replace in *. cbn [app replace_from startswith].
    destruct (Ascii.eqb_spec "t" y) as [<-|]; [destruct N; now left|]. cbn [andb]. f_equal. apply IH. intros X; apply N; now right. }
  assert (R' : forall x, ~ In "f"%char x -> replace ("f"%char :: $"alse") $"0" (x ++ c) = x ++ c).
  { intros x. induction x as [|y x IH]; intros N; [cbn [app]; apply replace_blanks; auto using not_blank_f|]. unfold replace in *. cbn [app replace_from startswith].
    destruct (Ascii.eqb_spec "f" y) as [<-|]; [destruct N; now left|]. cbn [andb]. f_equal. apply IH. intros X; apply N; now right. }
  f_equal. destruct b; destruct H as [<-|[<-|[]]].
  - assert (E : replace ("t"%char :: $"rue") $"1" ($"true" ++ c) = $"1" ++ c).
    { pose proof (R [] (fun x => x)) as X. unfold replace in *. cbn [app list_ascii_of_string] in *. cbn. f_equal. exact X. }
    rewrite E. apply R'. cbn. intros [[=]|[]].
  - rewrite R by (cbn; intros [[=]|[]]). apply R'. cbn. intros [[=]|[]].
  - rewrite R by (cbn; intuition discriminate). pose proof (R' [] (fun x => x)) as X. unfold replace in *. cbn [app list_ascii_of_string] in *. cbn. f_equal. exact X.
  - rewrite R by (cbn; intros [[=]|[]]). apply R'. cbn. intros [[=]|[]].
Qed.
