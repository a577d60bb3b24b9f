(** Proofs about the elements of PDS3 arrays. *)
From Coq Require Import QArith Lia ZArith.
From Verif.Base Require Import Py PyFacts Val Numpy Float.
From Verif.Model Require Import Types PvlLiteral Scaling Pds4Types Pds4Values Array.
From Verif.Spec Require Import Types Scaling Pvl Pds4Values Array.
From Verif.Proofs Require Import Scaling Pds4Values Pds4Fields.
From Verif.Properties Require Types.
Open Scope Z_scope.

(** ** Binary elements *)
Definition t_of (o : byte_order) (f : format) (w : nat) : tmeaning :=
  mkT (order_of o) (match f with Integer true => KSigned | Integer false => KUnsigned | _ => KFloat end) w.
Lemma pds3_known name w o f : pds3_type name w o f -> exists s, sample_types name w true = Ok s /\ numpy_meaning s = Some (t_of o f w).
Proof.
  intros [o' s I W Ho Hs|R W|R W].
  - destruct (Types.C17_integers name w I W) as (dt & o'' & k & E & M & Hl & Hn & Hu & Hk). exists dt. split; [exact E|]. rewrite M. unfold t_of. f_equal. f_equal.
    + destruct o'; cbn.
      * destruct o''; [exfalso|reflexivity|now destruct Hn]. discriminate (proj2 Ho (proj1 Hl eq_refl)).
      * apply Hl, Ho. reflexivity.
    + destruct s; [|apply Hu, Hs; reflexivity]. destruct Hk as [->| ->]; [reflexivity|]. discriminate (proj2 Hs (proj1 Hu eq_refl)).
  - destruct (Types.C17_reals name w W) as (H & _). exact (H R).
  - destruct (Types.C17_reals name w W) as (_ & H & _). exact (H R).
Qed.
Lemma pds3_width name w o f : pds3_type name w o f -> match f with Integer _ => In w [1; 2; 4; 8] | Ieee => In w [4; 8] | Pair => False end%nat.
Proof. now intros []. Qed.
Lemma pds3_pos name w o f : pds3_type name w o f -> (0 < w)%nat.
Proof. intros H. apply pds3_width in H. destruct f; cbn in H; lia. Qed.
Lemma cell_ok name w o f bs : pds3_type name w o f -> length bs = w -> cell_holds o f w bs (np_cell (t_of o f w) bs).
Proof.
  intros T L. pose proof (pds3_width _ _ _ _ T) as W. destruct f as [s| |]; cbn in W; [| |easy].
  - exists (EI (wrap s (Z.of_nat w) (word (order_of o) bs))). split; [now destruct s|]. cbn [pixel_holds]. eexists. split; [reflexivity|].
    split; [apply wrap_range; lia|]. destruct (wrap_congr s w (word (order_of o) bs)) as [k ->]. apply written_congr. now apply word_written.
  - exists (EF (ieee_of w (word (order_of o) bs))). split; [reflexivity|]. cbn [pixel_holds]. eexists. split; [reflexivity|]. now apply float_ok.
Qed.
Lemma shape_sizes v sh : says_shape v sh -> axis_sizes v = Ok sh /\ sh <> [].
Proof.
  intros [n|l N]; cbn [axis_sizes axis_size].
  - split; [|discriminate]. destruct (Z.ltb_spec (Z.of_nat n) 0); [lia|]. cbn [rbind]. now rewrite Nat2Z.id.
  - split; [|exact N]. clear N. induction l as [|n l IH]; [reflexivity|]. cbn [map rmap axis_size]. destruct (Z.ltb_spec (Z.of_nat n) 0); [lia|].
    cbn [rbind]. rewrite IH, Nat2Z.id. reflexivity.
Qed.
Lemma need_nat_of m k n : Array.holds m k (PInt (Z.of_nat n)) -> need_nat m k = Ok n.
Proof. unfold Array.holds, need_nat. intros ->. cbn [axis_size]. destruct (Z.ltb_spec (Z.of_nat n) 0); [lia|]. now rewrite Nat2Z.id. Qed.
Lemma firstn_chunks w bs n : (n * w <= length bs)%nat -> (0 < w)%nat -> length (firstn n (chunks w bs)) = n /\ forall k, (k < n)%nat -> nth k (firstn n (chunks w bs)) [] = firstn w (skipn (k * w) bs).
Proof.
  intros L W. assert (D : (n <= length bs / w)%nat) by (apply Nat.div_le_lower_bound; lia).
  assert (E : length (firstn n (chunks w bs)) = n) by (rewrite firstn_length, chunks_length; lia). split; [exact E|]. intros k K.
  transitivity (nth k (chunks w bs) []); [|apply chunks_nth; lia]. rewrite <- (firstn_skipn n (chunks w bs)) at 2. now rewrite app_nth1 by lia.
Qed.

(** ** Texts of numbers *)
Lemma gap_not_digit c : gap_char c -> is_digit c = false /\ is_sign c = false /\ Ascii.eqb c "."%char = false.
Proof.
  intros (D & _ & N). rewrite decimal_digit_iff in D. split; [now destruct (is_digit c)|]. unfold is_sign.
  split; [destruct (Ascii.eqb_spec c "+"%char); [exfalso; subst; apply N; cbn; auto|]; destruct (Ascii.eqb_spec c "-"%char); [exfalso; subst; apply N; cbn; auto|reflexivity]|].
  destruct (Ascii.eqb_spec c "."%char); [exfalso; subst; apply N; cbn; auto|reflexivity].
Qed.
Lemma match_gap c s : gap_char c -> match_number (c :: s) = None.
Proof. intros H. apply gap_not_digit in H as (D & S & _). unfold match_number. rewrite S. cbn [span]. now rewrite D. Qed.
Lemma findall_gap g s : gap g -> forall fuel, (length (g ++ s) <= fuel)%nat -> findall fuel (g ++ s) = findall (fuel - length g) s.
Proof.
  intros G. induction G as [|c g Hc _ IH]; intros fuel L; [cbn; now rewrite Nat.sub_0_r|]. cbn [app length] in *. destruct fuel as [|fuel]; [lia|].
  cbn [findall]. rewrite (match_gap _ _ Hc), IH by lia. reflexivity.
Qed.
(** the shape of a number: a sign or none, digits, and perhaps a point and digits *)
Definition token (neg : bool) (sg ip point fp : str) : Prop :=
  sign_text neg sg /\ ip <> [] /\ digits ip /\ digits fp /\ (point = $"." \/ (point = [] /\ fp = [])).
Lemma plain_token tok q : plain_number tok q -> exists neg sg ip point fp n, tok = sg ++ ip ++ point ++ fp /\ token neg sg ip point fp /\
  numeral_value 10 (ip ++ fp) = Some n /\ (q == (if neg then -1 else 1) * inject_Z (Z.of_N n) * Qpower 10 (- Z.of_nat (length fp)))%Q.
Proof.
  intros [neg sg ip point fp n q' Hs Ni Hp Nv Eq]. exists neg, sg, ip, point, fp, n. split; [reflexivity|]. split; [|now split].
  destruct (digits_numeral _ _ Nv) as (D & _ & _). apply Forall_app in D as [D1 D2]. repeat split; auto.
Qed.
Lemma match_token neg sg ip point fp rest : token neg sg ip point fp -> at_gap rest ->
  match_number ((sg ++ ip ++ point ++ fp) ++ rest) = Some (sg ++ ip ++ point ++ fp, rest).
Proof.
  intros (Hs & Ni & Di & Df & Hp) G. rewrite <- !app_assoc. unfold match_number.
  assert (X : forall sgn, match span is_digit (ip ++ point ++ fp ++ rest) with
      | ([], _) => None
      | (ip, r) => match r with
          | c :: r' => if Ascii.eqb c "." then let (fp, r'') := span is_digit r' in Some (sgn ++ ip ++ c :: fp, r'') else Some (sgn ++ ip, r)
          | [] => Some (sgn ++ ip, [])
          end
      end = Some (sgn ++ ip ++ point ++ fp, rest)).
  { intros sgn. assert (R : match rest with [] => True | c :: _ => is_digit c = false end) by (destruct rest; [exact I|now apply gap_not_digit in G]).
    rewrite span_app; [|exact Di|destruct Hp as [->|[-> ->]]; [reflexivity|exact R]]. destruct ip as [|d ip]; [easy|]. destruct Hp as [->|[-> ->]].
    - cbn [app list_ascii_of_string Ascii.eqb Bool.eqb]. rewrite span_app; [reflexivity|exact Df|exact R].
    - cbn [app]. rewrite app_nil_r. destruct rest as [|c r]; [reflexivity|]. apply gap_not_digit in G as (_ & _ & E). now rewrite E. }
  destruct (sign_cases _ _ Hs) as [[-> ->]|[-> [->| ->]]]; cbn [app list_ascii_of_string].
  - apply (X $"-").
  - destruct ip as [|d ip]; [easy|]. cbn [app]. assert (S : is_sign d = false).
    { inversion Di; subst. apply digit_no_sign2 in H1 as [N1 N2]. unfold is_sign. destruct (Ascii.eqb_spec d "+"%char); [easy|]. now destruct (Ascii.eqb_spec d "-"%char). }
    rewrite S. apply (X []).
  - apply (X $"+").
Qed.
Lemma digit_char c : is_digit c = true -> is_bspace c = false /\ c <> "_"%char /\ is_lower (to_lower c) = false.
Proof. destruct c as [[] [] [] [] [] [] [] []]; intros H; vm_compute in H; try discriminate H; repeat split; discriminate. Qed.
Lemma double_for_eq q q' v : (q == q')%Q -> double_for q v -> double_for q' v.
Proof.
  intros E. destruct v as [r| |s]; cbn [double_for]; [now apply nearest_eq|exact (fun H => H)|]. intros [H1 H2]. split.
  - eapply Qlt_le_trans; [exact H1|]. rewrite E. apply Qle_refl.
  - rewrite H2. split; intros H; eapply Qle_lt_trans; try exact H; rewrite E; apply Qle_refl.
Qed.
Lemma float_token neg sg ip point fp n : token neg sg ip point fp -> numeral_value 10 (ip ++ fp) = Some n ->
  exists v, float_bytes (sg ++ ip ++ point ++ fp) = Ok v /\
    double_for ((if neg then -1 else 1) * inject_Z (Z.of_N n) * Qpower 10 (- Z.of_nat (length fp)))%Q v.
Proof.
  intros (Hs & Ni & Di & Df & Hp) Nv. set (body := ip ++ point ++ fp).
  assert (D : decimal_text body (inject_Z (Z.of_N n) * Qpower 10 (0 - Z.of_nat (length fp)))%Q).
  { unfold body. rewrite <- (app_nil_r fp) at 1. eapply d_text; [exact Hp|exact Nv|constructor|reflexivity]. }
  destruct (decimal_chars _ _ D) as [Cb Ns]. destruct (decimal_total _ _ D) as (q' & Ev & Eq). unfold float_bytes.
  assert (B : bstrip (sg ++ body) = sg ++ body) by (apply bstrip_none, Forall_app; split; [now apply sign_bspace in Hs|exact Cb]).
  assert (NU : ~ In "_"%char (sg ++ body)).
  { intros H. apply in_app_or in H as [H|H].
    - destruct (sign_cases _ _ Hs) as [[-> ->]|[-> [->| ->]]]; cbn in H; intuition discriminate.
    - unfold body in H. apply in_app_or in H as [H|H]; [|apply in_app_or in H as [H|H]].
      + unfold digits in Di. rewrite Forall_forall in Di. apply Di in H. discriminate.
      + destruct Hp as [->|[-> _]]; cbn in H; intuition discriminate.
      + unfold digits in Df. rewrite Forall_forall in Df. apply Df in H. discriminate. }
  rewrite B. assert (U : drop_underscores None (sg ++ body) = Some (sg ++ body)).
  { apply drop_ungrouped. split.
    - symmetry. clear - NU. induction (sg ++ body) as [|c l IH]; [reflexivity|]. cbn [filter]. destruct (Ascii.eqb_spec c "_"%char); [exfalso; apply NU; now left|].
      cbn [negb]. f_equal. apply IH. intros H. apply NU. now right.
    - intros a b E. exfalso. apply NU. rewrite E. apply in_or_app. right. now left. }
  rewrite U, (take_sign_ok _ _ _ Hs Ns).
  assert (L : forall w, Forall (fun c => is_lower c = true) w -> str_eqb (lower body) w = false).
  { intros w Fw. apply str_eqb_neq. intros E. destruct ip as [|d ip]; [easy|]. inversion Di; subst. apply digit_char in H1 as (_ & _ & Hl).
    unfold body in Fw. cbn in Fw. inversion Fw; subst. congruence. }
  assert (Li : str_in (lower body) [$"inf"; $"infinity"] = false).
  { cbn [str_in existsb]. unfold str_in. cbn [existsb]. rewrite !L; [reflexivity|repeat constructor|repeat constructor]. }
  rewrite Li, L by (repeat constructor). rewrite Ev. cbn [rbind]. eexists. split; [reflexivity|].
  pose proof (fconv_double (if neg then - q' else q')%Q) as F.
  assert (E : ((if neg then - q' else q') == (if neg then -1 else 1) * inject_Z (Z.of_N n) * Qpower 10 (- Z.of_nat (length fp)))%Q).
  { rewrite Z.sub_0_l in Eq. destruct neg; rewrite Eq; ring. }
  revert F. now apply double_for_eq.
Qed.
Lemma findall_numbers text qs : number_text text qs -> forall fuel, (length text <= fuel)%nat ->
  exists vs, rmap float_bytes (findall fuel text) = Ok vs /\ Forall2 double_for qs vs.
Proof.
  induction 1 as [g G|g tok q rest qs G P A _ IH]; intros fuel L.
  - rewrite <- (app_nil_r g). rewrite findall_gap by (trivial; now rewrite app_nil_r). exists []. split; [|constructor]. now destruct (fuel - length g)%nat.
  - rewrite findall_gap by assumption. destruct (plain_token _ _ P) as (neg & sg & ip & point & fp & n & -> & T & Nv & Eq).
    rewrite app_length, app_length in L. assert (P1 : (0 < length (sg ++ ip ++ point ++ fp))%nat).
    { destruct T as (_ & Ni & _). rewrite !app_length. destruct ip; [easy|]. cbn. lia. }
    destruct (fuel - length g)%nat as [|f] eqn:Ef; [lia|]. cbn [findall].
    assert (Ne : exists c s', (sg ++ ip ++ point ++ fp) ++ rest = c :: s') by (destruct (sg ++ ip ++ point ++ fp); [cbn in P1; lia|]; cbn; eauto).
    destruct Ne as (c & s' & Es). rewrite Es. rewrite <- Es. rewrite (match_token _ _ _ _ _ _ T A). cbn [rmap].
    destruct (float_token _ _ _ _ _ _ T Nv) as (v & Ev & Dv). rewrite Ev. cbn [rbind]. destruct (IH f ltac:(lia)) as (vs & Evs & Fvs). rewrite Evs. cbn [rbind].
    exists (v :: vs). split; [reflexivity|]. constructor; [|exact Fvs].
    revert Dv. apply double_for_eq. now symmetry.
Qed.
(** any text: what is found are numbers *)
Lemma match_inv s tok r : match_number s = Some (tok, r) -> exists neg sg ip point fp, tok = sg ++ ip ++ point ++ fp /\ token neg sg ip point fp.
Proof.
  unfold match_number. intros H.
  assert (X : exists sg neg t, sign_text neg sg /\ match span is_digit t with
      | ([], _) => None
      | (ip, r) => match r with
          | c :: r' => if Ascii.eqb c "." then let (fp, r'') := span is_digit r' in Some (sg ++ ip ++ c :: fp, r'') else Some (sg ++ ip, r)
          | [] => Some (sg ++ ip, [])
          end
      end = Some (tok, r)).
  { destruct s as [|c s]; [exists [], false, []; split; [now left|exact H]|]. destruct (is_sign c) eqn:S; [|exists [], false, (c :: s); split; [now left|exact H]].
    unfold is_sign in S. destruct (Ascii.eqb_spec c "+"%char) as [->|N].
    - exists ["+"%char], false, s. split; [now right|exact H].
    - destruct (Ascii.eqb_spec c "-"%char) as [->|]; [|discriminate]. exists ["-"%char], true, s. split; [reflexivity|exact H]. }
  clear H. destruct X as (sg & neg & t & Hs & H). destruct (span is_digit t) as [ip r0] eqn:E. apply span_spec in E as (-> & Di & _).
  destruct ip as [|d ip]; [discriminate|]. destruct r0 as [|c r0].
  - injection H as <- <-. exists neg, sg, (d :: ip), [], []. split; [now rewrite !app_nil_r|]. repeat split; auto; [discriminate|constructor].
  - destruct (Ascii.eqb_spec c "."%char) as [->|].
    + destruct (span is_digit r0) as [fp r1] eqn:E. apply span_spec in E as (-> & Df & _). injection H as <- <-.
      exists neg, sg, (d :: ip), $".", fp. split; [reflexivity|]. repeat split; auto; discriminate.
    + injection H as <- <-. exists neg, sg, (d :: ip), [], []. split; [now rewrite !app_nil_r|]. repeat split; auto; [discriminate|constructor].
Qed.
Lemma findall_floats fuel : forall s, exists vs, rmap float_bytes (findall fuel s) = Ok vs.
Proof.
  induction fuel as [|fuel IH]; intros s; [exists []; reflexivity|]. destruct s as [|c s]; [exists []; reflexivity|]. cbn [findall].
  destruct (match_number (c :: s)) as [[tok r]|] eqn:M; [|apply IH]. apply match_inv in M as (neg & sg & ip & point & fp & -> & T).
  destruct (numeral_value 10 (ip ++ fp)) as [n|] eqn:Nv.
  - destruct (float_token _ _ _ _ _ _ T Nv) as (v & Ev & _). cbn [rmap]. rewrite Ev. destruct (IH r) as (vs & ->). cbn [rbind]. eexists. reflexivity.
  - exfalso. destruct T as (_ & Ni & Di & Df & _). rewrite numeral_digits in Nv; [discriminate|now apply Forall_app|]. now destruct ip.
Qed.
