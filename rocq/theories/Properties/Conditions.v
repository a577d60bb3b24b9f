(** C83, continued: what the conditions of special cases are true of, and what is then called. *)
From Coq Require Import QArith Qminmax.
From Verif.Base Require Import Py Val.
From Verif.Model Require Import Checkers.
From Verif.Spec Require Import Checkers Conditions.
From Verif.Proofs Require Import Checkers.
From Verif.Properties Require Import Checkers.

Lemma item_ok v k w : item v k = Ok w <-> exists b, block_is v b /\ md_get b k = Some w.
Proof.
  unfold block_is. split.
  - destruct v; try discriminate; cbn; destruct (md_get kvs k) as [u|] eqn:E; try discriminate; intros [= <-]; eauto.
  - intros (b & [-> | ->] & E); cbn; now rewrite E.
Qed.
Lemma value_ok p x : forall v, value p x = Ok v <-> denotes p x v.
Proof.
  induction x as [f| | |x IH|k|k l|f|f|f| ]; intros v; cbn [value].
  - split; [intros [= <-]; constructor|intros H; now inversion H].
  - split; [intros [= <-]; constructor|intros H; now inversion H].
  - split; [intros [= <-]; constructor|intros H; now inversion H].
  - split.
    + destruct (value p x) as [u|] eqn:E; [cbn [rbind]|discriminate]. destruct u; try discriminate. intros [= <-]. constructor. now apply IH.
    + intros H. inversion H as [| | |? s Hx| | | | | | | |]; subst. apply IH in Hx. now rewrite Hx.
  - rewrite item_ok. split; [intros (b & H1 & H2); now apply (d_block p b)|intros H; inversion H; subst; eauto].
  - split.
    + destruct (item (block p) k) as [u|] eqn:E; [cbn [rbind]|discriminate]. intros H. apply item_ok in E as (b & E1 & E2). apply item_ok in H as (c & H1 & H2).
      exact (d_inner p b k c l u v E1 E2 H1 H2).
    + intros H. inversion H as [| | | | |b ? c ? u ? E1 E2 E3 E4| | | | | |]; subst.
      rewrite (proj2 (item_ok _ _ _) (ex_intro _ b (conj E1 E2))). cbn [rbind]. apply item_ok. eauto.
  - split; [intros [= <-]; constructor|intros H; now inversion H].
  - split.
    + destruct (label p f) eqn:E; intros [= <-]; try (rewrite <- E; apply d_label_given; congruence). now apply d_label_missing.
    + intros H. inversion H as [| | | | | | |? N|? N| | |]; subst; [destruct (label p f); congruence|now rewrite N].
  - split.
    + destruct (label p f) as [| | | |[|c s]|[|u l]| | |] eqn:E; try discriminate; intros [= <-]; [now apply (d_first_char p f c s)|now apply (d_first p f u l)].
    + intros H. inversion H as [| | | | | | | | |? ? l E|? c s E|]; subst; now rewrite E.
  - split; [intros [= <-]; constructor|intros H; now inversion H].
Qed.
Lemma re_match_ok l : forall s, re_match l s = true <-> exists a b, s = a ++ b /\ fits l a.
Proof.
  induction l as [|[w| |cs|cs] l IH]; intros s; cbn [re_match].
  - split; [intros _; exists [], s; split; [reflexivity|constructor]|reflexivity].
  - rewrite andb_true_iff, startswith_iff, IH. split.
    + intros ((t & ->) & a & b & E & F). rewrite skipn_app, skipn_all, Nat.sub_diag in E. cbn in E. subst t. exists (w ++ a), b. split; [now rewrite app_assoc|now constructor].
    + intros (a & b & -> & F). inversion F; subst. rewrite <- app_assoc. split; [eauto|]. rewrite skipn_app, skipn_all, Nat.sub_diag. cbn. eauto.
  - destruct s as [|c s]; [split; [discriminate|intros (a & b & E & F); inversion F; subst; discriminate]|].
    rewrite andb_true_iff, negb_true_iff, Ascii.eqb_neq, IH. split.
    + intros (N & a & b & -> & F). exists (c :: a), b. split; [reflexivity|now constructor].
    + intros (a & b & E & F). inversion F; subst. injection E as <- ->. split; [assumption|eauto].
  - destruct s as [|c s]; [split; [discriminate|intros (a & b & E & F); inversion F; subst; discriminate]|].
    rewrite andb_true_iff, has_char_iff, IH. split.
    + intros (N & a & b & -> & F). exists (c :: a), b. split; [reflexivity|now constructor].
    + intros (a & b & E & F). inversion F; subst. injection E as <- ->. split; [assumption|eauto].
  - induction s as [|c s IHs]; [split; [discriminate|intros (a & b & E & F); inversion F as [| | | |w ? ? ? N]; subst; destruct w; [congruence|discriminate]]|].
    rewrite andb_true_iff, has_char_iff, orb_true_iff, IH, IHs. split.
    + intros (Hc & [(a & b & -> & F)|(a & b & -> & F)]).
      * exists ([c] ++ a), b. split; [reflexivity|]. apply fits_several; [discriminate|now repeat constructor|assumption].
      * inversion F as [| | | |w ? ? t N G H]; subst. exists ((c :: w) ++ t), b. split; [reflexivity|]. apply fits_several; [discriminate|now constructor|assumption].
    + intros (a & b & E & F). inversion F as [| | | |w ? ? t N G H]; subst. destruct w as [|c' w]; [congruence|]. injection E as <- ->. inversion G as [|? ? G1 G2]; subst. split; [assumption|].
      destruct w as [|c' w]; [left; exists t, b; now split|right]. exists ((c' :: w) ++ t), b. split; [reflexivity|]. now apply fits_several.
Qed.
Lemma is_text_ok v s : is_text v s = true <-> v = PStr s.
Proof. destruct v; cbn; try (split; discriminate). rewrite str_eqb_eq. split; [now intros ->|now intros [= ->]]. Qed.
Lemma one_value p x v : value p x = Ok v -> forall w, denotes p x w <-> w = v.
Proof. intros H w. rewrite <- value_ok, H. split; [now intros [= ->]|now intros ->]. Qed.
Lemma on_text_ok {A} e v (f : str -> A) b : on_text e v f = Ok b <-> exists s, v = PStr s /\ b = f s.
Proof. destruct v; cbn; try (split; [discriminate|intros (? & ? & _); discriminate]). split; [intros [= <-]; eauto|intros (t & [= ->] & ->); reflexivity]. Qed.
Lemma mentions_ok w s : contains w s = true <-> mentions w s.
Proof. apply contains_iff. Qed.
(** If asking a condition raises nothing, the answer is what the condition means. *)
Theorem C83_conditions : forall p c b, eval p c = Ok b -> (b = true <-> meant p c).
Proof.
  intros p c. induction c as [x s|x l|x n|w x|x s|x s|x l|x words|x s|k|n x|n x|c IH|a IHa b IHb|a IHa b IHb]; intros r; cbn [eval meant].
  all: try (destruct (value p x) as [v|] eqn:V; [cbn [rbind]|discriminate]; pose proof (one_value p x v V) as O).
  - intros [= <-]. rewrite is_text_ok, O. split; congruence.
  - intros [= <-]. rewrite existsb_exists. split.
    + intros (s & Hs & E). apply is_text_ok in E. exists s. split; [assumption|]. now apply O.
    + intros (s & Hs & E). apply O in E. exists s. split; [assumption|]. now apply is_text_ok.
  - intros [= <-]. rewrite O. split.
    + destruct v; try discriminate; intros H; [left; apply Z.eqb_eq in H; congruence|right]. exists q. rewrite O. split; [reflexivity|]. now apply Qeq_bool_iff.
    + intros [<-|(q & H & E)]; [apply Z.eqb_refl|]. apply O in H. subst v. now apply Qeq_bool_iff.
  - intros H. assert (X : r = true <-> has_word w v).
    { unfold has_word, block_is. destruct v; cbn in H; try discriminate; injection H as <-.
      - rewrite mentions_ok. split; [intros M; left; eauto|]. intros [(t & [= ->] & M)|[(l0 & [E|E] & _)|(bb & [E|E] & _)]]; try discriminate. exact M.
      - rewrite existsb_exists. split.
        + intros (u & Hu & E). apply is_text_ok in E. subst. right. left. eauto.
        + intros [(t & E & _)|[(l0 & [[= ->]|E] & Hl)|(bb & [E|E] & _)]]; try discriminate. exists (PStr w). split; [assumption|]. now apply is_text_ok.
      - rewrite existsb_exists. split.
        + intros (u & Hu & E). apply is_text_ok in E. subst. right. left. eauto.
        + intros [(t & E & _)|[(l0 & [E|[= ->]] & Hl)|(bb & [E|E] & _)]]; try discriminate. exists (PStr w). split; [assumption|]. now apply is_text_ok.
      - unfold md_has. rewrite existsb_exists. split.
        + intros (u & Hu & E). right. right. eexists. split; [right; reflexivity|]. apply str_eqb_eq in E. subst. now apply in_map.
        + intros [(t & E & _)|[(l0 & [E|E] & _)|(bb & [E|[= ->]] & Hl)]]; try discriminate. apply in_map_iff in Hl as (u & <- & Hu). exists u. split; [assumption|apply str_eqb_refl].
      - unfold md_has. rewrite existsb_exists. split.
        + intros (u & Hu & E). right. right. eexists. split; [left; reflexivity|]. apply str_eqb_eq in E. subst. now apply in_map.
        + intros [(t & E & _)|[(l0 & [E|E] & _)|(bb & [[= ->]|E] & Hl)]]; try discriminate. apply in_map_iff in Hl as (u & <- & Hu). exists u. split; [assumption|apply str_eqb_refl]. }
    rewrite X. split; [intros M; exists v; split; [now apply O|assumption]|]. intros (u & Hu & M). apply O in Hu. now subst.
  - intros H. apply on_text_ok in H as (t & -> & ->). rewrite startswith_iff. split.
    + intros (u & ->). exists u. now apply O.
    + intros (u & H). apply O in H. injection H as <-. eauto.
  - intros H. apply on_text_ok in H as (t & -> & ->). rewrite endswith_iff. split.
    + intros (u & ->). exists u. now apply O.
    + intros (u & H). apply O in H. injection H as <-. eauto.
  - intros H. apply on_text_ok in H as (t & -> & ->). rewrite existsb_exists. split.
    + intros (e & He & M). apply re_match_ok in M as (a & b & -> & F). exists e, a, b. split; [assumption|]. split; [assumption|]. now apply O.
    + intros (e & a & b & He & F & H). apply O in H. injection H as <-. exists e. split; [assumption|]. apply re_match_ok. eauto.
  - intros H. apply on_text_ok in H as (t & -> & ->). rewrite existsb_exists. split.
    + intros (w & Hw & M). exists w, t. split; [assumption|]. split; [now apply O|now apply mentions_ok].
    + intros (w & u & Hw & H & M). apply O in H. injection H as ->. exists w. split; [assumption|now apply mentions_ok].
  - intros H. apply on_text_ok in H as (t & -> & ->). rewrite mentions_ok. split.
    + intros M. exists t. split; [now apply O|assumption].
    + intros (u & H & M). apply O in H. now injection H as ->.
  - intros [= <-]. apply str_in_iff.
  - destruct (to_float p v) as [q|] eqn:F; [cbn [rbind]|discriminate]. intros [= <-]. rewrite Qle_bool_iff. split.
    + intros H. exists v, q. split; [now apply O|now split].
    + intros (u & q' & H & F' & L). apply O in H. subst. congruence.
  - destruct (to_float p v) as [q|] eqn:F; [cbn [rbind]|discriminate]. intros [= <-]. rewrite Qle_bool_iff. split.
    + intros H. exists v, q. split; [now apply O|now split].
    + intros (u & q' & H & F' & L). apply O in H. subst. congruence.
  - destruct (eval p c) as [x|]; [cbn [rbind]|discriminate]. intros [= <-]. specialize (IH x eq_refl). rewrite <- IH. destruct x; cbn; intuition discriminate.
  - destruct (eval p a) as [x|]; [cbn [rbind]|discriminate]. specialize (IHa x eq_refl). destruct x.
    + intros H. rewrite (IHb r H). intuition.
    + intros [= <-]. intuition discriminate.
  - destruct (eval p a) as [x|]; [cbn [rbind]|discriminate]. specialize (IHa x eq_refl). destruct x.
    + intros [= <-]. intuition.
    + intros H. rewrite (IHb r H). intuition discriminate.
Qed.
Print Assumptions C83_conditions.

(** ** What may be called *)
Definition act_eqb (a b : action) : bool :=
  match a, b with
  | Always m f, Always m' f' | Maybe m f, Maybe m' f' => str_eqb m m' && str_eqb f f'
  | Says s, Says s' => str_eqb s s'
  | Nothing, Nothing => true
  | _, _ => false
  end.
Lemma act_eqb_eq a b : act_eqb a b = true -> a = b.
Proof. destruct a, b; cbn; try discriminate; rewrite ?andb_true_iff, ?str_eqb_eq; intuition congruence. Qed.
Definition same_answers (c : checker) : bool :=
  forallb (fun r => existsb (act_eqb (action_of r)) (Nothing :: answers c)) (rules_of c) && forallb (fun a => existsb (fun r => act_eqb (action_of r) a) (rules_of c)) (answers c).
Lemma same_ok : forallb same_answers all_checkers = true.
Proof. vm_compute. reflexivity. Qed.
(** To each question the answers are those listed, and each of them is given for some product. *)
Theorem C83_answers : forall c a, In a (answers c) <-> a <> Nothing /\ exists p, scalars p /\ texts p /\ check c p = Ok a.
Proof.
  intros c a. pose proof same_ok as K. rewrite forallb_forall in K. specialize (K c (all_in c)). unfold same_answers in K. apply andb_true_iff in K as [K1 K2]. rewrite forallb_forall in K1, K2. split.
  - intros H. split; [intros ->; destruct c; cbn in H; repeat (destruct H as [H|H]; [discriminate H|]); exact H|]. specialize (K2 a H). apply existsb_exists in K2 as (r & Hr & E). apply act_eqb_eq in E. subst a.
    apply In_nth_error in Hr as [i Hi]. destruct (C83_each_applies c i r Hi) as (p & S & T & E & _). exists p. now split.
  - intros (N & p & _ & _ & E). apply decide_from in E as [E|(r & Hr & Ha & _)]; [congruence|]. specialize (K1 r Hr). apply existsb_exists in K1 as (a' & [<-|Ha'] & E); apply act_eqb_eq in E; congruence.
Qed.
Print Assumptions C83_answers.
(** The rows of Huygens' spectra are the last of the file. *)
Theorem C83_huygens : forall p size rows row_bytes w, ident p $"ROW_BYTES" = PInt row_bytes -> ident p $"ROWS" = PInt rows -> huygens_rows (file p) row_bytes w ->
  exists start, cassini_get_offset p size = Ok start /\ (size - start = rows * w)%Z.
Proof.
  intros p size rows rb w H1 H2 [W1 W2]. unfold cassini_get_offset. rewrite H1, H2. eexists. split; [reflexivity|].
  destruct (existsb _ _) eqn:E.
  - rewrite W1; [lia|]. apply existsb_exists in E as (n & Hn & C). exists n. split; [assumption|now apply mentions_ok].
  - rewrite W2; [lia|]. intros (n & Hn & M). assert (X : existsb (fun w => contains w (file p)) [$"ULVS_DDP"; $"DLIS_AZ_DDP"; $"DLV_DDP"] = true) by (apply existsb_exists; exists n; split; [assumption|now apply mentions_ok]). congruence.
Qed.
Print Assumptions C83_huygens.

(** ** Cases that meet the hypotheses *)
Definition cond_ex : asked := mkAsked (fun f => if str_eqb f $"ROWS" then PInt 4 else if str_eqb f $"ROW_BYTES" then PInt 20 else PStr $"EDR-12.IMG")
  $"TABLE" $"/d/ULIS_DDP.TAB" (PMulti [($"COLUMN", PMulti [($"NAME", PStr $"X")])]) (fun _ => PTuple [PStr $"A"]) [$"TABLE"] PNone (fun _ => Err ValueError).
Example C83_conditions_meets :
  eval cond_ex (And (Ends (Ident $"FILE") $".IMG") (Matches (Ident $"FILE") [[Lit $"EDR"; Any; Several $"12"; Lit $"."]])) = Ok true /\
  eval cond_ex (Or (Starts File $"ULIS") (Has $"NAME" (BlockIn $"COLUMN" $"NAME"))) = Ok false.
Proof. split; vm_compute; reflexivity. Qed.
Example C83_answers_meets : In (Maybe $"cassini" $"get_offset") (answers Offset).
Proof. vm_compute. tauto. Qed.
Example C83_huygens_meets : ident cond_ex $"ROW_BYTES" = PInt 20 /\ ident cond_ex $"ROWS" = PInt 4 /\ huygens_rows (file cond_ex) 20 21 /\ cassini_get_offset cond_ex 100 = Ok 16%Z.
Proof.
  split; [reflexivity|]. split; [reflexivity|]. split; [|vm_compute; reflexivity]. split.
  - intros (n & Hn & M). exfalso. apply mentions_ok in M. destruct Hn as [<-|[<-|[<-|[]]]]; vm_compute in M; discriminate.
  - reflexivity.
Qed.
