(** Lemmas about blocks that are changed in place. *)
From Coq Require Import QArith ZArith Lia.
From Verif.Base Require Import Py PyFacts Val.
From Verif.Model Require Import PvlLiteral Blocks.
From Verif.Spec Require Import Blocks.
Open Scope Z_scope.

Definition of_key (k : str) (kv : str * pv) : bool := str_eqb (fst kv) k.
Lemma filter_none {A} (p : A -> bool) l : filter p l = [] -> filter (fun x => negb (p x)) l = l.
Proof.
  induction l as [|x l IH]; [reflexivity|]. cbn. destruct (p x); [discriminate|]. intros H. cbn. now rewrite IH.
Qed.
Lemma filter_drop {A} (p q : A -> bool) l : (forall x, p x = true -> q x = true) -> filter p (filter q l) = filter p l.
Proof.
  intros H. induction l as [|x l IH]; [reflexivity|]. cbn. destruct (q x) eqn:Q; cbn.
  - now rewrite IH.
  - destruct (p x) eqn:P; [rewrite (H x P) in Q; discriminate|exact IH].
Qed.
Lemma filter_not {A} (p : A -> bool) l : filter p (filter (fun x => negb (p x)) l) = [].
Proof. induction l as [|x l IH]; [reflexivity|]. cbn. destruct (p x) eqn:P; cbn; [exact IH|now rewrite P]. Qed.

Lemma set_same b k v : filter (of_key k) (multi_set b k v) = [(k, v)].
Proof.
  induction b as [|kv b IH]; cbn [multi_set].
  - cbn. unfold of_key. cbn. now rewrite str_eqb_refl.
  - destruct (str_eqb (fst kv) k) eqn:E; cbn [filter]; unfold of_key at 1; cbn [fst].
    + rewrite str_eqb_refl. f_equal. apply (filter_not (of_key k)).
    + rewrite E. exact IH.
Qed.
Lemma set_other b k v k' : k' <> k -> filter (of_key k') (multi_set b k v) = filter (of_key k') b.
Proof.
  intros N. assert (F : str_eqb k k' = false) by (apply str_eqb_neq; congruence).
  induction b as [|kv b IH]; cbn [multi_set].
  - cbn. unfold of_key. cbn. now rewrite F.
  - destruct (str_eqb (fst kv) k) eqn:E; cbn [filter].
    + apply str_eqb_eq in E. unfold of_key at 1. cbn [fst]. rewrite F. unfold of_key at 2. rewrite E, F.
      apply (filter_drop (of_key k')). intros x Hx. unfold of_key in Hx. apply str_eqb_eq in Hx. rewrite Hx.
      apply negb_true_iff, str_eqb_neq. exact N.
    + now rewrite IH.
Qed.
Lemma set_again b k v : filter (of_key k) b = [(k, v)] -> multi_set b k v = b.
Proof.
  induction b as [|kv b IH]; [discriminate|]. cbn [filter multi_set]. unfold of_key at 1.
  destruct (str_eqb (fst kv) k) eqn:E.
  - intros H. injection H as -> H. f_equal. now apply (filter_none (of_key k)).
  - intros H. f_equal. now apply IH.
Qed.
Lemma values_filter b k : values b k = map snd (filter (of_key k) b).
Proof. reflexivity. Qed.
Lemma values_set b k v : values (multi_set b k v) k = [v].
Proof. now rewrite values_filter, set_same. Qed.
Lemma values_set_other b k v k' : k' <> k -> values (multi_set b k v) k' = values b k'.
Proof. intros N. now rewrite !values_filter, set_other. Qed.
Lemma md_get_values b k : md_get b k = hd_error (values b k).
Proof.
  unfold md_get, values. induction b as [|kv b IH]; [reflexivity|]. cbn. destruct (str_eqb (fst kv) k); [reflexivity|exact IH].
Qed.
Lemma md_has_values b k : md_has b k = match values b k with [] => false | _ => true end.
Proof.
  unfold md_has, values. induction b as [|kv b IH]; [reflexivity|]. cbn. destruct (str_eqb (fst kv) k); [reflexivity|exact IH].
Qed.
Lemma get_set b k v : md_get (multi_set b k v) k = Some v.
Proof. now rewrite md_get_values, values_set. Qed.
Lemma get_set_other b k v k' : k' <> k -> md_get (multi_set b k v) k' = md_get b k'.
Proof. intros N. now rewrite !md_get_values, values_set_other. Qed.

(** *** Code that does nothing the second time *)
Definition once {A} (m : upd A) : Prop := forall b b' a, m b = (b', Ok a) -> exists a', m b' = (b', Ok a').
(** a key with exactly this value *)
Definition fixed (k : str) (v : pv) (b : multidict) : Prop := filter (of_key k) b = [(k, v)].
Lemma once_set k v : once (set k v).
Proof. intros b b' a H. injection H as <- _. exists tt. unfold set. now rewrite (set_again (multi_set b k v)) by apply set_same. Qed.

Lemma inside_once {A} (f : upd A) v v' a : once f -> inside f v = (v', Ok a) -> exists a', inside f v' = (v', Ok a').
Proof.
  intros F. destruct v; try discriminate. cbn. destruct (f kvs) as [c r] eqn:E. intros H. injection H as <- ->.
  destruct (F _ _ _ E) as (a' & E'). exists a'. cbn. now rewrite E'.
Qed.
Lemma inside_multi {A} (f : upd A) v v' a : inside f v = (v', Ok a) -> exists c c', v = PMulti c /\ v' = PMulti c' /\ f c = (c', Ok a).
Proof. destruct v; try discriminate. cbn. destruct (f kvs) as [c r] eqn:E. intros H. injection H as <- ->. eauto. Qed.
Lemma nth_once f : once f -> forall b e n k b' a, nth_of e n k f b = (b', Ok a) -> exists a', nth_of e n k f b' = (b', Ok a').
Proof.
  intros F. induction b as [|[k' v] b IH]; [discriminate|]. intros e n k b' a. cbn [nth_of]. destruct (str_eqb k' k) eqn:E.
  - destruct n as [|n].
    + destruct (inside f v) as [v' r] eqn:I. intros H. injection H as <- ->. destruct (inside_once _ _ _ _ F I) as (a' & I'). exists a'. cbn [nth_of]. now rewrite E, I'.
    + destruct (nth_of IndexError n k f b) as [c r] eqn:N. intros H. injection H as <- ->. destruct (IH _ _ _ _ _ N) as (a' & N'). exists a'. cbn [nth_of]. now rewrite E, N'.
  - destruct (nth_of e n k f b) as [c r] eqn:N. intros H. injection H as <- ->. destruct (IH _ _ _ _ _ N) as (a' & N'). exists a'. cbn [nth_of]. now rewrite E, N'.
Qed.
Lemma once_within n k f : once f -> once (within_nth n k f).
Proof. intros F b b' a. apply nth_once, F. Qed.
Lemma once_each f : once f -> once (each_column f).
Proof.
  intros F b. induction b as [|kv b IH]; intros b' a; cbn [each_column].
  - intros H. injection H as <- <-. now exists tt.
  - destruct (is_column kv) eqn:C.
    + destruct (inside f (snd kv)) as [v' r] eqn:I. destruct r as [u|e]; [|discriminate].
      destruct (each_column f b) as [b1 r] eqn:N. intros H. injection H as <- ->. destruct (IH _ _ eq_refl) as (a' & N').
      destruct (inside_once _ _ _ _ F I) as (u' & I'). exists a'. cbn [each_column].
      assert (C' : is_column (fst kv, v') = true).
      { destruct (inside_multi _ _ _ _ I) as (c & c' & E & -> & _). unfold is_column in *. cbn [fst snd] in *. rewrite E in C. exact C. }
      rewrite C'. cbn [fst snd]. now rewrite I', N'.
    + destruct (each_column f b) as [b1 r] eqn:N. intros H. injection H as <- ->. destruct (IH _ _ eq_refl) as (a' & N').
      exists a'. cbn [each_column]. now rewrite C, N'.
Qed.

Definition settled {A} (m : upd A) (b : multidict) : Prop := exists a, m b = (b, Ok a).
Lemma settled_set k v b : fixed k v b -> settled (set k v) b.
Proof. intros F. exists tt. unfold set. now rewrite set_again. Qed.
Lemma fixed_set k v b : fixed k v (multi_set b k v).
Proof. apply set_same. Qed.
Lemma fixed_other k v k' v' b : k <> k' -> fixed k v b -> fixed k v (multi_set b k' v').
Proof. intros N F. unfold fixed. now rewrite set_other. Qed.
Lemma eq_text_true v s : eq_text v s = true -> v = PStr s.
Proof. destruct v; try discriminate. cbn. intros H. now apply str_eqb_eq in H as ->. Qed.
Lemma text_in_res {s v b b' r} : text_in s v b = (b', Ok r) -> b' = b /\ exists x, v = PStr x /\ r = contains s x.
Proof. destruct v; try discriminate. cbn. intros H. injection H as <- <-. eauto. Qed.
Lemma get_res {k b b' v} : get k b = (b', Ok v) -> b' = b /\ md_get b k = Some v.
Proof. unfold get. destruct (md_get b k) as [x|]; intros H; [|discriminate]. injection H as <- <-. now split. Qed.
Lemma get_some k b v : md_get b k = Some v -> get k b = (b, Ok v).
Proof. unfold get. now intros ->. Qed.
Lemma bind_ok {A B} (m : upd A) (f : A -> upd B) b b' r : bind m f b = (b', Ok r) -> exists b1 a, m b = (b1, Ok a) /\ f a b1 = (b', Ok r).
Proof. unfold bind. destruct (m b) as [b1 [a|e]]; intros H; [eauto|discriminate]. Qed.
Lemma bind_eq {A B} (m : upd A) (f : A -> upd B) b b1 a : m b = (b1, Ok a) -> bind m f b = f a b1.
Proof. unfold bind. now intros ->. Qed.

(** conditional assignment that depends on another keyword *)
Lemma once_named (k k' : str) (x y : str) (v w : pv) : k <> k' -> x <> y ->
  once (n <~ get k;; when (eq_text n x) (set k' v);;; n <~ get k;; when (eq_text n y) (set k' w)).
Proof.
  intros N D b b' a H. exists tt.
  apply bind_ok in H as (b1 & n & G & H). apply get_res in G as [-> G].
  apply bind_ok in H as (b2 & u & S1 & H). apply bind_ok in H as (b3 & n2 & G2 & H). apply get_res in G2 as [-> G2].
  destruct (eq_text n x) eqn:E.
  - cbn in S1. injection S1 as <- _. rewrite get_set_other in G2 by exact N. rewrite G in G2. injection G2 as <-.
    apply eq_text_true in E as ->. assert (F : eq_text (PStr x) y = false) by (cbn; now apply str_eqb_neq). rewrite F in H. cbn in H. injection H as <- <-.
    assert (G' : md_get (multi_set b k' v) k = Some (PStr x)) by (now rewrite get_set_other).
    rewrite (bind_eq _ _ _ _ _ (get_some _ _ _ G')). cbn [eq_text]. rewrite str_eqb_refl. cbn [when]. unfold set at 1.
    rewrite (bind_eq _ _ _ _ _ eq_refl). rewrite set_again by apply set_same. rewrite (bind_eq _ _ _ _ _ (get_some _ _ _ G')).
    cbn [eq_text] in *. rewrite F. reflexivity.
  - cbn in S1. injection S1 as <- _. rewrite G in G2. injection G2 as <-. destruct (eq_text n y) eqn:E2; cbn in H; injection H as <- <-.
    + assert (G' : md_get (multi_set b k' w) k = Some n) by (now rewrite get_set_other).
      rewrite (bind_eq _ _ _ _ _ (get_some _ _ _ G')), E. cbn [when]. rewrite (bind_eq _ _ _ _ _ eq_refl).
      rewrite (bind_eq _ _ _ _ _ (get_some _ _ _ G')), E2. cbn [when]. unfold set. rewrite set_again by apply set_same. reflexivity.
    + rewrite (bind_eq _ _ _ _ _ (get_some _ _ _ G)), E. cbn [when]. rewrite (bind_eq _ _ _ _ _ eq_refl).
      rewrite (bind_eq _ _ _ _ _ (get_some _ _ _ G)), E2. reflexivity.
Qed.
Lemma each_other k f b : str_eqb k $"COLUMN" = false -> forall b' r, each_column f b = (b', Ok r) -> filter (of_key k) b' = filter (of_key k) b.
Proof.
  intros K. assert (W : str_eqb $"COLUMN" k = false) by (apply str_eqb_neq; apply str_eqb_neq in K; congruence).
  induction b as [|kv b IH]; intros b' r; cbn [each_column].
  - intros H. injection H as <- <-. reflexivity.
  - destruct (is_column kv) eqn:C.
    + destruct (inside f (snd kv)) as [v' q] eqn:I. destruct q as [u|e]; [|discriminate].
      destruct (each_column f b) as [b1 q] eqn:N. intros H. injection H as <- ->.
      destruct (inside_multi _ _ _ _ I) as (c & c' & E & -> & _).
      unfold is_column in C. rewrite E, orb_false_r in C. apply str_eqb_eq in C.
      assert (O : forall v, of_key k (fst kv, v) = false) by (intros v; unfold of_key; cbn [fst]; now rewrite C).
      assert (O' : of_key k kv = false) by (unfold of_key; now rewrite C).
      cbn [filter]. rewrite O, O'. apply (IH _ _ eq_refl).
    + destruct (each_column f b) as [b1 q] eqn:N. intros H. injection H as <- ->. cbn [filter].
      destruct (of_key k kv); [f_equal|]; apply (IH _ _ eq_refl).
Qed.
(** two steps: the second one leaves alone what the first has done *)
Lemma once_seq {A} (m1 : upd unit) (m2 : upd A) :
  once m1 -> once m2 -> (forall b b' a, settled m1 b -> m2 b = (b', Ok a) -> settled m1 b') -> once (m1;;; m2).
Proof.
  intros O1 O2 K b b' a H. apply bind_ok in H as (b1 & u & E1 & E2).
  destruct (O1 _ _ _ E1) as (u' & S1). destruct (O2 _ _ _ E2) as (a' & S2).
  destruct (K b1 b' a (ex_intro _ u' S1) E2) as (u2 & T). exists a'. rewrite (bind_eq _ _ _ _ _ T). exact S2.
Qed.
Lemma settled_fixed k v b : settled (set k v) b <-> fixed k v b.
Proof.
  split.
  - intros (a & H). unfold set in H. injection H as E _. unfold fixed. rewrite <- E. apply set_same.
  - apply settled_set.
Qed.
Lemma keeps_set k v k' v' : k <> k' -> forall b b' a, settled (set k v) b -> set k' v' b = (b', Ok a) -> settled (set k v) b'.
Proof. intros N b b' a S H. injection H as <- _. apply settled_fixed. apply fixed_other; [exact N|]. now apply settled_fixed. Qed.
Lemma keeps_seq {A B} (m : upd unit) (m1 : upd A) (m2 : upd B) :
  (forall b b' a, settled m b -> m1 b = (b', Ok a) -> settled m b') -> (forall b b' a, settled m b -> m2 b = (b', Ok a) -> settled m b') ->
  forall b b' a, settled m b -> (m1;;; m2) b = (b', Ok a) -> settled m b'.
Proof. intros K1 K2 b b' a S H. apply bind_ok in H as (b1 & u & E1 & E2). eauto. Qed.
Lemma keeps_each k v f : str_eqb k $"COLUMN" = false -> forall b b' a, settled (set k v) b -> each_column f b = (b', Ok a) -> settled (set k v) b'.
Proof. intros K b b' a S H. apply settled_fixed. unfold fixed. rewrite (each_other k f b K _ _ H). now apply settled_fixed in S. Qed.
Lemma once_ret {A} (a : A) : once (ret a).
Proof. intros b b' x H. injection H as <- <-. now exists a. Qed.
Lemma once_if {A} (c : bool) (m1 m2 : upd A) : once m1 -> once m2 -> once (if c then m1 else m2).
Proof. now destruct c. Qed.
(** where both steps work inside the same block *)
Lemma nth_settled (m : upd unit) b : forall e n k b' a, nth_of e n k m b = (b', Ok a) -> once m -> settled (within_nth n k m) b' \/ e <> KeyError.
Proof. intros e n k b' a H O. destruct e; try (now right). left. destruct (nth_once m O b _ n k b' a H) as (a' & E). now exists a'. Qed.
(** after reading, the metadata holds a block that any further reading leaves alone *)
Definition plain (h : handler) (c : context) : Prop :=
  forall b b' r, h c b = (b', Ok r) -> snd r = None /\ exists fl, h c b' = (b', Ok (fl, None)).
Lemma plain_special c (m : upd unit) : once m -> plain (fun _ => special m) c.
Proof.
  intros O b b' r H. apply bind_ok in H as (b1 & u & E & R). injection R as <- <-. split; [reflexivity|]. exists true.
  destruct (O _ _ _ E) as (u' & E'). unfold special. now rewrite (bind_eq _ _ _ _ _ E').
Qed.
Lemma plain_ext (h h' : handler) c : (forall b, h c b = h' c b) -> plain h c -> plain h' c.
Proof. intros E P b b' r H. rewrite <- E in H. destruct (P _ _ _ H) as (S & fl & Q). split; [exact S|]. exists fl. now rewrite <- E. Qed.
Lemma query_again h c b b' x : plain h c -> query h c b = (b', Ok x) -> x = b' /\ query h c b' = (b', Ok b').
Proof.
  intros P. unfold query. destruct (h c b) as [b1 [r|e]] eqn:E; [|discriminate]. destruct (P _ _ _ E) as (Sn & fl & Q). destruct r as [f o]. cbn in Sn. subst o.
  intros H. assert (b1 = b' /\ b1 = x) as [<- <-]. { destruct f; injection H as <- <-; now split. }
  split; [reflexivity|]. rewrite Q. now destruct fl.
Qed.
Lemma after_same h c b : query h c b = (b, Ok b) -> forall n, after h c n b = b.
Proof. intros E n. induction n as [|n IH]; [reflexivity|]. cbn [after]. rewrite E. exact IH. Qed.

Lemma neq_by a b : str_eqb a b = false -> a <> b.
Proof. now apply str_eqb_neq. Qed.
Lemma plain_mag c : plain mag_special_block c. Proof. apply plain_special, once_set. Qed.
Lemma plain_ionbr c : plain pls_ionbr_special_block c. Proof. apply plain_special, once_set. Qed.
Lemma plain_orpa c : plain orpa_low_res_loader c. Proof. apply plain_special, once_set. Qed.
Lemma plain_oims c : plain oims_12s_loader c. Proof. exact (plain_special c _ (once_set $"ROWS" (metaget c $"FILE_RECORDS"))). Qed.
Lemma plain_epd c : plain epd_special_block c. Proof. exact (plain_special c _ (once_set $"ROW_BYTES" (metaget c $"RECORD_BYTES"))). Qed.
Lemma once_sets2 k v k' v' : str_eqb k k' = false -> once (set k v;;; set k' v').
Proof. intros N. apply once_seq; try apply once_set. apply keeps_set, neq_by, N. Qed.
Lemma plain_mini c : plain mini_rf_image_loader c. Proof. apply plain_special, once_sets2. reflexivity. Qed.
Lemma plain_msl c : plain msl_edr_special_block c.
Proof.
  apply plain_special. repeat (apply once_seq; [apply once_set| |]); try apply once_set;
  repeat (apply keeps_seq; [apply keeps_set, neq_by; reflexivity|]); apply keeps_set, neq_by; reflexivity.
Qed.
Lemma plain_mariner c : plain mariner_special_block c. Proof. apply plain_special, once_within, once_set. Qed.
Lemma plain_avg c : plain pls_avg_special_block c.
Proof.
  intros b b' r H. apply bind_ok in H as (b1 & v & G & H). apply get_res in G as [-> G]. unfold pls_avg_special_block. destruct (eq_text v _) eqn:E.
  - cbn in H. injection H as <- <-. split; [reflexivity|]. exists true. erewrite bind_eq; [|apply get_some; rewrite get_set_other; [exact G|now apply neq_by]].
    rewrite E. unfold special, set. rewrite (bind_eq _ _ _ _ _ eq_refl). rewrite set_again by apply set_same. reflexivity.
  - cbn in H. injection H as <- <-. split; [reflexivity|]. exists false. rewrite (bind_eq _ _ _ _ _ (get_some _ _ _ G)), E. reflexivity.
Qed.
Lemma plain_fine c : plain pls_fine_special_block c.
Proof.
  intros b b' r H. apply bind_ok in H as (b1 & v & G & H). apply get_res in G as [-> G]. unfold pls_fine_special_block. destruct (eq_int v 57) eqn:E.
  - cbn in H. injection H as <- <-. split; [reflexivity|]. exists false. erewrite bind_eq; [|apply get_some, get_set]. reflexivity.
  - cbn in H. injection H as <- <-. split; [reflexivity|]. exists false. rewrite (bind_eq _ _ _ _ _ (get_some _ _ _ G)), E. reflexivity.
Qed.
Lemma set_set b k v v' : multi_set (multi_set b k v) k v' = multi_set b k v'.
Proof.
  induction b as [|kv b IH]; cbn [multi_set fst filter].
  - now rewrite str_eqb_refl.
  - destruct (str_eqb (fst kv) k) eqn:E; cbn [multi_set fst]; [rewrite str_eqb_refl|rewrite E; now rewrite IH].
    f_equal. apply (filter_none (fun kv => str_eqb (fst kv) k)). apply (filter_not (of_key k)).
Qed.
Lemma plain_pws c : plain pws_special_block c.
Proof.
  destruct (metaget c $"PRODUCT_ID") as [|b0|z0|q0|s|l0|l0|l0|l0] eqn:M;
  try (intros b b' r H; unfold pws_special_block in H; rewrite M in H; unfold special, bind in H; cbn [text_in] in H; unfold raise in H; discriminate H).
  apply (plain_ext (fun _ => special (when (contains $"B.TAB" s) (set $"ROW_BYTES" (PInt 366));;; when (contains $"E.TAB" s) (set $"ROW_BYTES" (PInt 516))))).
  { intros b. unfold pws_special_block. rewrite M. reflexivity. }
  apply plain_special. intros b b' a H. exists tt. destruct (contains _ s), (contains _ s); cbn in *; injection H as <- _; unfold bind, set, ret; rewrite ?set_set; reflexivity.
Qed.

Lemma once_ihw : once (each_column (
  v <~ get $"START_BYTE";; h <~ (if eq_int v 17 then has $"NAME" else ret true);; when (negb h) (add $"NAME" (PStr $">=1SEC"));;;
  v <~ get $"START_BYTE";; h <~ (if eq_int v 21 then has $"NAME" else ret true);; when (negb h) (add $"NAME" (PStr $">=8SEC")))).
Proof.
  apply once_each. intros b b' a H. exists tt.
  apply bind_ok in H as (b1 & v & G & H). apply get_res in G as [-> G].
  assert (AG : forall x, md_get (md_add b $"NAME" x) $"START_BYTE" = Some v).
  { intros x. rewrite md_get_values in *. unfold md_add, values in *. rewrite filter_app, map_app. cbn [filter fst]. change (str_eqb $"NAME" $"START_BYTE") with false. cbn iota. cbn [map]. now rewrite app_nil_r. }
  assert (AH : forall x, md_has (md_add b $"NAME" x) $"NAME" = true).
  { intros x. unfold md_add, md_has. rewrite existsb_app. cbn [existsb fst]. rewrite str_eqb_refl. now rewrite orb_true_r. }
  assert (DONE : forall b0, md_get b0 $"START_BYTE" = Some v -> (eq_int v 17 = true -> md_has b0 $"NAME" = true) -> (eq_int v 21 = true -> md_has b0 $"NAME" = true) ->
    (v <~ get $"START_BYTE";; h <~ (if eq_int v 17 then has $"NAME" else ret true);; when (negb h) (add $"NAME" (PStr $">=1SEC"));;;
     v <~ get $"START_BYTE";; h <~ (if eq_int v 21 then has $"NAME" else ret true);; when (negb h) (add $"NAME" (PStr $">=8SEC"))) b0 = (b0, Ok tt)).
  { intros b0 G0 H17 H21. rewrite (bind_eq _ _ _ _ _ (get_some _ _ _ G0)).
    assert (T : forall z, (eq_int v z = true -> md_has b0 $"NAME" = true) -> (if eq_int v z then has $"NAME" else ret true) b0 = (b0, Ok true)).
    { intros z Hz. destruct (eq_int v z); [unfold has; now rewrite Hz|reflexivity]. }
    rewrite (bind_eq _ _ _ _ _ (T 17 H17)). cbn [negb when]. rewrite (bind_eq (ret tt) _ b0 b0 tt eq_refl).
    rewrite (bind_eq _ _ _ _ _ (get_some _ _ _ G0)). rewrite (bind_eq _ _ _ _ _ (T 21 H21)). reflexivity. }
  apply bind_ok in H as (b2 & h & Hh & H). apply bind_ok in H as (b3 & u & Hw & H). apply bind_ok in H as (b4 & v2 & G2 & H). apply get_res in G2 as [-> G2].
  apply bind_ok in H as (b5 & h2 & Hh2 & H).
  assert (B2 : b2 = b /\ (eq_int v 17 = true -> h = md_has b $"NAME") /\ (eq_int v 17 = false -> h = true)).
  { destruct (eq_int v 17); injection Hh as <- <-; repeat split; discriminate. }
  destruct B2 as (-> & B2 & B2').
  assert (B5 : b5 = b3 /\ (eq_int v2 21 = true -> h2 = md_has b3 $"NAME") /\ (eq_int v2 21 = false -> h2 = true)).
  { destruct (eq_int v2 21); injection Hh2 as <- <-; repeat split; discriminate. }
  destruct B5 as (-> & B5 & B5').
  destruct h; cbn [negb when] in Hw.
  - injection Hw as <- _. rewrite G in G2. injection G2 as <-. destruct h2; cbn [negb when] in H; injection H as <- _.
    + apply DONE; [exact G| |]; intros E; [now rewrite <- B2|now rewrite <- B5].
    + apply DONE; [apply AG| |]; intros _; apply AH.
  - injection Hw as <- _. rewrite AG in G2. injection G2 as <-. destruct h2; cbn [negb when] in H; injection H as <- _.
    + apply DONE; [apply AG| |]; intros _; apply AH.
    + destruct (eq_int v 21) eqn:E; [|discriminate (B5' eq_refl)]. specialize (B5 eq_refl). rewrite AH in B5. discriminate.
Qed.
Lemma plain_ihw c : plain ihw_special_block c. Proof. apply plain_special, once_ihw. Qed.
Lemma plain_if (h1 h2 : handler) c (t : bool) : plain h1 c -> plain h2 c -> plain (fun c => if t then h1 c else h2 c) c.
Proof. now destruct t. Qed.
Lemma plain_false c : plain (fun _ => unless_false) c.
Proof. intros b b' r H. injection H as <- <-. split; [reflexivity|]. now exists false. Qed.
Lemma plain_pfs c : plain pfs_edr_special_block c.
Proof.
  set (body := fun early : bool => if early then special (
    set $"ROWS" (metaget c $"FILE_RECORDS");;;
    each_column (
      v <~ get $"NAME";; when (eq_text v $"OBT OBSERVATION TIME") (set $"DATA_TYPE" (PStr $"PC_REAL"));;;
      v <~ get $"NAME";; when (eq_text v $"SCET OBSERVATION TIME") (set $"DATA_TYPE" (PStr $"PC_UNSIGNED_INTEGER"))))
  else unless_false).
  assert (P : forall e, plain (fun _ => body e) c).
  { intros [|]; [|apply plain_false]. apply plain_special. apply once_seq; [apply once_set| |].
    - apply once_each, once_named; apply neq_by; reflexivity.
    - apply keeps_each. reflexivity. }
  assert (Q : exists r : res bool, forall b, pfs_edr_special_block c b = match r with Ok e => body e b | Err x => (b, Err x) end).
  { unfold pfs_edr_special_block. destruct (eq_text (metaget c $"ORBIT_NUMBER") $"N/A").
    - exists (Ok true). intros b. reflexivity.
    - destruct (metaget c $"ORBIT_NUMBER") as [|b0|z0|q0|s0|l0|l0|l0|l0]; cbn [int_of];
      try (exists (Err TypeError); intros b; reflexivity).
      + exists (Ok (z0 <? 8945)). intros b. reflexivity.
      + exists (Ok (Z.quot (Qnum q0) (Zpos (Qden q0)) <? 8945)). intros b. reflexivity.
      + destruct (py_int 10 s0) as [z|x] eqn:E.
        * exists (Ok (z <? 8945)). intros b. unfold bind. rewrite ?E. reflexivity.
        * exists (Err x). intros b. unfold bind. rewrite ?E. reflexivity. }
  destruct Q as ([e|x] & Q).
  - apply (plain_ext (fun _ => body e)); [|apply P]. intros b. now rewrite Q.
  - intros b b' r H. rewrite Q in H. discriminate.
Qed.
Lemma filter_idem b k : multi_del (multi_del b k) k = multi_del b k.
Proof. unfold multi_del. apply (filter_drop (fun kv => negb (str_eqb (fst kv) k))). auto. Qed.
Lemma values_del b k : values (multi_del b k) k = [].
Proof. unfold values, multi_del. now rewrite (filter_not (fun kv => str_eqb (fst kv) k)). Qed.
Lemma values_del_other b k k' : k' <> k -> values (multi_del b k) k' = values b k'.
Proof.
  intros N. unfold values, multi_del. f_equal. apply (filter_drop (fun kv => str_eqb (fst kv) k')). intros x Hx. apply str_eqb_eq in Hx. rewrite Hx.
  apply negb_true_iff, str_eqb_neq. exact N.
Qed.
Lemma plain_da c : plain iss_calib_da_special_block c.
Proof.
  intros b b' r H. unfold iss_calib_da_special_block, bind, has in *. destruct (md_has b $"LINE_PREFIX_BYTES") eqn:E.
  - unfold special, bind, del in H. rewrite E in H. injection H as <- <-. split; [reflexivity|]. exists false. rewrite md_has_values, values_del. reflexivity.
  - injection H as <- <-. split; [reflexivity|]. exists false. rewrite E. reflexivity.
Qed.
Lemma last_no_slash s : contains $"/" (last (split_on "/"%char s) []) = false.
Proof.
  destruct (contains _ _) eqn:E; [|reflexivity]. exfalso. apply contains_iff in E as (x & y & E).
  assert (I : In "/"%char (last (split_on "/"%char s) [])) by (rewrite E; apply in_app_iff; right; now left).
  clear E. assert (A : forall w, In w (split_on "/"%char s) -> ~ In "/"%char w).
  { clear. induction s as [|a s IH]; cbn [split_on].
    - intros w [<- | []] [].
    - destruct (Ascii.eqb a "/") eqn:E.
      + intros w [<- | H]; [intros []|now apply IH].
      + destruct (split_on "/" s) as [|v l] eqn:D; intros w; [intros [<- | []]|intros [<- | H]].
        * intros [-> | []]. discriminate.
        * intros [-> | H]; [discriminate|]. now apply (IH v (or_introl eq_refl)).
        * apply IH. now right. }
  assert (L : forall (l : list str), ~ In "/"%char (last l []) \/ In (last l []) l).
  { induction l as [|v l [Hl|Hl]]; [left; intros []| |]; destruct l; [right; now left|left; exact Hl|destruct Hl|right; right; exact Hl]. }
  destruct (L (split_on "/"%char s)) as [N|N]; [exact (N I)|exact (A _ N I)].
Qed.
Lemma plain_iss c : plain iss_edr_special_block c.
Proof.
  assert (STEP : forall (nm k : str) (rest : handler), plain rest c ->
    (str_eqb (name c) nm = true -> forall b, rest c b = (b, Ok (false, None))) ->
    plain (fun c => p <~ (if str_eqb (name c) nm then v <~ get k;; text_in $"/" v else ret false);;
                    if p then special (v <~ get k;; set k (last_part v)) else rest c) c).
  { intros nm k rest P Q b b' r. destruct (str_eqb (name c) nm) eqn:E.
    - intros H. apply bind_ok in H as (b1 & p & Hp & H). apply bind_ok in Hp as (b2 & v & G & T). apply get_res in G as [-> G]. apply text_in_res in T as (-> & x & -> & ->).
      destruct (contains $"/" x) eqn:CX.
      + apply bind_ok in H as (b3 & u & S1 & R). apply bind_ok in S1 as (b4 & v & G' & S1). apply get_res in G' as [-> G']. rewrite G in G'. injection G' as <-.
        injection S1 as <- _. injection R as <- <-. split; [reflexivity|]. exists false.
        unfold bind at 1 2. rewrite (get_some _ _ _ (get_set b k _)). cbn [last_part text_in]. unfold ret at 1. rewrite last_no_slash. apply Q. reflexivity.
      + rewrite (Q eq_refl) in H. injection H as <- <-. split; [reflexivity|]. exists false. unfold bind at 1 2. rewrite (get_some _ _ _ G). cbn [text_in]. unfold ret at 1. rewrite CX. apply Q. reflexivity.
    - intros H. apply bind_ok in H as (b1 & p & Hp & H). injection Hp as <- <-. destruct (P _ _ _ H) as (Sn & fl & R). split; [exact Sn|]. exists fl. unfold bind at 1. unfold ret at 1. exact R. }
  apply (STEP $"LINE_PREFIX_TABLE" $"^LINE_PREFIX_STRUCTURE" (fun c => telemetry <~ (if str_eqb (name c) $"TELEMETRY_TABLE" then v <~ get $"^STRUCTURE";; text_in $"/" v else ret false);;
    if telemetry then special (v <~ get $"^STRUCTURE";; set $"^STRUCTURE" (last_part v)) else unless_false)).
  - apply (STEP $"TELEMETRY_TABLE" $"^STRUCTURE" (fun _ => unless_false)); [apply plain_false|reflexivity].
  - intros E b. apply str_eqb_eq in E. rewrite E. reflexivity.
Qed.
Definition kept {A} (f : upd unit) (g : upd A) : Prop := forall b b' a, settled f b -> g b = (b', Ok a) -> settled f b'.
Lemma nth_keeps f g : kept f g -> forall b e e' n k b' a a0, nth_of e n k f b = (b, Ok a0) -> nth_of e' n k g b = (b', Ok a) -> exists a1, nth_of e n k f b' = (b', Ok a1).
Proof.
  intros K. induction b as [|[k' v] b IH]; [discriminate|]. intros e e' n k b' a a0. cbn [nth_of]. destruct (str_eqb k' k) eqn:E.
  - destruct n as [|n].
    + destruct (inside f v) as [vf rf] eqn:F. destruct (inside g v) as [vg rg] eqn:G. intros H1 H2. injection H1 as -> ->. injection H2 as <- ->.
      destruct (inside_multi _ _ _ _ F) as (c & c' & -> & Ec & F'). injection Ec as <-.
      destruct (inside_multi _ _ _ _ G) as (c1 & c2 & Ec & -> & G'). injection Ec as <-.
      destruct (K _ _ _ (ex_intro _ _ F') G') as (a1 & S1). exists a1. cbn [nth_of]. rewrite E. cbn [inside]. now rewrite S1.
    + destruct (nth_of IndexError n k f b) as [bf rf] eqn:F. destruct (nth_of IndexError n k g b) as [bg rg] eqn:G. intros H1 H2. injection H1 as -> ->. injection H2 as <- ->.
      destruct (IH _ _ _ _ _ _ _ F G) as (a1 & S1). exists a1. cbn [nth_of]. now rewrite E, S1.
  - destruct (nth_of e n k f b) as [bf rf] eqn:F. destruct (nth_of e' n k g b) as [bg rg] eqn:G. intros H1 H2. injection H1 as -> ->. injection H2 as <- ->.
    destruct (IH _ _ _ _ _ _ _ F G) as (a1 & S1). exists a1. cbn [nth_of]. now rewrite E, S1.
Qed.
Lemma nth_keeps_diff f g : forall b e e' n m k b' a a0, n <> m -> nth_of e n k f b = (b, Ok a0) -> nth_of e' m k g b = (b', Ok a) -> exists a1, nth_of e n k f b' = (b', Ok a1).
Proof.
  induction b as [|[k' v] b IH]; [discriminate|]. intros e e' n m k b' a a0 N. cbn [nth_of]. destruct (str_eqb k' k) eqn:E.
  - destruct n as [|n], m as [|m]; [congruence| | |].
    + destruct (inside f v) as [vf rf] eqn:F. destruct (nth_of IndexError m k g b) as [bg rg] eqn:G. intros H1 H2. injection H1 as -> ->. injection H2 as <- ->.
      exists a0. cbn [nth_of]. now rewrite E, F.
    + destruct (nth_of IndexError n k f b) as [bf rf] eqn:F. destruct (inside g v) as [vg rg] eqn:G. intros H1 H2. injection H1 as -> ->. injection H2 as <- ->.
      exists a0. cbn [nth_of]. now rewrite E, F.
    + destruct (nth_of IndexError n k f b) as [bf rf] eqn:F. destruct (nth_of IndexError m k g b) as [bg rg] eqn:G. intros H1 H2. injection H1 as -> ->. injection H2 as <- ->.
      assert (N' : n <> m) by congruence. destruct (IH _ _ _ _ _ _ _ _ N' F G) as (a1 & S1). exists a1. cbn [nth_of]. now rewrite E, S1.
  - destruct (nth_of e n k f b) as [bf rf] eqn:F. destruct (nth_of e' m k g b) as [bg rg] eqn:G. intros H1 H2. injection H1 as -> ->. injection H2 as <- ->.
    destruct (IH _ _ _ _ _ _ _ _ N F G) as (a1 & S1). exists a1. cbn [nth_of]. now rewrite E, S1.
Qed.
Lemma nth_other k0 k g : k0 <> k -> forall b e n b' a, nth_of e n k g b = (b', Ok a) -> filter (of_key k0) b' = filter (of_key k0) b.
Proof.
  intros N. assert (W : str_eqb k k0 = false) by (apply str_eqb_neq; congruence).
  induction b as [|[k' v] b IH]; [discriminate|]. intros e n b' a. cbn [nth_of]. destruct (str_eqb k' k) eqn:E.
  - apply str_eqb_eq in E as ->. assert (O : forall w, of_key k0 (k, w) = false) by (intros w; exact W). destruct n as [|n].
    + destruct (inside g v) as [vg rg] eqn:G. intros H. injection H as <- ->. cbn [filter]. now rewrite !O.
    + destruct (nth_of IndexError n k g b) as [bg rg] eqn:G. intros H. injection H as <- ->. cbn [filter]. rewrite !O. now apply (IH _ _ _ _ G).
  - destruct (nth_of e n k g b) as [bg rg] eqn:G. intros H. injection H as <- ->. cbn [filter]. now rewrite (IH _ _ _ _ G).
Qed.
Lemma kept_set k v n k' g : str_eqb k k' = false -> kept (set k v) (within_nth n k' g).
Proof. intros N b b' a S H. apply settled_fixed. unfold fixed. rewrite (nth_other k k' g (neq_by _ _ N) _ _ _ _ _ H). now apply settled_fixed in S. Qed.
Lemma kept_within f g n k : kept f g -> kept (within_nth n k f) (within_nth n k g).
Proof. intros K b b' a (a0 & S) H. destruct (nth_keeps f g K _ _ _ _ _ _ _ _ S H) as (a1 & E). now exists a1. Qed.
Lemma kept_apart f g n m k : n <> m -> kept (within_nth n k f) (within_nth m k g).
Proof. intros N b b' a (a0 & S) H. destruct (nth_keeps_diff f g _ _ _ _ _ _ _ _ _ N S H) as (a1 & E). now exists a1. Qed.
Lemma kept_sets k v k' v' : str_eqb k k' = false -> kept (set k v) (set k' v').
Proof. intros N. exact (keeps_set k v k' v' (neq_by _ _ N)). Qed.
Lemma plain_ulysses c : plain ulysses_special_block c.
Proof.
  apply (plain_ext (fun _ => ulysses_special_block c)); [reflexivity|]. unfold ulysses_special_block. apply plain_special. destruct (contains $"ULY-J-EPAC-4-SUMM-PSTL" (data_set c)); [|destruct (contains _ _); [|apply once_ret]].
  - apply once_seq; try (apply (once_within 0), (once_within 0), once_set). apply (kept_within _ _ 0), (kept_within _ _ 0), kept_sets. reflexivity.
  - apply once_seq; [apply once_within, (once_within 0), once_set|apply once_seq| apply keeps_seq].
    + apply once_within, (once_within 0), once_set.
    + apply once_within, (once_within 0), (once_within 0), once_set.
    + apply kept_within, (kept_within _ _ 0), (kept_set _ _ 0). reflexivity.
    + now apply kept_apart.
    + now apply kept_apart.
Qed.

(** *** Columns, one by one *)
Lemma get_values k b v : values b k = [v] -> get k b = (b, Ok v).
Proof. intros E. apply get_some. now rewrite md_get_values, E. Qed.
Lemma each_columns f (R : multidict -> multidict -> Prop) b :
  Forall (fun kv => if str_eqb (fst kv) $"COLUMN" then exists c c', snd kv = PMulti c /\ f c = (c', Ok tt) /\ R c c' else snd kv <> PStr $"COLUMN") b ->
  exists b', each_column f b = (b', Ok tt) /\ columns_related R b b'.
Proof.
  induction 1 as [|[k v] b H _ (b' & E & Rb)]; [exists []; split; [reflexivity|constructor]|]. cbn [fst snd] in H. cbn [each_column]. unfold is_column. cbn [fst snd].
  destruct (str_eqb k $"COLUMN") eqn:K.
  - destruct H as (c & c' & -> & F & Rc). cbn [orb inside]. rewrite F, E. eexists. split; [reflexivity|]. constructor; [|exact Rb]. cbn [fst snd]. rewrite K. split; [reflexivity|]. eauto.
  - assert (V : match v with PStr s => str_eqb s $"COLUMN" | _ => false end = false). { destruct v; try reflexivity. apply str_eqb_neq. congruence. }
    rewrite V. cbn [orb]. rewrite E. eexists. split; [reflexivity|]. constructor; [|exact Rb]. cbn [fst snd]. rewrite K. now split.
Qed.
Lemma wcl_column c n s : placed c n s ->
  exists c', (n <~ get $"COLUMN_NUMBER";; when (eq_int n 13) (v <~ get $"START_BYTE";; v <~ minus v 1;; set $"START_BYTE" v);;;
              n <~ get $"COLUMN_NUMBER";; when (eq_int n 14) (v <~ get $"START_BYTE";; v <~ minus v 2;; set $"START_BYTE" v)) c = (c', Ok tt)
  /\ corrected c c' [($"START_BYTE", PInt (s - off_by n))].
Proof.
  intros [N P]. assert (C0 : off_by n = 0 -> corrected c c [($"START_BYTE", PInt (s - off_by n))]).
  { intros ->. split; [|reflexivity]. intros k v [E|[]]. injection E as <- <-. now rewrite Z.sub_0_r. }
  assert (C1 : forall z, off_by n = z -> corrected c (multi_set c $"START_BYTE" (PInt (s - z))) [($"START_BYTE", PInt (s - off_by n))]).
  { intros z ->. split.
    - intros k v [E|[]]. injection E as <- <-. apply values_set.
    - intros k H. apply values_set_other. intros ->. apply H. now left. }
  rewrite (bind_eq _ _ _ _ _ (get_values _ _ _ N)). cbn [eq_int]. unfold off_by in *. destruct (n =? 13) eqn:E13.
  - cbn [when]. assert (X : (v <~ get $"START_BYTE";; v <~ minus v 1;; set $"START_BYTE" v) c = (multi_set c $"START_BYTE" (PInt (s - 1)), Ok tt)).
    { rewrite (bind_eq _ _ _ _ _ (get_values _ _ _ P)). reflexivity. }
    rewrite (bind_eq _ _ _ _ _ X). assert (N' : values (multi_set c $"START_BYTE" (PInt (s - 1))) $"COLUMN_NUMBER" = [PInt n]).
    { rewrite values_set_other; [exact N|now apply neq_by]. }
    rewrite (bind_eq _ _ _ _ _ (get_values _ _ _ N')). cbn [eq_int]. apply Z.eqb_eq in E13 as ->. cbn [Z.eqb Pos.eqb when]. eexists. split; [reflexivity|]. now apply C1.
  - cbn [when]. rewrite (bind_eq (ret tt) _ c c tt eq_refl). rewrite (bind_eq _ _ _ _ _ (get_values _ _ _ N)). cbn [eq_int]. destruct (n =? 14); cbn [when].
    + rewrite (bind_eq _ _ _ _ _ (get_values _ _ _ P)). cbn [minus]. eexists. split; [reflexivity|]. now apply C1.
    + eexists. split; [reflexivity|]. now apply C0.
Qed.
Lemma moved_placed t c c' n s : moved t c c' -> placed c n s -> placed c' n (s - t * off_by n).
Proof.
  intros M P. destruct (M n s P) as [V O]. destruct P as [N P]. split.
  - rewrite O; [exact N|]. intros [E|[]]. revert E. now apply neq_by.
  - apply V. now left.
Qed.
Lemma moved_trans t u c c1 c2 n s : placed c n s -> moved t c c1 -> moved u c1 c2 -> moved (t + u) c c2.
Proof.
  intros P M1 M2 n' s' P'. pose proof (moved_placed _ _ _ _ _ M1 P') as P1. destruct (M2 _ _ P1) as [V O]. destruct (M1 _ _ P') as [_ O1]. split.
  - intros k v [E|[]]. injection E as <- <-. etransitivity; [exact (V $"START_BYTE" _ (or_introl eq_refl))|]. do 2 f_equal. lia.
  - intros k H. rewrite O, O1; auto.
Qed.
Lemma table_related t b b' : table_of_columns b -> columns_related (moved t) b b' -> table_of_columns b'.
Proof.
  intros T R. revert T. induction R as [|[k v] [k' v'] b b' [Hk H] R IH]; [constructor|]. intros T. inversion T as [|x l Tx Tl]; subst. constructor; [|now apply IH].
  cbn [fst snd] in *. subst k'. destruct (str_eqb k $"COLUMN"); [|congruence]. destruct Tx as (c & n & s & -> & P). destruct H as (c1 & c2 & E & -> & M). injection E as <-.
  exists c2, n, (s - t * off_by n). split; [reflexivity|]. now apply (moved_placed _ c).
Qed.
Lemma related_trans t u b b1 b2 : table_of_columns b -> columns_related (moved t) b b1 -> columns_related (moved u) b1 b2 -> columns_related (moved (t + u)) b b2.
Proof.
  intros T R. revert b2 T. induction R as [|[k v] [k1 v1] b b1 [Hk H] R IH]; intros b2 T R2; inversion R2 as [|x [k2 v2] l l2 [Hk2 H2] R2']; subst; [constructor|].
  inversion T as [|x l Tx Tl]; subst. constructor; [|now apply IH]. cbn [fst snd] in *. subst k1 k2. split; [reflexivity|].
  destruct (str_eqb k $"COLUMN"); [|congruence]. destruct Tx as (c & n & s & -> & P). destruct H as (c0 & c1 & E & -> & M). injection E as <-.
  destruct H2 as (c3 & c4 & E & -> & M2). injection E as <-. exists c, c4. split; [reflexivity|]. split; [reflexivity|]. now apply (moved_trans t u c c1 c4 n s).
Qed.
Lemma wcl_once c b : table_of_columns b -> exists b', query wcl_edr_special_block c b = (b', Ok b') /\ columns_related (moved 1) b b'.
Proof.
  intros T. unfold query, wcl_edr_special_block.
  match goal with |- context [each_column ?f] => destruct (each_columns f (moved 1) b) as (b' & E & R) end.
  { eapply Forall_impl; [|exact T]. intros [k v]. cbn [fst snd]. destruct (str_eqb k $"COLUMN"); [|auto]. intros (x & n & s & -> & P).
    destruct (wcl_column x n s P) as (x' & Ex & C). exists x, x'. split; [reflexivity|]. split; [exact Ex|]. intros n' s' [N' P']. destruct P as [N P]. rewrite N in N'. rewrite P in P'. injection N' as <-. injection P' as <-.
    rewrite Z.mul_1_l. exact C. }
  unfold special. rewrite (bind_eq _ _ _ _ _ E). cbn. exists b'. now split.
Qed.
Lemma wcl_times c n b : table_of_columns b -> columns_related (moved (Z.of_nat n)) b (after wcl_edr_special_block c n b) /\ table_of_columns (after wcl_edr_special_block c n b).
Proof.
  revert b. induction n as [|n IH]; intros b T.
  - cbn [after]. split; [|exact T]. induction T as [|[k v] b H T IHT]; [constructor|]. constructor; [|exact IHT]. cbn [fst snd] in *. split; [reflexivity|].
    destruct (str_eqb k $"COLUMN"); [|reflexivity]. destruct H as (c0 & m & s & -> & P). exists c0, c0. split; [reflexivity|]. split; [reflexivity|]. intros n' s' [_ P']. split; [|reflexivity].
    intros k0 v0 [E|[]]. injection E as <- <-. etransitivity; [exact P'|]. do 2 f_equal. cbn. lia.
  - cbn [after]. destruct (wcl_once c b T) as (b' & E & R). rewrite E. cbn [fst]. pose proof (table_related _ _ _ T R) as T'.
    destruct (IH b' T') as [R2 T2]. split; [|exact T2]. replace (Z.of_nat (S n)) with (1 + Z.of_nat n) by lia. now apply (related_trans 1 (Z.of_nat n) b b').
Qed.
Lemma after_snoc h c n : forall b, after h c (S n) b = fst (query h c (after h c n b)).
Proof. induction n as [|n IH]; intros b; [reflexivity|]. change (after h c (S (S n)) b) with (after h c (S n) (fst (query h c b))). rewrite IH. reflexivity. Qed.
Lemma values_add b k v k' : values (md_add b k v) k' = values b k' ++ (if str_eqb k k' then [v] else []).
Proof. unfold values, md_add. rewrite filter_app, map_app. cbn. now destruct (str_eqb k k'). Qed.
Lemma each_are f (P : multidict -> Prop) (R : multidict -> multidict -> Prop) b :
  (forall c, P c -> exists c', f c = (c', Ok tt) /\ R c c') -> columns_are P b ->
  exists b', each_column f b = (b', Ok tt) /\ columns_related R b b'.
Proof.
  intros F T. apply each_columns. eapply Forall_impl; [|exact T]. intros [k v]. cbn [fst snd]. destruct (str_eqb k $"COLUMN"); [|auto].
  intros (c & -> & Pc). destruct (F c Pc) as (c' & E & Rc). eauto.
Qed.
Lemma query_special (m : upd unit) c b b' : m b = (b', Ok tt) -> query (fun _ => special m) c b = (b', Ok b').
Proof. intros E. unfold query, special. rewrite (bind_eq _ _ _ _ _ E). reflexivity. Qed.
Lemma pra_column c : called c ->
  exists c', (v <~ get $"NAME";; s <~ text_in $"SWEEP" v;; when s (add $"ITEM_BYTES" (PInt 4);;; set $"BYTES" (PInt 284))) c = (c', Ok tt)
   /\ called c' /\ forall n c0, called c0 -> swept n c0 c -> swept (S n) c0 c'.
Proof.
  intros (t & N). rewrite (bind_eq _ _ _ _ _ (get_values _ _ _ N)). cbn [text_in]. rewrite (bind_eq (ret _) _ c c (contains $"SWEEP" t) eq_refl).
  destruct (contains $"SWEEP" t) eqn:E; cbn [when].
  - exists (multi_set (md_add c $"ITEM_BYTES" (PInt 4)) $"BYTES" (PInt 284)). split; [reflexivity|].
    assert (V : forall k, k <> $"ITEM_BYTES" -> k <> $"BYTES" -> values (multi_set (md_add c $"ITEM_BYTES" (PInt 4)) $"BYTES" (PInt 284)) k = values c k).
    { intros k K1 K2. rewrite values_set_other by exact K2. rewrite values_add. assert (W : str_eqb $"ITEM_BYTES" k = false) by (apply str_eqb_neq; congruence). rewrite W. apply app_nil_r. }
    split. { exists t. rewrite V; [exact N| |]; now apply neq_by. }
    intros n c0 (t0 & N0) Hsw t1 N1. specialize (Hsw t1 N1). destruct (contains $"SWEEP" t1) eqn:E1.
    + destruct Hsw as (I & B & O). split; [|split].
      * rewrite values_set_other by (now apply neq_by). rewrite values_add, str_eqb_refl, I. rewrite <- app_assoc. f_equal. change [PInt 4] with (repeat (PInt 4) 1). rewrite <- repeat_app. f_equal. lia.
      * apply values_set.
      * intros k K1 K2. rewrite V by assumption. now apply O.
    + subst c. rewrite N in N1. injection N1 as <-. congruence.
  - exists c. split; [reflexivity|]. split; [now exists t|]. intros n c0 (t0 & N0) Hsw t1 N1. specialize (Hsw t1 N1). destruct (contains $"SWEEP" t1) eqn:E1; [|exact Hsw].
    destruct Hsw as (_ & _ & O). rewrite O in N by (now apply neq_by). rewrite N in N1. injection N1 as <-. congruence.
Qed.
(** [n] corrections of all the columns *)
Lemma each_times f h c (P : multidict -> Prop) (R : nat -> multidict -> multidict -> Prop) :
  (forall b, h c b = special (each_column f) b) ->
  (forall x, P x -> exists x', f x = (x', Ok tt) /\ P x' /\ forall n x0, P x0 -> R n x0 x -> R (S n) x0 x') -> (forall x, P x -> R O x x) ->
  forall b, columns_are P b -> forall n, columns_related (R n) b (after h c n b) /\ columns_are P (after h c n b) /\
    exists x, query h c (after h c n b) = (x, Ok x).
Proof.
  intros Hh F Z0 b T. induction n as [|n (IR & IT & x & IQ)].
  - cbn [after]. split; [|split; [exact T|]].
    + induction T as [|[k v] b H T IH]; [constructor|]. constructor; [|exact IH]. cbn [fst snd] in *. split; [reflexivity|]. destruct (str_eqb k $"COLUMN"); [|reflexivity].
      destruct H as (y & -> & Py). exists y, y. auto.
    + destruct (each_are f P (fun _ _ => True) b) as (b' & E & _); [intros y Py; destruct (F y Py) as (y' & Ey & _); eauto|exact T|].
      exists b'. unfold query. rewrite Hh. exact (query_special _ c _ _ E).
  - rewrite after_snoc. assert (G : exists b', each_column f (after h c n b) = (b', Ok tt) /\ columns_related (fun y y' => P y' /\ forall x0, P x0 -> R n x0 y -> R (S n) x0 y') (after h c n b) b').
    { apply (each_are f P); [|exact IT]. intros y Py. destruct (F y Py) as (y' & Ey & Py' & K). exists y'. split; [exact Ey|]. split; [exact Py'|]. intros x0. apply K. }
    destruct G as (b' & E & Rb). assert (Q : query h c (after h c n b) = (b', Ok b')). { unfold query. rewrite Hh. exact (query_special _ c _ _ E). }
    rewrite Q. cbn [fst]. assert (T' : columns_are P b').
    { clear - Rb IT. revert IT. induction Rb as [|[k v] [k' v'] l l' [Hk H] Rb IH]; [constructor|]. intros IT. inversion IT as [|z zs Tz Tl]; subst. constructor; [|now apply IH].
      cbn [fst snd] in *. subst k'. destruct (str_eqb k $"COLUMN"); [|congruence]. destruct H as (y & y' & _ & -> & Py & _). eauto. }
    split; [|split; [exact T'|]].
    + clear - Rb IR T. revert T b' Rb. induction IR as [|[k v] [k1 v1] l l1 [Hk H] IR IH]; intros T b' Rb; inversion Rb as [|z [k2 v2] zs l2 [Hk2 H2] Rb']; subst; [constructor|].
      inversion T as [|z zs Tz Tl]; subst. constructor; [|now apply IH]. cbn [fst snd] in *. subst k1 k2. split; [reflexivity|]. destruct (str_eqb k $"COLUMN"); [|congruence].
      destruct Tz as (y0 & -> & Py0). destruct H as (y & y1 & Ey & -> & Ry). injection Ey as <-. destruct H2 as (y2 & y3 & Ey & -> & Py3 & K). injection Ey as <-.
      exists y0, y3. split; [reflexivity|]. split; [reflexivity|]. now apply K.
    + destruct (each_are f P (fun _ _ => True) b') as (b2 & E2 & _); [intros y Py; destruct (F y Py) as (y' & Ey & _); eauto|exact T'|].
      exists b2. unfold query. rewrite Hh. exact (query_special _ c _ _ E2).
Qed.
Lemma within_first k f (R : multidict -> multidict -> Prop) b c rest c' : values b k = PMulti c :: rest -> f c = (c', Ok tt) -> R c c' ->
  exists b', within k f b = (b', Ok tt) /\ first_within k R b b'.
Proof.
  intros V F Rc. assert (G : exists b', within k f b = (b', Ok tt) /\ values b' k = PMulti c' :: rest /\ forall k', k' <> k -> values b' k' = values b k').
  { unfold within. revert V. induction b as [|[k0 v] b IH]; [discriminate|]. unfold values in *. cbn [filter fst nth_of]. destruct (str_eqb k0 k) eqn:E.
    - cbn [map snd]. intros V. injection V as -> V. cbn [inside]. rewrite F. eexists. split; [reflexivity|]. cbn [filter fst]. rewrite E. split; [cbn; now rewrite V|].
      intros k' N. cbn [filter fst]. apply str_eqb_eq in E as ->. assert (W : str_eqb k k' = false) by (apply str_eqb_neq; congruence). now rewrite W.
    - intros V. destruct (IH V) as (b' & -> & V' & O). eexists. split; [reflexivity|]. cbn [filter fst]. rewrite E. split; [exact V'|]. intros k' N. cbn [filter fst].
      destruct (str_eqb k0 k'); [cbn; f_equal|]; now apply O. }
  destruct G as (b' & E & V' & O). exists b'. split; [exact E|]. exists c, c', rest. auto.
Qed.
Lemma within_second k f (R : multidict -> multidict -> Prop) b v c rest c' : values b k = v :: PMulti c :: rest -> f c = (c', Ok tt) -> R c c' ->
  exists b', within_nth 1 k f b = (b', Ok tt) /\ second_within k R b b'.
Proof.
  intros V F Rc. assert (G : exists b', within_nth 1 k f b = (b', Ok tt) /\ values b' k = v :: PMulti c' :: rest /\ forall k', k' <> k -> values b' k' = values b k').
  { assert (G0 : forall b e, values b k = PMulti c :: rest -> exists b', nth_of e 0 k f b = (b', Ok tt) /\ values b' k = PMulti c' :: rest /\ forall k', k' <> k -> values b' k' = values b k').
    { clear - F. intros b e. induction b as [|[k0 w] b IH]; [discriminate|]. unfold values in *. cbn [filter fst nth_of]. destruct (str_eqb k0 k) eqn:E.
      - cbn [map snd]. intros V. injection V as -> V. cbn [inside]. rewrite F. eexists. split; [reflexivity|]. cbn [filter fst]. rewrite E. split; [cbn; now rewrite V|].
        intros k' N. cbn [filter fst]. apply str_eqb_eq in E as ->. assert (W : str_eqb k k' = false) by (apply str_eqb_neq; congruence). now rewrite W.
      - intros V. destruct (IH V) as (b' & -> & V' & O). eexists. split; [reflexivity|]. cbn [filter fst]. rewrite E. split; [exact V'|]. intros k' N. cbn [filter fst].
        destruct (str_eqb k0 k'); [cbn; f_equal|]; now apply O. }
    unfold within_nth. revert V. induction b as [|[k0 w] b IH]; [discriminate|]. unfold values in *. cbn [filter fst nth_of]. destruct (str_eqb k0 k) eqn:E.
    - cbn [map snd]. intros V. injection V as -> V. destruct (G0 b IndexError V) as (b' & -> & V' & O). eexists. split; [reflexivity|]. cbn [filter fst]. rewrite E. split; [cbn; now rewrite V'|].
      intros k' N. cbn [filter fst]. destruct (str_eqb k0 k'); [cbn; f_equal|]; now apply O.
    - intros V. destruct (IH V) as (b' & -> & V' & O). eexists. split; [reflexivity|]. cbn [filter fst]. rewrite E. split; [exact V'|]. intros k' N. cbn [filter fst].
      destruct (str_eqb k0 k'); [cbn; f_equal|]; now apply O. }
  destruct G as (b' & E & V' & O). exists b'. split; [exact E|]. exists v, c, c', rest. auto.
Qed.
Lemma jupiter_column c : called c ->
  exists c', (v <~ get $"NAME";; when (eq_text v $"STATUS_WORD") (set $"START_BYTE" (PInt 1));;;
              v <~ get $"NAME";; when (eq_text v $"DATA_CHANNELS") (set $"START_BYTE" (PInt 5))) c = (c', Ok tt) /\ restarted c c'.
Proof.
  intros (t & N). rewrite (bind_eq _ _ _ _ _ (get_values _ _ _ N)). cbn [eq_text].
  assert (CS : forall v, corrected c (multi_set c $"START_BYTE" v) [($"START_BYTE", v)]).
  { intros v. split; [intros k w [E|[]]; injection E as <- <-; apply values_set|]. intros k K. apply values_set_other. intros ->. apply K. now left. }
  destruct (str_eqb t $"STATUS_WORD") eqn:E1; cbn [when].
  - assert (N' : values (multi_set c $"START_BYTE" (PInt 1)) $"NAME" = [PStr t]) by (rewrite values_set_other; [exact N|now apply neq_by]).
    rewrite (bind_eq (set _ _) _ c _ tt eq_refl). rewrite (bind_eq _ _ _ _ _ (get_values _ _ _ N')). cbn [eq_text]. apply str_eqb_eq in E1 as ->.
    change (str_eqb $"STATUS_WORD" $"DATA_CHANNELS") with false. cbn [when]. eexists. split; [reflexivity|]. intros t' N''. rewrite N in N''. assert (TT : t' = $"STATUS_WORD") by congruence. rewrite TT, str_eqb_refl. apply CS.
  - rewrite (bind_eq (ret tt) _ c _ tt eq_refl). rewrite (bind_eq _ _ _ _ _ (get_values _ _ _ N)). cbn [eq_text]. destruct (str_eqb t $"DATA_CHANNELS") eqn:E2; cbn [when];
    (eexists; split; [reflexivity|]); intros t' N''; rewrite N in N''; injection N'' as <-; rewrite E1, E2; [apply CS|reflexivity].
Qed.
Lemma jupiter_plain c : data_set c = $"VG2-J-PRA-3-RDR-LOWBAND-6SEC-V1.0" -> plain pra_special_block c.
Proof.
  intros D. apply (plain_ext (fun _ => pra_special_block c)); [reflexivity|]. unfold pra_special_block. rewrite D. apply plain_special.
  change (str_in _ _) with false. rewrite str_eqb_refl. apply (once_within 0), once_each, once_named; apply neq_by; reflexivity.
Qed.
