(** Proofs about label trimming. *)
From Verif.Base Require Import Py PyFacts.
From Verif.Model Require Import Trim.
From Verif.Spec Require Import Trim.

(** ** the PVL pattern *)
Lemma leading_sp s : exists t, s = sp (leading_spaces s) ++ t /\
  match t with c :: _ => c <> " "%char | [] => True end.
Proof.
  induction s as [|c s IH]; [exists []; split; auto|]. cbn [leading_spaces].
  destruct (Ascii.eqb_spec c SP) as [->|Hc].
  - destruct IH as (t & E & Ht). exists t. split; [|exact Ht].
    change (sp (S (leading_spaces s)) ++ t) with (SP :: (sp (leading_spaces s) ++ t)). now rewrite <- E.
  - exists (c :: s). split; [reflexivity|exact Hc].
Qed.
Lemma sp_app a b : sp (a + b) = sp a ++ sp b.
Proof. apply repeat_app. Qed.
Lemma sp_length k : length (sp k) = k.
Proof. apply repeat_length. Qed.
Lemma leading_sp_app k t : match t with c :: _ => c <> " "%char | [] => True end ->
  leading_spaces (sp k ++ t) = k.
Proof.
  intros Ht. induction k as [|k IH]; cbn.
  - destruct t as [|c t]; [reflexivity|]. cbn. destruct (Ascii.eqb_spec c SP); [contradiction|reflexivity].
  - unfold sp in IH. now rewrite IH.
Qed.
Lemma leading_sp_ge k t : (k <= leading_spaces (sp k ++ t))%nat.
Proof.
  induction k as [|k IH]; [lia|]. cbn. unfold sp in IH. lia.
Qed.

Lemma skipn_sp n k t : (n <= k)%nat -> skipn n (sp k ++ t) = sp (k - n) ++ t.
Proof.
  intros H. replace k with (n + (k - n))%nat at 1 by lia. rewrite sp_app, <- app_assoc.
  rewrite skipn_app, skipn_all2 by (rewrite sp_length; lia).
  rewrite sp_length, Nat.sub_diag. reflexivity.
Qed.

(** what [try_spaces] finds, on  k blanks followed by a non-blank *)
Definition tail_len (k : nat) (t : str) : option nat :=
  if (k <=? 8)%nat && startswith [CR] t then Some (k + 1)%nat
  else if (8 <=? k)%nat then Some (Nat.min k 16) else None.

Lemma starts_sp j k t : match t with c :: _ => c <> " "%char | [] => True end ->
  startswith (sp j) (sp k ++ t) = (j <=? k)%nat.
Proof.
  intros Ht. destruct (Nat.leb_spec j k) as [H|H].
  - apply startswith_iff. exists (sp (k - j) ++ t). rewrite app_assoc, <- sp_app.
    do 2 f_equal. lia.
  - apply not_true_iff_false. intros E. apply startswith_iff in E as [u E].
    pose proof (leading_sp_ge j u) as Hl. rewrite <- E, leading_sp_app in Hl by exact Ht. lia.
Qed.

Lemma try_spaces_spec n k t :
  match t with c :: _ => c <> " "%char | [] => True end ->
  (n <= k)%nat -> (n <= 8)%nat -> (n = 8 \/ n = k \/ (n + 8 <= k) \/ k < 8 \/ k < 16)%nat ->
  try_spaces n (sp k ++ t) =
  if (n =? k)%nat && startswith [CR] t then Some (k + 1)%nat
  else if (8 <=? k)%nat then Some (Nat.min k (n + 8)) else None.
Proof.
  intros Ht. revert k. induction n as [|n IH]; intros k Hk H8 Hc.
  - cbn [try_spaces]. rewrite skipn_sp by lia. rewrite Nat.sub_0_r.
    destruct k as [|k].
    + cbn [Nat.eqb andb sp repeat app]. destruct (startswith [CR] t) eqn:E; [reflexivity|].
      assert (Hsp : startswith (repeat SP 8) t = false) by exact (starts_sp 8 0 t Ht).
      cbn [repeat] in Hsp. rewrite Hsp. reflexivity.
    + cbn [Nat.eqb andb]. change (startswith [CR] (sp (S k) ++ t)) with false. cbn iota.
      change (repeat SP 8) with (sp 8). rewrite starts_sp by exact Ht.
      destruct (Nat.leb_spec 8 (S k)); [|reflexivity]. f_equal. lia.
  - cbn [try_spaces]. rewrite skipn_sp by lia.
    change (repeat SP 8) with (sp 8).
    destruct (Nat.eqb_spec (S n) k) as [<-|Hne].
    + rewrite Nat.sub_diag. change (sp 0 ++ t) with t. cbn [andb].
      destruct (startswith [CR] t) eqn:E; [f_equal; lia|].
      change (startswith (sp 8) t) with (startswith (sp 8) (sp 0 ++ t)).
      rewrite starts_sp by exact Ht. change (8 <=? 0)%nat with false. cbn iota.
      rewrite IH by lia. destruct (Nat.eqb_spec n (S n)) as [|_]; [lia|]. cbn [andb].
      destruct (Nat.leb_spec 8 (S n)); [|reflexivity]. f_equal. lia.
    + destruct (k - S n)%nat as [|j] eqn:Ej; [lia|].
      change (startswith [CR] (sp (S j) ++ t)) with false. cbn [andb]. cbn iota.
      rewrite starts_sp by exact Ht.
      destruct (Nat.leb_spec 8 (S j)) as [H9|H9].
      * destruct (Nat.leb_spec 8 k); [|lia]. f_equal. lia.
      * rewrite IH by lia. destruct (Nat.eqb_spec n k) as [|_]; [lia|]. cbn [andb].
        destruct (Nat.leb_spec 8 k); [|reflexivity]. f_equal. lia.
Qed.

Lemma ending_pvl_shape s : startswith END_line s = true ->
  exists k t, s = END_line ++ sp k ++ t /\
    match t with c :: _ => c <> " "%char | [] => True end /\
    ending_pvl s = match tail_len k t with Some n => Some (4 + n)%nat | None => None end.
Proof.
  intros H. apply startswith_iff in H as H'. destruct H' as [u Hu].
  destruct (leading_sp u) as (t & Et & Ht). set (k := leading_spaces u) in *.
  exists k, t. split; [now rewrite Hu, Et at 1|]. split; [exact Ht|].
  unfold ending_pvl. change (NL :: $"END") with END_line. rewrite H.
  rewrite Hu. change (skipn 4 (END_line ++ u)) with u. rewrite Et.
  rewrite leading_sp_app by exact Ht.
  rewrite try_spaces_spec; [|exact Ht|lia|lia|lia].
  unfold tail_len. destruct (Nat.leb_spec k 8) as [H1|H1].
  - replace (Nat.min 8 k) with k by lia. rewrite Nat.eqb_refl. cbn [andb].
    destruct (startswith [CR] t); [reflexivity|].
    destruct (Nat.leb_spec 8 k); [|reflexivity]. do 2 f_equal. lia.
  - replace (Nat.min 8 k) with 8%nat by lia. destruct (Nat.eqb_spec 8 k); [lia|].
    cbn [andb]. destruct (Nat.leb_spec 8 k); [|lia]. do 2 f_equal.
Qed.

Lemma marker_starts m : end_marker m -> exists u, m = END_line ++ u.
Proof. intros [k _|k _]; eexists; reflexivity. Qed.

Lemma sp_eq_inv k k' t t' :
  match t with c :: _ => c <> " "%char | [] => True end ->
  match t' with c :: _ => c <> " "%char | [] => True end ->
  sp k ++ t = sp k' ++ t' -> k = k' /\ t = t'.
Proof.
  intros Ht Ht' E. assert (k = k').
  { rewrite <- (leading_sp_app k t Ht), <- (leading_sp_app k' t' Ht'). now rewrite E. }
  subst. split; [reflexivity|]. now apply app_inv_head in E.
Qed.

(** the pattern matches exactly where an end marker starts, and takes the longest *)
Lemma ending_pvl_spec s :
  match ending_pvl s with
  | Some n => exists m b, s = m ++ b /\ end_marker m /\ length m = n /\
      (forall m' b', end_marker m' -> s = m' ++ b' -> (length m' <= n)%nat)
  | None => forall m b, end_marker m -> s <> m ++ b
  end.
Proof.
  destruct (startswith END_line s) eqn:Es.
  - destruct (ending_pvl_shape s Es) as (k & t & E & Ht & ->).
    (* any marker here *)
    assert (Hany : forall m' b', end_marker m' -> s = m' ++ b' ->
      (k <= 8 /\ startswith [CR] t = true /\ length m' = 4 + k + 1)%nat \/
      (8 <= k /\ length m' <= 4 + Nat.min k 16)%nat).
    { intros m' b' Hm' E'. rewrite E in E'. destruct Hm' as [j Hj|j Hj].
      - rewrite <- !app_assoc in E'. apply app_inv_head in E'.
        apply sp_eq_inv in E' as [-> ->]; [|exact Ht|discriminate].
        left. split; [exact Hj|]. split; [reflexivity|]. rewrite !app_length, sp_length. cbn. lia.
      - rewrite <- app_assoc in E'. apply app_inv_head in E'.
        assert (j <= k)%nat.
        { rewrite <- (leading_sp_app k t Ht), E'. apply leading_sp_ge. }
        right. split; [lia|]. rewrite app_length, sp_length. cbn. lia. }
    unfold tail_len. destruct (Nat.leb_spec k 8) as [H8|H8]; cbn [andb].
    + destruct (startswith [CR] t) eqn:Ec.
      * apply startswith_iff in Ec as [u ->]. cbn iota.
        exists (END_line ++ sp k ++ [CR]), u. split; [rewrite E, <- !app_assoc; reflexivity|].
        split; [now constructor|]. split; [rewrite !app_length, sp_length; cbn; lia|].
        intros m' b' Hm' E'. destruct (Hany m' b' Hm' E') as [H|H]; [lia|]. lia.
      * destruct (Nat.leb_spec 8 k) as [H9|H9].
        -- assert (k = 8)%nat by lia. subst k. cbn iota.
           exists (END_line ++ sp 8), t. split; [now rewrite E, <- app_assoc|].
           split; [apply EM_pad; lia|]. split; [reflexivity|].
           intros m' b' Hm' E'. destruct (Hany m' b' Hm' E') as [(_ & H & _)|H]; [congruence|lia].
        -- intros m b Hm E'. destruct (Hany m b Hm E') as [(_ & H & _)|H]; [congruence|lia].
    + destruct (Nat.leb_spec 8 k); [|lia]. cbn iota.
      exists (END_line ++ sp (Nat.min k 16)), (sp (k - Nat.min k 16) ++ t).
      split; [rewrite E, <- app_assoc; f_equal; rewrite app_assoc, <- sp_app; do 2 f_equal; lia|].
      split; [apply EM_pad; lia|]. split; [rewrite app_length, sp_length; reflexivity|].
      intros m' b' Hm' E'. destruct (Hany m' b' Hm' E') as [H'|H']; [lia|]. lia.
  - unfold ending_pvl. change (NL :: $"END") with END_line. rewrite Es.
    intros m b Hm E. apply marker_starts in Hm as [u ->].
    rewrite <- app_assoc in E. assert (startswith END_line s = true) by (apply startswith_iff; eauto).
    congruence.
Qed.

(** ** leftmost search *)
Lemma search_end_spec (p : matcher) (P : str -> Prop) :
  (forall s, match p s with
             | Some n => exists m b, s = m ++ b /\ P m /\ length m = n /\
                 (forall m' b', P m' -> s = m' ++ b' -> (length m' <= n)%nat)
             | None => forall m b, P m -> s <> m ++ b
             end) ->
  forall s, match search_end p s with
  | Some n => exists a m b, s = a ++ m ++ b /\ P m /\ length (a ++ m) = n /\
      (forall m' b', P m' -> m ++ b = m' ++ b' -> (length m' <= length m)%nat) /\
      (forall a' m' b', P m' -> s = a' ++ m' ++ b' -> (length a <= length a')%nat)
  | None => forall m, P m -> ~ occurs m s
  end.
Proof.
  intros Hp. induction s as [|c s IH]; cbn [search_end].
  - specialize (Hp []). destruct (p []) as [n|].
    + destruct Hp as (m & b & E & Hm & Hl & Hmax). exists [], m, b.
      split; [exact E|]. split; [exact Hm|]. split; [exact Hl|].
      split; [intros m' b' Hm' E'; rewrite Hl; apply (Hmax m' b' Hm'); congruence|]. cbn. lia.
    + intros m Hm (a & b & E). symmetry in E. apply app_eq_nil in E as [-> E].
      apply (Hp m b Hm). now symmetry.
  - specialize (Hp (c :: s)). destruct (p (c :: s)) as [n|].
    + destruct Hp as (m & b & E & Hm & Hl & Hmax). exists [], m, b.
      split; [exact E|]. split; [exact Hm|]. split; [exact Hl|].
      split; [intros m' b' Hm' E'; rewrite Hl; apply (Hmax m' b' Hm'); congruence|]. cbn. lia.
    + destruct (search_end p s) as [n|].
      * destruct IH as (a & m & b & E & Hm & Hl & Hmax & Hfirst).
        exists (c :: a), m, b. split; [now rewrite E|]. split; [exact Hm|].
        split; [cbn; now rewrite Hl|]. split; [exact Hmax|].
        intros [|c' a'] m' b' Hm' E'.
        -- exfalso. apply (Hp m' b' Hm'). exact E'.
        -- cbn in E'. injection E' as _ E'. apply Hfirst in E'; [|exact Hm']. cbn. lia.
      * intros m Hm (a & b & E). destruct a as [|c' a].
        -- now apply (Hp m b Hm).
        -- cbn in E. injection E as _ E. apply (IH m Hm). now exists a, b.
Qed.

Lemma literal_matcher (w : str) (n : nat) : length w = n ->
  forall s, match (if startswith w s then Some n else None) with
             | Some n => exists m b, s = m ++ b /\ m = w /\ length m = n /\
                 (forall m' b', m' = w -> s = m' ++ b' -> (length m' <= n)%nat)
             | None => forall m b, m = w -> s <> m ++ b
             end.
Proof.
  intros Hn s. destruct (startswith w s) eqn:E.
  - apply startswith_iff in E as [b ->]. exists w, b. repeat split; auto.
    intros m' b' -> _. lia.
  - intros m b -> ->. assert (startswith w (w ++ b) = true) by (apply startswith_iff; eauto). congruence.
Qed.

Lemma search_pvl s : match search_end ending_pvl s with
  | Some n => exists a m b, s = a ++ m ++ b /\ first_marker a m b /\ length (a ++ m) = n
  | None => no_end_marker s
  end.
Proof.
  pose proof (search_end_spec ending_pvl end_marker ending_pvl_spec s) as H.
  destruct (search_end ending_pvl s) as [n|]; [|exact H].
  destruct H as (a & m & b & E & Hm & Hl & H1 & H2). exists a, m, b.
  split; [exact E|]. split; [|exact Hl]. split; [exact Hm|]. split; [exact H1|].
  intros a' m' b' Hm' E'. apply (H2 a' m' b' Hm'). congruence.
Qed.

Lemma app_same_len {A} (a a' b b' : list A) : length a = length a' -> a ++ b = a' ++ b' -> a = a' /\ b = b'.
Proof.
  revert a'. induction a as [|x a IH]; intros [|y a'] Hl E; try discriminate; [auto|].
  cbn in *. injection E as -> E. apply IH in E as [-> ->]; auto.
Qed.

Lemma first_marker_unique a m b a' m' b' : a ++ m ++ b = a' ++ m' ++ b' ->
  first_marker a m b -> first_marker a' m' b' -> a = a' /\ m = m' /\ b = b'.
Proof.
  intros E (Hm & H1 & H2) (Hm' & H1' & H2').
  assert (Hl : length a = length a').
  { pose proof (H2 a' m' b' Hm' E). pose proof (H2' a m b Hm (eq_sym E)). lia. }
  apply app_same_len in E as [-> E]; [|exact Hl].
  assert (Hl2 : length m = length m').
  { pose proof (H1 m' b' Hm' E). pose proof (H1' m b Hm (eq_sym E)). lia. }
  apply app_same_len in E as [-> ->]; [|exact Hl2]. auto.
Qed.

Lemma search_pvl_at a m b : first_marker a m b ->
  search_end ending_pvl (a ++ m ++ b) = Some (length (a ++ m)).
Proof.
  intros H. pose proof (search_pvl (a ++ m ++ b)) as Hs.
  destruct (search_end ending_pvl (a ++ m ++ b)) as [n|].
  - destruct Hs as (a' & m' & b' & E & H' & Hl).
    destruct (first_marker_unique _ _ _ _ _ _ E H H') as (-> & -> & ->). now rewrite Hl.
  - exfalso. apply (Hs m); [apply H|]. now exists a, b.
Qed.
Lemma search_pvl_none s : no_end_marker s -> search_end ending_pvl s = None.
Proof.
  intros H. pose proof (search_pvl s) as Hs. destruct (search_end ending_pvl s) as [n|]; [|reflexivity].
  destruct Hs as (a & m & b & E & H' & _). exfalso. apply (H m); [apply H'|]. now exists a, b.
Qed.

Lemma search_literal w s : 
  match search_end (fun s => if startswith w s then Some (length w) else None) s with
  | Some n => exists a b, s = a ++ w ++ b /\ length (a ++ w) = n /\ first_occurrence a w b
  | None => ~ occurs w s
  end.
Proof.
  pose proof (search_end_spec (fun s => if startswith w s then Some (length w) else None) (eq w)) as H.
  assert (Hp : forall s, match (if startswith w s then Some (length w) else None) with
             | Some n => exists m b, s = m ++ b /\ w = m /\ length m = n /\
                 (forall m' b', w = m' -> s = m' ++ b' -> (length m' <= n)%nat)
             | None => forall m b, w = m -> s <> m ++ b
             end).
  { intros s0. pose proof (literal_matcher w _ eq_refl s0) as Hl.
    destruct (startswith w s0).
    - destruct Hl as (m & b & E & Em & El & Hmax). exists m, b. repeat split; auto.
      all: intros m' b' Em'; apply Hmax; now symmetry.
    - intros m b Em. apply Hl. now symmetry. }
  specialize (H Hp s). destruct (search_end _ s) as [n|].
  - destruct H as (a & m & b & E & <- & Hl & _ & Hf). exists a, b. repeat split; auto.
    intros a' b' E'. apply (Hf a' w b' eq_refl). congruence.
  - apply H. reflexivity.
Qed.

Lemma first_ending_none s : no_ending s -> first_ending KNOWN_LABEL_ENDINGS s = None.
Proof.
  intros (H1 & H2 & H3). unfold KNOWN_LABEL_ENDINGS. cbn [first_ending].
  rewrite (search_pvl_none s H1).
  pose proof (search_literal three_nulls s) as Hn.
  change (fun s0 : str => if startswith three_nulls s0 then Some (length three_nulls) else None)
    with ending_null in Hn.
  destruct (search_end ending_null s).
  { destruct Hn as (a & b & E & _). exfalso. apply H2. now exists a, b. }
  pose proof (search_literal unix_end s) as Hu.
  change (fun s0 : str => if startswith unix_end s0 then Some (length unix_end) else None)
    with ending_change in Hu.
  destruct (search_end ending_change s); [|reflexivity].
  destruct Hu as (a & b & E & _). exfalso. apply H3. now exists a, b.
Qed.
Lemma first_ending_marker a m b : first_marker a m b ->
  first_ending KNOWN_LABEL_ENDINGS (a ++ m ++ b) = Some (length (a ++ m)).
Proof.
  intros H. unfold KNOWN_LABEL_ENDINGS. cbn [first_ending]. now rewrite (search_pvl_at a m b H).
Qed.
Lemma first_ending_unix a b : no_end_marker (a ++ unix_end ++ b) -> ~ occurs three_nulls (a ++ unix_end ++ b) ->
  first_occurrence a unix_end b ->
  first_ending KNOWN_LABEL_ENDINGS (a ++ unix_end ++ b) = Some (length (a ++ unix_end)).
Proof.
  intros H1 H2 H3. unfold KNOWN_LABEL_ENDINGS. cbn [first_ending].
  rewrite (search_pvl_none _ H1).
  pose proof (search_literal three_nulls (a ++ unix_end ++ b)) as Hn.
  change (fun s0 : str => if startswith three_nulls s0 then Some (length three_nulls) else None)
    with ending_null in Hn.
  destruct (search_end ending_null _).
  { destruct Hn as (a' & b' & E & _). exfalso. apply H2. now exists a', b'. }
  pose proof (search_literal unix_end (a ++ unix_end ++ b)) as Hu.
  change (fun s0 : str => if startswith unix_end s0 then Some (length unix_end) else None)
    with ending_change in Hu.
  destruct (search_end ending_change _) as [n|].
  - destruct Hu as (a' & b' & E & Hl & Hf).
    assert (Ha : length a = length a').
    { pose proof (H3 a' b' E). pose proof (Hf a b (eq_sym E)). lia. }
    rewrite <- Hl, !app_length. now rewrite Ha.
  - exfalso. apply Hu. now exists a, b.
Qed.

(** ** scanning *)
Lemma first_ending_bound ps s n : (forall p s n, In p ps -> search_end p s = Some n -> (n <= length s)%nat) ->
  first_ending ps s = Some n -> (n <= length s)%nat.
Proof.
  induction ps as [|p ps IH]; intros H E; [discriminate|]. cbn in E.
  destruct (search_end p s) as [k|] eqn:Ek.
  - injection E as <-. eapply H; [now left|exact Ek].
  - apply IH; [|exact E]. intros q t j Hq. apply H. now right.
Qed.

Lemma scan_prefix csize max raise_ f len text rest t :
  scan csize max raise_ f len text rest = Ok t -> exists u v, t = text ++ u /\ rest = u ++ v.
Proof.
  revert len text rest. induction f as [|f IH]; intros len text rest H; [discriminate|].
  cbn [scan] in H. destruct (len <? max)%nat.
  2:{ destruct raise_; [discriminate|]. injection H as <-. exists [], rest. now rewrite app_nil_r. }
  destruct (firstn csize rest) as [|c chunk] eqn:Ec.
  { destruct raise_; [discriminate|]. injection H as <-. exists [], rest. now rewrite app_nil_r. }
  rewrite <- Ec in *. destruct (first_ending _ _) as [n|] eqn:En.
  - injection H as <-. exists (firstn n (firstn csize rest)), (skipn n (firstn csize rest) ++ skipn csize rest).
    split; [reflexivity|]. now rewrite app_assoc, !firstn_skipn.
  - apply IH in H as (u & v & -> & E). exists (firstn csize rest ++ u), v.
    split; [now rewrite app_assoc|]. rewrite <- app_assoc, <- E. now rewrite firstn_skipn.
Qed.

(** skipping full chunks that hold no ending *)
Lemma scan_skip csize max raise_ chunks : forall f len text rest,
  (0 < csize)%nat ->
  Forall (fun c => length c = csize /\ no_ending c) chunks ->
  (length chunks <= f)%nat -> (len + csize * length chunks < max + csize)%nat ->
  scan csize max raise_ f len text (concat chunks ++ rest) =
  scan csize max raise_ (f - length chunks) (len + csize * length chunks) (text ++ concat chunks) rest.
Proof.
  induction chunks as [|c chunks IH]; intros f len text rest Hc Hf Hfuel Hlen.
  - cbn [concat length app]. rewrite Nat.sub_0_r, Nat.mul_0_r, Nat.add_0_r, app_nil_r. reflexivity.
  - inversion Hf as [|? ? [Hl Hno] Hf']; subst. cbn [length] in *.
    destruct f as [|f]; [lia|]. cbn [scan].
    destruct (Nat.ltb_spec len max) as [_|]; [|nia].
    cbn [concat]. rewrite <- app_assoc.
    assert (E1 : firstn (length c) (c ++ concat chunks ++ rest) = c).
    { rewrite firstn_app, firstn_all, Nat.sub_diag. cbn. now rewrite app_nil_r. }
    assert (E2 : skipn (length c) (c ++ concat chunks ++ rest) = concat chunks ++ rest).
    { rewrite skipn_app, skipn_all, Nat.sub_diag. reflexivity. }
    rewrite E1, E2. destruct c as [|x c]; [cbn in Hc; lia|].
    rewrite (first_ending_none _ Hno).
    rewrite IH; [|exact Hc|exact Hf'|lia|lia].
    f_equal; [lia|now rewrite app_assoc].
Qed.

Lemma concat_chunks csize (chunks : list str) : Forall (fun c => length c = csize) chunks ->
  length (concat chunks) = (csize * length chunks)%nat.
Proof.
  induction 1 as [|c chunks Hc _ IH]; [now rewrite Nat.mul_0_r|].
  cbn [concat length]. rewrite app_length, IH, Hc. lia.
Qed.

(** an ending found in the chunk that holds it *)
Lemma trim_found csize max strict raise_ head chunks s b n rest :
  (0 < csize)%nat ->
  length head = 20%nat ->
  (strict = true -> forallb is_ascii_byte head = true) ->
  Forall (fun c => length c = csize /\ no_ending c) chunks ->
  (csize * length chunks < max)%nat ->
  s ++ b <> [] -> (length (s ++ b) = csize \/ (length (s ++ b) < csize)%nat /\ rest = []) ->
  first_ending KNOWN_LABEL_ENDINGS (s ++ b) = Some n -> n = length s ->
  trim_bytes csize max strict raise_ (head ++ concat chunks ++ s ++ b ++ rest) =
  Ok (head ++ concat chunks ++ s).
Proof.
  intros Hc Hh Hs Hf Hmax Hne Hlast Hend ->. unfold trim_bytes.
  assert (E1 : firstn 20 (head ++ concat chunks ++ s ++ b ++ rest) = head).
  { rewrite <- Hh. rewrite firstn_app, firstn_all, Nat.sub_diag. cbn. now rewrite app_nil_r. }
  assert (E2 : skipn 20 (head ++ concat chunks ++ s ++ b ++ rest) = concat chunks ++ s ++ b ++ rest).
  { rewrite <- Hh. rewrite skipn_app, skipn_all, Nat.sub_diag. reflexivity. }
  rewrite E1, E2.
  assert (E3 : strict && negb (forallb is_ascii_byte head) = false).
  { destruct strict; [rewrite Hs by reflexivity|]; reflexivity. }
  rewrite E3.
  assert (Hcl : length (concat chunks) = (csize * length chunks)%nat).
  { apply concat_chunks. eapply Forall_impl; [|exact Hf]. now intros ? []. }
  set (fuel := S (length (head ++ concat chunks ++ s ++ b ++ rest))).
  assert (Hfuel : (length chunks < fuel)%nat).
  { unfold fuel. rewrite !app_length, Hcl. nia. }
  clearbody fuel.
  rewrite scan_skip; [|exact Hc|exact Hf|lia|lia].
  destruct (fuel - length chunks)%nat as [|f] eqn:Ef; [lia|]. cbn [scan].
  destruct (Nat.ltb_spec (0 + csize * length chunks) max) as [_|]; [|lia].
  assert (E4 : firstn csize (s ++ b ++ rest) = s ++ b).
  { rewrite app_assoc. destruct Hlast as [Hl|[Hl ->]].
    - rewrite <- Hl, firstn_app, firstn_all, Nat.sub_diag. cbn. now rewrite app_nil_r.
    - rewrite app_nil_r. apply firstn_all2. lia. }
  rewrite E4. destruct (s ++ b) as [|x y] eqn:Esb; [contradiction|]. rewrite <- Esb in *.
  rewrite Hend. rewrite firstn_app, firstn_all, Nat.sub_diag. cbn [firstn]. rewrite app_nil_r.
  now rewrite <- !app_assoc.
Qed.

(** no ending before the size limit or the end of the file *)
Lemma trim_not_found csize max strict raise_ head chunks last rest :
  (0 < csize)%nat ->
  length head = 20%nat ->
  (strict = true -> forallb is_ascii_byte head = true) ->
  Forall (fun c => length c = csize /\ no_ending c) chunks ->
  ((* the limit is reached after these chunks *)
   (max <= csize * length chunks < max + csize)%nat /\ last = [] \/
   (* or the file ends with a partial chunk *)
   (csize * length chunks < max)%nat /\ (length last < csize)%nat /\ rest = [] /\ no_ending last) ->
  trim_bytes csize max strict raise_ (head ++ concat chunks ++ last ++ rest) =
  if raise_ then Err ValueError else Ok (head ++ concat chunks ++ last).
Proof.
  intros Hc Hh Hs Hf Hcase. unfold trim_bytes.
  assert (E1 : firstn 20 (head ++ concat chunks ++ last ++ rest) = head).
  { rewrite <- Hh. rewrite firstn_app, firstn_all, Nat.sub_diag. cbn. now rewrite app_nil_r. }
  assert (E2 : skipn 20 (head ++ concat chunks ++ last ++ rest) = concat chunks ++ last ++ rest).
  { rewrite <- Hh. rewrite skipn_app, skipn_all, Nat.sub_diag. reflexivity. }
  rewrite E1, E2.
  assert (E3 : strict && negb (forallb is_ascii_byte head) = false).
  { destruct strict; [rewrite Hs by reflexivity|]; reflexivity. }
  rewrite E3.
  assert (Hcl : length (concat chunks) = (csize * length chunks)%nat).
  { apply concat_chunks. eapply Forall_impl; [|exact Hf]. now intros ? []. }
  set (fuel := S (length (head ++ concat chunks ++ last ++ rest))).
  assert (Hfuel : (length chunks + 2 <= fuel)%nat).
  { unfold fuel. rewrite !app_length, Hcl, Hh. nia. }
  clearbody fuel.
  rewrite scan_skip; [|exact Hc|exact Hf|lia|lia].
  destruct (fuel - length chunks)%nat as [|f] eqn:Ef; [lia|]. cbn [scan].
  destruct Hcase as [[Hm ->]|(Hm & Hl & -> & Hno)].
  - destruct (Nat.ltb_spec (0 + csize * length chunks) max) as [|_]; [lia|].
    rewrite app_nil_r. reflexivity.
  - destruct (Nat.ltb_spec (0 + csize * length chunks) max) as [_|]; [|lia].
    rewrite app_nil_r, firstn_all2 by lia. destruct last as [|x last].
    + now rewrite app_nil_r.
    + rewrite (first_ending_none _ Hno). rewrite skipn_all2 by lia.
      destruct f as [|f]; [lia|]. cbn [scan]. rewrite firstn_nil.
      destruct (_ <? _)%nat; rewrite <- !app_assoc; reflexivity.
Qed.

(** files that fit in one read *)
Lemma trim_one_read csize max strict raise_ file :
  (0 < max)%nat -> (20 < length file)%nat -> (length (skipn 20 file) <= csize)%nat ->
  (strict = true -> forallb is_ascii_byte (firstn 20 file) = true) ->
  trim_bytes csize max strict raise_ file =
  match first_ending KNOWN_LABEL_ENDINGS (skipn 20 file) with
  | Some n => Ok (firstn 20 file ++ firstn n (skipn 20 file))
  | None => if raise_ then Err ValueError else Ok file
  end.
Proof.
  intros Hm Hl Hc Hs. unfold trim_bytes.
  assert (E3 : strict && negb (forallb is_ascii_byte (firstn 20 file)) = false).
  { destruct strict; [rewrite Hs by reflexivity|]; reflexivity. }
  rewrite E3. assert (Hfuel : exists f, S (length file) = S (S f)).
  { destruct (length file) as [|f]; [lia|]. eauto. }
  destruct Hfuel as [f ->].
  pose proof (skipn_length 20 file) as Hk. pose proof (firstn_skipn 20 file) as Hfs.
  remember (firstn 20 file) as head. remember (skipn 20 file) as rest.
  cbn [scan]. destruct (Nat.ltb_spec 0 max); [|lia].
  rewrite firstn_all2 by lia. destruct rest as [|x rest]; [cbn in Hk; lia|].
  destruct (first_ending _ _) as [n|]; [reflexivity|].
  rewrite skipn_all2 by lia. rewrite firstn_nil, Hfs. destruct (_ <? _)%nat; reflexivity.
Qed.

Lemma no_ending_without c s : In c END_line -> ~ In c s -> ~ In "000"%char s -> no_ending s.
Proof.
  intros Hc Hs Hz. split; [|split].
  - intros m Hm (x & y & ->). apply marker_starts in Hm as [u ->]. apply Hs.
    apply in_or_app; right. apply in_or_app; left. apply in_or_app; now left.
  - intros (x & y & ->). apply Hz. apply in_or_app; right. now left.
  - intros (x & y & ->). apply Hs. apply in_or_app; right.
    apply in_or_app; left. apply in_or_app; now left.
Qed.
