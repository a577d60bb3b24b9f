(** Proofs about Model/Pds4Values.v. *)
From Coq Require Import QArith Qpower Permutation Sorting.Sorted Lia ZArith Lqa.
From Verif.Base Require Import Py PyFacts Val Numpy Float.
From Verif.Model Require Import Types Scaling Pds4Types Pds4Values.
From Verif.Spec Require Import Scaling Pds4Tables Pds4Values.
From Verif.Proofs Require Import Scaling.
Open Scope Z_scope.

(** ** Types *)
Definition order_of (o : byte_order) : order_ := match o with MSB => Big | LSB => Little end.
Definition kind_of (f : format) : vkind := match f with Integer s => VInt s | Ieee => VFloat | Pair => VComplex end.
Lemma type_known name o f w : pds4_type name o f w ->
  exists o', numpy_type name = Some (o', kind_of f, w) /\ (o' = order_of o \/ w = 1%nat) /\ (o' = Big \/ o' = Little).
Proof.
  intros [s o1|s o1 w1 H|o1|o1|o1 w1 H]; cbn [kind_of].
  - destruct s; eexists; (split; [vm_compute; reflexivity|auto]).
  - destruct H as [<-|[<-|[<-|[]]]]; destruct s, o1; eexists; (split; [vm_compute; reflexivity|cbn; auto]).
  - destruct o1; eexists; (split; [vm_compute; reflexivity|cbn; auto]).
  - destruct o1; eexists; (split; [vm_compute; reflexivity|cbn; auto]).
  - destruct H as [<-|[<-|[]]]; destruct o1; eexists; (split; [vm_compute; reflexivity|cbn; auto]).
Qed.
Lemma type_width name o f w : pds4_type name o f w ->
  match f with Integer _ => In w [1; 2; 4; 8]%nat | Ieee => In w [4; 8]%nat | Pair => In w [8; 16]%nat end.
Proof. intros [s o1|s o1 w1 H|o1|o1|o1 w1 H]; cbn in *; auto; try tauto. Qed.

(** ** Words *)
Lemma byte_range c : 0 <= byte_val c < 256.
Proof. unfold byte_val. pose proof (nat_ascii_bounded c). lia. Qed.
Lemma le_range bs : 0 <= le_value bs < 256 ^ Z.of_nat (length bs).
Proof.
  induction bs as [|b bs IH]; [cbn; lia|]. cbn [le_value length]. rewrite Nat2Z.inj_succ, Z.pow_succ_r by lia.
  pose proof (byte_range b). lia.
Qed.
Lemma le_digit bs : forall i, (i < length bs)%nat -> byte_val (nth i bs "000"%char) = (le_value bs / 256 ^ Z.of_nat i) mod 256.
Proof.
  induction bs as [|b bs IH]; [cbn; lia|]. intros [|i] H; cbn [nth le_value].
  - cbn [Z.of_nat]. rewrite Z.pow_0_r, Z.div_1_r. pose proof (byte_range b).
    rewrite (Z.mul_comm 256), Z.mod_add, Z.mod_small by lia. reflexivity.
  - rewrite IH by (cbn [length] in H; lia). rewrite Nat2Z.inj_succ, Z.pow_succ_r by lia.
    rewrite <- Z.div_div by (try apply Z.pow_pos_nonneg; lia). pose proof (byte_range b).
    f_equal. f_equal. rewrite (Z.mul_comm 256), Z.div_add by lia. rewrite (Z.div_small (byte_val b)) by lia. lia.
Qed.
Lemma word_range o bs : 0 <= word o bs < 256 ^ Z.of_nat (length bs).
Proof. destruct o; cbn [word]; try apply le_range. pose proof (le_range (rev bs)) as H. now rewrite rev_length in H. Qed.
Lemma word_written o bs w : length bs = w -> written o w (word (order_of o) bs) bs.
Proof.
  intros <-. split; [reflexivity|]. intros i H. fold (byte_val (nth i bs "000"%char)). destruct o; cbn [order_of word place].
  - rewrite <- le_digit by (rewrite rev_length; lia). rewrite rev_nth by lia. f_equal. f_equal. lia.
  - now apply le_digit.
Qed.
Lemma pow256 w : 256 ^ Z.of_nat w = 2 ^ (8 * Z.of_nat w).
Proof. change 256 with (2 ^ 8). rewrite <- Z.pow_mul_r by lia. reflexivity. Qed.
Lemma wrap_range s w z : (0 < w)%nat -> of_width s w (wrap s (Z.of_nat w) z).
Proof.
  intros H. unfold of_width, wrap, imin. pose proof (Z.mod_pos_bound (z - (if s then - 2 ^ (8 * Z.of_nat w - 1) else 0)) (2 ^ (8 * Z.of_nat w))) as B.
  assert (P : 0 < 2 ^ (8 * Z.of_nat w)) by (apply Z.pow_pos_nonneg; lia). specialize (B P).
  assert (E : 2 ^ (8 * Z.of_nat w) = 2 * 2 ^ (8 * Z.of_nat w - 1)) by (rewrite <- Z.pow_succ_r by lia; f_equal; lia).
  destruct s; lia.
Qed.
Lemma wrap_congr s w z : exists k, wrap s (Z.of_nat w) z = z + k * 2 ^ (8 * Z.of_nat w).
Proof.
  unfold wrap. set (d := imin s (Z.of_nat w)). set (n := 2 ^ _). exists (- ((z - d) / n)).
  assert (n <> 0) by (unfold n; apply Z.pow_nonzero; lia). pose proof (Z.div_mod (z - d) n H). lia.
Qed.
Lemma div_congr z k w p : (p < w)%nat -> ((z + k * 2 ^ (8 * Z.of_nat w)) / 256 ^ Z.of_nat p) mod 256 = (z / 256 ^ Z.of_nat p) mod 256.
Proof.
  intros H. rewrite <- pow256. replace (256 ^ Z.of_nat w) with (256 ^ Z.of_nat (w - p - 1) * 256 * 256 ^ Z.of_nat p).
  - replace (k * (256 ^ Z.of_nat (w - p - 1) * 256 * 256 ^ Z.of_nat p)) with ((k * 256 ^ Z.of_nat (w - p - 1) * 256) * 256 ^ Z.of_nat p) by ring.
    rewrite Z.div_add by (apply Z.pow_nonzero; lia). rewrite Z.mod_add by lia. reflexivity.
  - rewrite <- Z.mul_assoc. change 256 with (256 ^ 1) at 2. rewrite <- !Z.pow_add_r by lia. f_equal. lia.
Qed.
Lemma written_congr o w z k bs : written o w z bs -> written o w (z + k * 2 ^ (8 * Z.of_nat w)) bs.
Proof.
  intros [L H]. split; [exact L|]. intros i Hi. rewrite H by exact Hi. symmetry. apply div_congr. destruct o; cbn [place]; lia.
Qed.
(** the byte order of a single byte does not matter *)
Lemma word_one o o' bs : length bs = 1%nat -> word o bs = word o' bs.
Proof. destruct bs as [|b [|]]; cbn; try discriminate. intros _. destruct o, o'; reflexivity. Qed.

(** ** Floats *)
Lemma ieee_ok e m u : 1 < e -> 0 < m -> 0 <= u < 2 ^ (1 + e + m) -> ieee_word e m u (ieee e m u).
Proof.
  intros He Hm Hu. assert (Pm : 0 < 2 ^ m) by (apply Z.pow_pos_nonneg; lia). assert (Pe : 0 < 2 ^ e) by (apply Z.pow_pos_nonneg; lia).
  set (f := u mod 2 ^ m). set (x := (u / 2 ^ m) mod 2 ^ e). set (t := u / 2 ^ (m + e)).
  assert (Eu : u = t * 2 ^ (e + m) + x * 2 ^ m + f).
  { unfold t, x, f. pose proof (Z.div_mod u (2 ^ m)) as D1. pose proof (Z.div_mod (u / 2 ^ m) (2 ^ e)) as D2.
    rewrite Z.div_div in D2 by lia. rewrite <- Z.pow_add_r in D2 by lia. rewrite (Z.pow_add_r 2 e m) by lia.
    assert (M : 2 ^ m <> 0) by lia. assert (E : 2 ^ e <> 0) by lia. specialize (D1 M). specialize (D2 E).
    revert D1 D2. generalize (u mod 2 ^ m), (u / 2 ^ (m + e)). intros r1 q2. generalize ((u / 2 ^ m) mod 2 ^ e). intros r2. generalize (u / 2 ^ m). intros q1 D1 D2. rewrite D1, D2. ring. }
  assert (Ht : t = 0 \/ t = 1).
  { assert (0 <= t < 2); [|lia]. unfold t. split; [apply Z.div_pos; lia|]. apply Z.div_lt_upper_bound; [lia|].
    replace (2 ^ (m + e) * 2) with (2 ^ (1 + e + m)); [lia|]. replace (1 + e + m) with (Z.succ (m + e)) by lia. rewrite Z.pow_succ_r; lia. }
  assert (Fb : 0 <= f < 2 ^ m) by (apply Z.mod_pos_bound; lia). assert (Xb : 0 <= x < 2 ^ e) by (apply Z.mod_pos_bound; lia).
  exists (Z.odd t), x, f. split; [destruct Ht as [Et|Et]; rewrite Et in Eu |- *; cbn [Z.odd]; lia|]. split; [exact Xb|]. split; [exact Fb|].
  unfold ieee_fields, ieee. fold f x t. destruct (x =? 2 ^ e - 1) eqn:X.
  - destruct (Z.eqb_spec f 0); auto.
  - eexists. split; [reflexivity|]. destruct (Z.eqb_spec x 0) as [X0|X0].
    + rewrite X0. change (Z.max 0 1) with 1. destruct (Z.odd t); f_equal; try (rewrite Z.mul_1_l; reflexivity).
      replace (-1 * f) with (- f) by lia. reflexivity.
    + rewrite Z.max_l by lia. replace (x - (2 ^ (e - 1) - 1) - m) with ((x - (2 ^ (e - 1) - 1)) + - m) by lia.
      rewrite two_to_add. assert (Q2 : (two_to (- m) == / inject_Z (2 ^ m))%Q).
      { unfold two_to. rewrite Qpower_opp. rewrite <- (two_to_Z m) by lia. reflexivity. }
      assert (Nz : ~ (inject_Z (2 ^ m) == 0)%Q) by (change 0%Q with (inject_Z 0); rewrite inject_Z_injective; lia).
      rewrite Q2. rewrite (two_to_Z m) by lia. destruct (Z.odd t); rewrite ?inject_Z_opp, inject_Z_plus; change (inject_Z (-1)) with (- (1))%Q; change (inject_Z 1) with 1%Q; field; exact Nz.
Qed.
Lemma float_ok o w bs : In w [4; 8]%nat -> length bs = w -> float_in o w (ieee_of w (word (order_of o) bs)) bs.
Proof.
  intros H L. pose proof (word_range (order_of o) bs) as R. rewrite L, pow256 in R. exists (word (order_of o) bs). split; [exact R|].
  split; [now apply word_written|]. unfold ieee_of. destruct H as [<-|[<-|[]]]; cbn [Nat.eqb]; apply ieee_ok; try lia; exact R.
Qed.

(** ** Elements *)
Lemma decode_ok name o f w bs t : pds4_type name o f w -> numpy_type name = Some t -> length bs = w -> pixel_holds o f w bs (decode t bs).
Proof.
  intros T N L. destruct (type_known _ _ _ _ T) as (o' & N' & O & _). rewrite N' in N. injection N as <-. pose proof (type_width _ _ _ _ T) as W.
  destruct f; cbn [kind_of decode pixel_holds] in *.
  - assert (Ew : word o' bs = word (order_of o) bs) by (destruct O as [->| ->]; [reflexivity|now apply word_one]). rewrite Ew.
    eexists. split; [reflexivity|]. split; [apply wrap_range; cbn in W; lia|].
    destruct (wrap_congr signed w (word (order_of o) bs)) as [k ->]. apply written_congr. now apply word_written.
  - destruct O as [->| ->]; [|cbn in W; lia]. eexists. split; [reflexivity|]. now apply float_ok.
  - destruct O as [->| ->]; [|cbn in W; lia]. eexists _, _. split; [reflexivity|].
    assert (In (w / 2) [4; 8])%nat by (destruct W as [<-|[<-|[]]]; cbn; auto). assert (w = w / 2 + w / 2)%nat by (destruct W as [<-|[<-|[]]]; reflexivity).
    split; apply float_ok; trivial; [rewrite firstn_length|rewrite skipn_length]; lia.
Qed.

(** ** Axes *)
Lemma insert_perm x l : Permutation (insert_axis x l) (x :: l).
Proof.
  induction l as [|y l IH]; cbn; [auto|]. destruct (_ <=? _); [auto|]. rewrite IH. apply perm_swap.
Qed.
Lemma sort_perm l : Permutation (sort_axes l) l.
Proof. induction l as [|x l IH]; cbn; [auto|]. unfold sort_axes in *. cbn. rewrite insert_perm. now constructor. Qed.
Definition before (a b : Z * nat) : Prop := fst a <= fst b.
Lemma insert_sorted x l : StronglySorted before l -> StronglySorted before (insert_axis x l).
Proof.
  induction 1 as [|y l S IH F]; cbn; [repeat constructor|]. destruct (Z.leb_spec (fst x) (fst y)).
  - constructor; [now constructor|]. constructor; [exact H|]. apply Forall_forall. rewrite Forall_forall in F. intros z Hz. specialize (F z Hz). unfold before in *. lia.
  - constructor; [exact IH|]. apply Forall_forall. intros z Hz. apply (Permutation_in _ (insert_perm x l)) in Hz. rewrite Forall_forall in F.
    destruct Hz as [<-|Hz]; [unfold before; lia|now apply F].
Qed.
Lemma sort_sorted l : StronglySorted before (sort_axes l).
Proof. induction l as [|x l IH]; [constructor|]. apply insert_sorted, IH. Qed.
Lemma sorted_unique l l' : StronglySorted before l -> StronglySorted before l' -> NoDup (map fst l) -> Permutation l l' -> l = l'.
Proof.
  revert l'. induction l as [|x l IH]; intros l' A B N P.
  - now apply Permutation_nil in P.
  - destruct l' as [|y l']; [now apply Permutation_sym, Permutation_nil in P|]. inversion A as [|? ? A' FA]; subst. inversion B as [|? ? B' FB]; subst.
    assert (E : x = y).
    { assert (Hy : In y (x :: l)) by (apply (Permutation_in _ (Permutation_sym P)); now left).
      assert (Hx : In x (y :: l')) by (apply (Permutation_in _ P); now left).
      destruct Hy as [->|Hy]; [reflexivity|]. destruct Hx as [->|Hx]; [reflexivity|]. exfalso.
      rewrite Forall_forall in FA, FB. specialize (FA y Hy). specialize (FB x Hx). unfold before in *.
      cbn [map] in N. inversion N as [|? ? N1 _]; subst. apply N1. replace (fst x) with (fst y) by lia. now apply in_map. }
    subst y. f_equal. apply IH; trivial; [now inversion N|]. now apply Permutation_cons_inv in P.
Qed.
Definition numbered (sh : list nat) : list (Z * nat) := map (fun i => (Z.of_nat i + 1, nth i sh 0%nat)) (seq 0 (length sh)).
Lemma numbered_fst sh : map fst (numbered sh) = map (fun i => Z.of_nat i + 1) (seq 0 (length sh)).
Proof. unfold numbered. rewrite map_map. reflexivity. Qed.
Lemma numbered_nodup sh : NoDup (map fst (numbered sh)).
Proof. rewrite numbered_fst. apply FinFun.Injective_map_NoDup; [intros a b; lia|apply seq_NoDup]. Qed.
Lemma numbered_sorted sh : StronglySorted before (numbered sh).
Proof.
  unfold numbered. change (StronglySorted before (map (fun i => (Z.of_nat i + 1, (fun i => nth i sh 0%nat) i)) (seq 0 (length sh)))).
  generalize (fun i => nth i sh 0%nat). intros g. generalize 0%nat. induction (length sh) as [|n IH]; intros k; cbn [seq map]; [constructor|].
  constructor; [apply IH|]. apply Forall_forall. intros p Hp. apply in_map_iff in Hp as (i & <- & Hi). apply in_seq in Hi. unfold before. cbn. lia.
Qed.
Lemma axes_dims axes sh : axes_shape axes sh -> map snd (sort_axes axes) = sh.
Proof.
  intros [L H]. assert (P : Permutation (numbered sh) axes).
  { apply NoDup_Permutation_bis.
    - apply (NoDup_map_inv fst), numbered_nodup.
    - unfold numbered. rewrite map_length, seq_length. lia.
    - intros p Hp. apply in_map_iff in Hp as (i & <- & Hi). apply in_seq in Hi. apply H. lia. }
  rewrite <- (sorted_unique (numbered sh) (sort_axes axes)).
  - unfold numbered. rewrite map_map. cbn [snd]. apply nth_ext with 0%nat 0%nat; [now rewrite map_length, seq_length|].
    intros i Hi. rewrite map_length, seq_length in Hi. rewrite nth_indep with (d' := (fun i => nth i sh 0%nat) 0%nat) by now rewrite map_length, seq_length.
    rewrite (map_nth (fun i => nth i sh 0%nat)), seq_nth by exact Hi. reflexivity.
  - apply numbered_sorted.
  - apply sort_sorted.
  - apply numbered_nodup.
  - rewrite P. symmetry. apply sort_perm.
Qed.

(** ** Buffers *)
Lemma chunks_length w bs : length (chunks w bs) = (length bs / w)%nat.
Proof. unfold chunks. now rewrite map_length, seq_length. Qed.
Lemma chunks_nth w bs k : (k < length bs / w)%nat -> nth k (chunks w bs) [] = firstn w (skipn (k * w) bs).
Proof.
  intros H. unfold chunks. rewrite nth_indep with (d' := (fun k => firstn w (skipn (k * w) bs)) 0%nat) by now rewrite map_length, seq_length.
  rewrite (map_nth (fun k => firstn w (skipn (k * w) bs))), seq_nth by exact H. reflexivity.
Qed.
Lemma firstn_skipn_firstn {A} n k m (l : list A) : (k + m <= n)%nat -> firstn m (skipn k (firstn n l)) = firstn m (skipn k l).
Proof. intros H. rewrite skipn_firstn_comm, firstn_firstn. f_equal. lia. Qed.
Lemma numpy_not_object name o f w t : pds4_type name o f w -> numpy_type name = Some t -> (0 < w)%nat /\ exists o' k, t = (o', k, w) /\ k <> VObject /\ (forall bs, frombuffer (Some t) bs =
  if Nat.eqb (Nat.modulo (length bs) w) 0 then Ok (map (decode t) (chunks w bs)) else Err ValueError).
Proof.
  intros T N. pose proof (type_width _ _ _ _ T) as W. destruct (type_known _ _ _ _ T) as (o' & N' & _). rewrite N' in N. injection N as <-.
  split; [destruct f; cbn in W; lia|]. exists o', (kind_of f). split; [reflexivity|]. split; [now destruct f|]. intros bs. destruct f; reflexivity.
Qed.
Lemma reshape_flat {A} (d : A) l sh : prod sh = length l ->
  exists a, reshape sh (flat_array d l) = Ok a /\ shape a = sh /\ forall idx, valid sh idx -> at_ a idx = nth (lin sh idx) l d.
Proof.
  intros H. unfold reshape, flat_array, size. cbn [shape]. cbn [prod fold_right]. rewrite Nat.mul_1_r, H, Nat.eqb_refl. eexists. split; [reflexivity|].
  split; [reflexivity|]. intros idx V. cbn [at_]. apply lin_lt in V. cbn [unlin hd prod fold_right]. f_equal. now rewrite Nat.div_1_r.
Qed.
