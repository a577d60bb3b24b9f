(** Proofs for C42 and C60 (MGS MOC transform fragments). *)
From Coq Require Import ZArith QArith Lia Lqa.
From Verif.Base Require Import Py Float FloatMore.
From Verif.Model Require Import MocTables Moc MocTransform.
From Verif.Spec Require Import Moc MocTransform.
From Verif.Proofs Require Import Moc.
Open Scope nat_scope.

(** ** Numbers *)
Lemma number_app a b : (number (a ++ b) = number a + 2 ^ Z.of_nat (List.length a) * number b)%Z.
Proof.
  induction a as [|x a IH]; [cbn [app List.length number fold_right]; change (2 ^ Z.of_nat 0)%Z with 1%Z; unfold number; cbn [fold_right]; lia|].
  change (number ((x :: a) ++ b)) with (Z.b2z x + 2 * number (a ++ b))%Z. change (number (x :: a)) with (Z.b2z x + 2 * number a)%Z. rewrite IH.
  cbn [List.length]. rewrite Nat2Z.inj_succ, Z.pow_succ_r by lia. ring.
Qed.
Lemma number_bound a : (0 <= number a < 2 ^ Z.of_nat (List.length a))%Z.
Proof.
  induction a as [|x a IH]; [cbn; lia|]. change (number (x :: a)) with (Z.b2z x + 2 * number a)%Z. cbn [List.length]. rewrite Nat2Z.inj_succ, Z.pow_succ_r by lia.
  destruct x; cbn [Z.b2z]; lia.
Qed.
Lemma number_firstn n q : n <= List.length q -> (number (firstn n q) = number q mod 2 ^ Z.of_nat n)%Z.
Proof.
  intros L. rewrite <- (firstn_skipn n q) at 2. rewrite number_app, firstn_length, Nat.min_l by lia. rewrite (Z.mul_comm (2 ^ _)), Z.mod_add by lia.
  symmetry. apply Z.mod_small. pose proof (number_bound (firstn n q)) as B. now rewrite firstn_length, Nat.min_l in B by lia.
Qed.
Lemma number_skipn n q : n <= List.length q -> (number (skipn n q) = number q / 2 ^ Z.of_nat n)%Z.
Proof.
  intros L. rewrite <- (firstn_skipn n q) at 2. rewrite number_app, firstn_length, Nat.min_l by lia. rewrite (Z.mul_comm (2 ^ _)), Z.div_add by lia.
  rewrite Z.div_small; [lia|]. pose proof (number_bound (firstn n q)) as B. now rewrite firstn_length, Nat.min_l in B by lia.
Qed.
Lemma low_bits_len n v : List.length (low_bits n v) = n.
Proof. unfold low_bits. now rewrite map_length, seq_length. Qed.
Lemma low_bits_S n v : low_bits (S n) v = Z.odd v :: low_bits n (v / 2).
Proof.
  unfold low_bits. cbn [seq map]. rewrite <- seq_shift, map_map. f_equal. apply map_ext. intros i. rewrite Nat2Z.inj_succ. rewrite <- Z.div2_div, Z.div2_spec, Z.shiftr_spec by lia. reflexivity.
Qed.
Lemma number_low n : forall v, (0 <= v < 2 ^ Z.of_nat n)%Z -> number (low_bits n v) = v.
Proof.
  induction n as [|n IH]; intros v B; [cbn in *; lia|]. rewrite low_bits_S. change (number (Z.odd v :: low_bits n (v / 2))) with (Z.b2z (Z.odd v) + 2 * number (low_bits n (v / 2)))%Z.
  rewrite Nat2Z.inj_succ, Z.pow_succ_r in B by lia. rewrite IH by (split; [apply Z.div_pos; lia|apply Z.div_lt_upper_bound; lia]).
  rewrite <- Z.bit0_odd, Z.bit0_mod. pose proof (Z.div_mod v 2 ltac:(lia)). lia.
Qed.
Lemma byte_low b : byte_bits b = low_bits 8 b.
Proof. reflexivity. Qed.

(** ** The reader *)
Inductive reads (data : list Z) : reader -> list bool -> Prop :=
| reads_new : reads data (new_reader data) (bits_of data)
| reads_some q p : p <= List.length data -> reads data (mkRd (number q) (List.length q) p) (q ++ bits_of (skipn p data))
| reads_last q : reads data (mkRd (number q) (List.length q) 0) q.
Lemma skipn_cons {A} (l : list A) p d : p < List.length l -> skipn p l = nth p l d :: skipn (S p) l.
Proof. revert p. induction l as [|x l IH]; intros p L; [cbn in L; lia|]. destruct p; [reflexivity|]. cbn [skipn nth]. apply IH. cbn in L. lia. Qed.
Lemma queue_more data q p : Forall is_byte data -> p < List.length data ->
  Z.lor (number q) (Z.shiftl (byte_at data p) (Z.of_nat (List.length q))) = number (q ++ byte_bits (byte_at data p)).
Proof.
  intros F L. rewrite lor_shift by (lia || apply number_bound). rewrite number_app, byte_low, number_low; [ring|].
  rewrite Forall_forall in F. assert (B : is_byte (byte_at data p)) by (apply F; unfold byte_at; now apply nth_In). unfold is_byte in B. cbn. lia.
Qed.
Lemma refill_ok n data : Forall is_byte data -> n <= 24 -> forall fuel q p, 24 <= List.length q + 8 * fuel -> p <= List.length data -> n <= List.length q + 8 * (List.length data - p) ->
  exists q' p', refill fuel n data (mkRd (number q) (List.length q) p) = Ok (mkRd (number q') (List.length q') p') /\ n <= List.length q' /\
    (p' <= List.length data /\ q' ++ bits_of (skipn p' data) = q ++ bits_of (skipn p data) \/ p' = 0 /\ q' = q ++ bits_of (skipn p data)).
Proof.
  intros F N. induction fuel as [|fuel IH]; intros q p Lf Lp Ln; cbn [refill count pos queue]; (destruct (Nat.ltb_spec (List.length q) 24) as [Lq|Lq]; [|exists q, p; repeat split; (lia || (left; now split))]); [lia|].
  destruct (Nat.eqb_spec p (List.length data)) as [->|Np].
  - destruct (Nat.leb_spec n (List.length q)) as [Le|Gt]; [|lia]. exists q, 0. repeat split; [exact Le|]. right. split; [reflexivity|]. rewrite skipn_all. cbn. now rewrite app_nil_r.
  - rewrite queue_more by (assumption || lia). set (b := byte_at data p).
    replace (List.length q + 8) with (List.length (q ++ byte_bits b)) by (now rewrite app_length, byte_bits_len).
    destruct (IH (q ++ byte_bits b) (S p)) as (q' & p' & E & Ln' & C).
    + rewrite app_length, byte_bits_len. lia.
    + lia.
    + rewrite app_length, byte_bits_len. lia.
    + exists q', p'. split; [exact E|]. split; [exact Ln'|].
      assert (Eb : q ++ bits_of (skipn p data) = (q ++ byte_bits b) ++ bits_of (skipn (S p) data)).
      { rewrite (skipn_cons data p 0%Z) by lia. change (nth p data 0%Z) with b. change (bits_of (b :: skipn (S p) data)) with (byte_bits b ++ bits_of (skipn (S p) data)). now rewrite app_assoc. }
      rewrite Eb. exact C.
Qed.
Lemma mask n : n <= 24 -> Z.shiftr 4294967295 (32 - Z.of_nat n) = Z.ones (Z.of_nat n).
Proof. intros L. do 25 (destruct n as [|n]; [reflexivity|]). lia. Qed.
Lemma take_queue n q p : n <= 24 -> n <= List.length q ->
  (Z.land (queue (mkRd (number q) (List.length q) p)) (Z.shiftr 4294967295 (32 - Z.of_nat n)), mkRd (Z.shiftr (queue (mkRd (number q) (List.length q) p)) (Z.of_nat n)) (count (mkRd (number q) (List.length q) p) - n) (pos (mkRd (number q) (List.length q) p))) =
  (number (firstn n q), mkRd (number (skipn n q)) (List.length (skipn n q)) p).
Proof.
  intros N L. cbn [queue count pos]. rewrite mask, Z.land_ones, Z.shiftr_div_pow2 by lia. rewrite <- number_firstn, <- number_skipn by exact L. now rewrite skipn_length.
Qed.
Lemma firstn_front {A} n (a b : list A) : n <= List.length a -> firstn n (a ++ b) = firstn n a.
Proof. intros L. rewrite firstn_app. replace (n - List.length a) with 0 by lia. cbn. apply app_nil_r. Qed.
Lemma skipn_front {A} n (a b : list A) : n <= List.length a -> skipn n (a ++ b) = skipn n a ++ b.
Proof. intros L. rewrite skipn_app. replace (n - List.length a) with 0 by lia. reflexivity. Qed.
Lemma read_ok n data r rest : Forall is_byte data -> n <= 24 -> n <= List.length rest -> reads data r rest ->
  exists r', read_bits n data r = Ok (number (firstn n rest), r') /\ reads data r' (skipn n rest).
Proof.
  intros F N L R. unfold read_bits. destruct (Nat.ltb_spec 24 n) as [?|_]; [lia|].
  assert (Some_ : forall q p, p <= List.length data -> n <= List.length q + 8 * (List.length data - p) ->
    exists r', rbind (refill 4 n data (mkRd (number q) (List.length q) p)) (fun r => Ok (Z.land (queue r) (Z.shiftr 4294967295 (32 - Z.of_nat n)), mkRd (Z.shiftr (queue r) (Z.of_nat n)) (count r - n) (pos r))) = Ok (number (firstn n (q ++ bits_of (skipn p data))), r') /\
      reads data r' (skipn n (q ++ bits_of (skipn p data)))).
  { intros q p Lp Ln. destruct (refill_ok n data F N 4 q p ltac:(lia) Lp Ln) as (q' & p' & E & Ln' & C). rewrite E. cbn [rbind]. rewrite take_queue by assumption. eexists. split.
    - destruct C as [[_ C]|[_ C]]; rewrite <- C; [now rewrite firstn_front|reflexivity].
    - destruct C as [[Lp' C]|[-> C]]; rewrite <- C; [rewrite skipn_front by exact Ln'; now constructor|constructor]. }
  destruct R as [|q p Lp|q].
  - rewrite bits_of_len in L. cbn [count new_reader]. destruct (Nat.ltb_spec 0 n) as [P|P].
    + destruct data as [|b data]; [cbn in L; lia|]. destruct (Some_ [] 0 (Nat.le_0_l _)) as (r' & E & R'); [rewrite Nat.sub_0_r; exact L|].
      cbn [app skipn] in E, R'. exists r'. split; [|exact R']. rewrite <- E.
      change (mkRd (number []) (List.length (@nil bool)) 0) with (mkRd 0 0 0). unfold new_reader. cbn [refill count pos queue Nat.ltb Nat.leb Nat.eqb List.length].
      change (byte_at (b :: data) 0) with b. change (Z.of_nat 0) with 0%Z. rewrite Z.shiftl_0_r, Z.lor_diag, Z.lor_0_l. reflexivity.
    + assert (n = 0) as -> by lia. cbn [rbind]. eexists. split; [|cbn [skipn]]. 
      * cbn [firstn]. unfold new_reader. cbn [queue count pos]. change (Z.shiftr 4294967295 (32 - Z.of_nat 0)) with 0%Z. rewrite Z.land_0_r. reflexivity.
      * unfold new_reader. cbn [queue count pos]. change (Z.of_nat 0) with 0%Z. rewrite Z.shiftr_0_r. apply reads_new.
  - cbn [count]. rewrite app_length, bits_of_len, skipn_length in L. destruct (Nat.ltb_spec (List.length q) n) as [P|P]; [apply Some_; (assumption || lia)|].
    cbn [rbind]. rewrite take_queue by assumption. eexists. split; [now rewrite firstn_front|]. rewrite skipn_front by exact P. now constructor.
  - cbn [count]. destruct (Nat.ltb_spec (List.length q) n) as [P|P]; [lia|]. cbn [rbind]. rewrite take_queue by assumption. eexists. split; [reflexivity|constructor].
Qed.
(** reading a number that stands there *)
Lemma read_number n v data r rest : Forall is_byte data -> n <= 24 -> (0 <= v < 2 ^ Z.of_nat n)%Z -> reads data r (low_bits n v ++ rest) ->
  exists r', read_bits n data r = Ok (v, r') /\ reads data r' rest.
Proof.
  intros F N B R. destruct (read_ok n data r (low_bits n v ++ rest) F N ltac:(rewrite app_length, low_bits_len; lia) R) as (r' & E & R'). exists r'.
  rewrite firstn_front in E by (rewrite low_bits_len; lia). rewrite firstn_all2 in E by (rewrite low_bits_len; lia). rewrite number_low in E by exact B. split; [exact E|].
  rewrite skipn_front in R' by (rewrite low_bits_len; lia). rewrite skipn_all2 in R' by (rewrite low_bits_len; lia). exact R'.
Qed.

(** ** Code trees *)
Fixpoint path (t : btree) (bs : list bool) : option (Z * list bool) :=
  match t with
  | Leaf v => Some (v, bs)
  | Node z o => match bs with [] => None | b :: bs => if b then path o bs else path z bs end
  end.
Lemma path_more t : forall bs v r rest, path t bs = Some (v, r) -> path t (bs ++ rest) = Some (v, r ++ rest).
Proof.
  induction t as [v|z IHz o IHo]; intros bs v' r rest H; [injection H as <- <-; reflexivity|]. destruct bs as [|b bs]; [discriminate|]. cbn [path app] in *. destruct b; [now apply IHo|now apply IHz].
Qed.
Lemma descend_ok t data : Forall is_byte data -> forall bs v r rest, path t bs = Some (v, []) -> reads data r (bs ++ rest) ->
  exists r', descend t data r = Ok (v, r') /\ reads data r' rest.
Proof.
  intros F. induction t as [v|z IHz o IHo]; intros bs v' r rest P R.
  - injection P as <- ->. exists r. split; [reflexivity|exact R].
  - destruct bs as [|b bs]; [discriminate|]. cbn [path] in P.
    destruct (read_ok 1 data r (b :: bs ++ rest) F ltac:(lia) ltac:(cbn; lia) R) as (r1 & E & R1). cbn [firstn skipn] in E, R1. cbn [descend]. rewrite E. cbn [rbind fst snd].
    change (number [b]) with (Z.b2z b + 2 * 0)%Z. destruct b; cbn [Z.b2z Z.add Z.mul Z.eqb]; [now apply (IHo bs)|now apply (IHz bs)].
Qed.
Definition tree (which : nat) : btree := match encode_tree which with Ok t => t | Err _ => Leaf 0 end.
Lemma trees_built : forallb (fun w => match encode_tree w with Ok _ => true | Err _ => false end) (seq 0 8) = true.
Proof. vm_compute. reflexivity. Qed.
Lemma tree_ok w : w < 8 -> encode_tree w = Ok (tree w).
Proof.
  intros H. pose proof trees_built as T. rewrite forallb_forall in T. specialize (T w ltac:(apply in_seq; lia)). cbv beta in T. unfold tree. destruct (encode_tree w); [reflexivity|discriminate].
Qed.
Lemma rmap_map {A B} (f : A -> res B) (g : A -> B) l : (forall x, In x l -> f x = Ok (g x)) -> rmap f l = Ok (map g l).
Proof. induction l as [|x l IH]; intros H; [reflexivity|]. cbn [rmap map]. rewrite (H x) by (now left). cbn [rbind]. rewrite IH by (intros y I; apply H; now right). reflexivity. Qed.
Lemma encode_trees_ok : encode_trees = Ok (map tree (seq 0 8)).
Proof. apply rmap_map. intros w I. apply in_seq in I. apply tree_ok. lia. Qed.
Definition word_leads (t : btree) (w n : nat) : bool :=
  match path t (coef_word w n) with Some (v, []) => (v =? leaf_value (table_size w) n)%Z | _ => false end.
Lemma words_lead : forallb (fun w => let t := tree w in (table_size w =? coef_size w) && forallb (word_leads t w) (seq 0 (table_size w))) (seq 0 8) = true.
Proof. vm_compute. reflexivity. Qed.
Lemma word_path_of (f : nat -> btree) : forallb (fun w => let t := f w in (table_size w =? coef_size w) && forallb (word_leads t w) (seq 0 (table_size w))) (seq 0 8) = true ->
  forall w n, w < 8 -> n < table_size w -> path (f w) (coef_word w n) = Some (leaf_value (table_size w) n, []) /\ table_size w = coef_size w.
Proof.
  intros T w n Hw Hn. rewrite forallb_forall in T. specialize (T w ltac:(apply in_seq; lia)). cbv beta zeta in T. apply andb_true_iff in T as [S T]. apply Nat.eqb_eq in S.
  rewrite forallb_forall in T. specialize (T n ltac:(apply in_seq; lia)). unfold word_leads in T. split; [|exact S]. destruct (path (f w) (coef_word w n)) as [[v [|? ?]]|]; try discriminate. apply Z.eqb_eq in T. now rewrite T.
Qed.
Lemma word_path w n : w < 8 -> n < table_size w -> path (tree w) (coef_word w n) = Some (leaf_value (table_size w) n, []).
Proof. intros Hw Hn. exact (proj1 (word_path_of tree words_lead w n Hw Hn)). Qed.
Lemma sizes_fit : forallb (fun w => (2 <? table_size w) && (table_size w <? 1000)) (seq 0 8) = true.
Proof. vm_compute. reflexivity. Qed.
Lemma size_bounds w : w < 8 -> 2 < table_size w < 1000.
Proof. intros H. pose proof sizes_fit as T. rewrite forallb_forall in T. specialize (T w ltac:(apply in_seq; lia)). cbv beta in T. apply andb_true_iff in T as [A B]. apply Nat.ltb_lt in A. apply Nat.ltb_lt in B. lia. Qed.
Lemma lor_32768 v : (0 <= v < 32768)%Z -> Z.lor v 32768 = (v + 32768)%Z.
Proof. intros H. pose proof (lor_shift v 1 15 ltac:(lia) ltac:(lia)) as E. change (Z.shiftl 1 15) with 32768%Z in E. change (1 * 2 ^ 15)%Z with 32768%Z in E. exact E. Qed.
Lemma coef_ok w c bs data r rest : w < 8 -> Forall is_byte data -> coef_coded w c bs -> reads data r (bs ++ rest) ->
  exists r', read_coef (tree w) data r = Ok (c, r') /\ reads data r' rest /\ (-32768 <= c < 32768)%Z.
Proof.
  intros Hw F C R. pose proof (size_bounds w Hw) as Bs. generalize (word_path w). intros WP. set (t := tree w) in *. clearbody t. unfold read_coef. destruct C as [n Hn|c Hc|c Hc].
  - specialize (WP n Hw ltac:(lia)). destruct (descend_ok t data F _ _ r rest WP R) as (r1 & E & R1). rewrite E. cbn [rbind fst snd].
    unfold leaf_value. destruct (Nat.eqb_spec n 0); [lia|]. destruct (Nat.eqb_spec n (table_size w - 1)); [lia|].
    assert (D : (Z.of_nat (table_size w) / 2 = Z.of_nat (table_size w / 2))%Z) by (rewrite Nat2Z.inj_div; reflexivity). rewrite D.
    assert (Hd : table_size w / 2 <= table_size w) by (apply Nat.div_le_upper_bound; lia). unfold LARGE_NEGATIVE, LARGE_POSITIVE.
    destruct (Z.eqb_spec (Z.of_nat n - Z.of_nat (table_size w / 2)) 16777216); [lia|]. destruct (Z.eqb_spec (Z.of_nat n - Z.of_nat (table_size w / 2)) 33554432); [lia|].
    exists r1. split; [reflexivity|]. split; [exact R1|lia].
  - rewrite <- app_assoc in R. specialize (WP 0 Hw ltac:(lia)). destruct (descend_ok t data F _ _ r _ WP R) as (r1 & E & R1). rewrite E. cbn [rbind fst snd leaf_value Nat.eqb].
    rewrite Z.eqb_refl. destruct (read_number 15 (c + 32768) data r1 rest F ltac:(lia) ltac:(cbn; lia) R1) as (r2 & E2 & R2). rewrite E2. cbn [rbind fst snd]. cbv zeta.
    exists r2. split; [|split; [exact R2|lia]]. rewrite lor_32768 by lia.
    assert (T : Z.land (c + 32768 + 32768) 32768 <> 0%Z).
    { rewrite <- lor_32768 by lia. intros E0. apply (f_equal (fun z => Z.testbit z 15)) in E0. rewrite Z.land_spec, Z.lor_spec in E0. cbn [Z.testbit] in E0. change (Z.testbit 32768 15) with true in E0. rewrite orb_true_r in E0. discriminate. }
    apply Z.eqb_neq in T. rewrite T. f_equal. f_equal. lia.
  - rewrite <- app_assoc in R. specialize (WP (table_size w - 1) Hw ltac:(lia)). destruct (descend_ok t data F _ _ r _ WP R) as (r1 & E & R1). rewrite E. cbn [rbind fst snd].
    unfold leaf_value. destruct (Nat.eqb_spec (table_size w - 1) 0); [lia|]. rewrite Nat.eqb_refl. change (LARGE_POSITIVE =? LARGE_NEGATIVE)%Z with false. rewrite Z.eqb_refl.
    destruct (read_number 15 c data r1 rest F ltac:(lia) ltac:(cbn; lia) R1) as (r2 & E2 & R2). rewrite E2. cbn [rbind fst snd]. exists r2. split; [|split; [exact R2|lia]].
    f_equal. f_equal. change 32767%Z with (Z.ones 15). rewrite Z.land_ones by lia. apply Z.mod_small. cbn. lia.
Qed.

(** ** The mean *)
Lemma grid_512 k : (Z.abs k < 2 ^ 53)%Z -> (round64 (inject_Z k / 512) == inject_Z k / 512)%Q.
Proof.
  intros H. apply round_ne_exact. exists k, (-9)%Z. split; [|split; [exact H|lia]]. change (two_to (-9)) with (1 # 512)%Q. field.
Qed.
Lemma round64_floor x z : (0 <= z < 2 ^ 40)%Z -> (inject_Z z <= x)%Q -> (x <= inject_Z (512 * z + 511) / 512)%Q ->
  (inject_Z z <= round64 x)%Q /\ (round64 x <= inject_Z (512 * z + 511) / 512)%Q.
Proof.
  intros B L U. split.
  - rewrite <- (round64_Z z) by (change (2 ^ 40)%Z with 1099511627776%Z in B; change (2 ^ 53)%Z with 9007199254740992%Z; lia). apply round_ne_mono; [lia|exact L].
  - rewrite <- (grid_512 (512 * z + 511)) by (change (2 ^ 40)%Z with 1099511627776%Z in B; change (2 ^ 53)%Z with 9007199254740992%Z; lia). apply round_ne_mono; [lia|exact U].
Qed.
Lemma quot_floor q z : (0 <= z)%Z -> (inject_Z z <= q)%Q -> (q < inject_Z (z + 1))%Q -> Z.quot (Qnum q) (Zpos (Qden q)) = z.
Proof.
  intros B L U. unfold Qle, Qlt in *. cbn [Qnum Qden inject_Z] in *. rewrite Z.mul_1_r in *. assert (P : (0 < Zpos (Qden q))%Z) by lia.
  rewrite Z.quot_div_nonneg by nia. symmetry. apply Z.div_unique with (Qnum q - z * Zpos (Qden q))%Z; lia.
Qed.
Lemma dc_value_ok d lo hi : (0 <= d < 256)%Z -> (0 <= lo <= hi)%Z -> (hi < 65536)%Z -> dc_value d lo hi = (lo + d * (hi - lo) / 255)%Z.
Proof.
  intros Hd Hl Hh. unfold dc_value. cbv zeta. set (n := (d * (hi - lo))%Z). assert (N : (0 <= n < 16777216)%Z) by (unfold n; nia).
  set (z := (n / 255)%Z). pose proof (Z.div_mod n 255 ltac:(lia)) as D. pose proof (Z.mod_pos_bound n 255 ltac:(lia)) as M. fold z in D.
  assert (Bz : (0 <= z < 16777216)%Z) by lia.
  assert (P40 : (2 ^ 40 = 1099511627776)%Z) by reflexivity.
  destruct (round64_floor (inject_Z n / 255) z) as [L1 U1].
  - lia.
  - unfold Qle, Qdiv, Qmult, Qinv. cbn [Qnum Qden inject_Z]. lia.
  - unfold Qle, Qdiv, Qmult, Qinv. cbn [Qnum Qden inject_Z]. lia.
  - set (x := round64 (inject_Z n / 255)) in *. clearbody x.
    destruct (round64_floor (x + inject_Z lo) (z + lo)) as [L2 U2].
    + lia.
    + rewrite inject_Z_plus. lra.
    + assert (E : (inject_Z (512 * (z + lo) + 511) / 512 == inject_Z (512 * z + 511) / 512 + inject_Z lo)%Q). { rewrite !inject_Z_plus, !inject_Z_mult, !inject_Z_plus. field. } rewrite E. lra.
    + set (y := round64 (x + inject_Z lo)) in *. clearbody y. replace (lo + z)%Z with (z + lo)%Z by lia. apply quot_floor; [lia|exact L2|].
      eapply Qle_lt_trans; [exact U2|]. unfold Qlt, Qdiv, Qmult, Qinv. cbn [Qnum Qden inject_Z]. lia.
Qed.

(** ** Blocks *)
Lemma int32_id z : (-2147483648 <= z < 2147483648)%Z -> int32 z = z.
Proof. intros H. unfold int32. rewrite Z.mod_small by lia. lia. Qed.
Lemma nth_tree w : w < 8 -> nth_error (map tree (seq 0 8)) w = Some (tree w).
Proof. generalize tree as f. intros f H. do 8 (destruct w as [|w]; [reflexivity|]). lia. Qed.
Lemma coefs_ok data spacing var trees : Forall is_byte data -> (forall w, w < 8 -> nth_error trees w = Some (tree w)) -> (0 <= spacing < 65536)%Z -> forall tables cs bs, coefs_coded tables cs bs ->
  forall i r rest, Forall (fun t => t < 8) tables -> (forall j, j < List.length tables -> nth (i + j) var 0%Z = Z.of_nat (nth j tables 0)) -> reads data r (bs ++ rest) ->
  exists r', read_coefs (List.length cs) i spacing var trees data r = Ok (map (fun c => c * spacing)%Z cs, r') /\ reads data r' rest /\ List.length cs <= List.length tables.
Proof.
  intros F Et Hs tables cs bs C. induction C as [tables|which tables c cs bs bs' Cc Cs IH]; intros i r rest Ft V R.
  - exists r. split; [reflexivity|]. split; [exact R|cbn; lia].
  - inversion Ft as [|? ? Hw Ft']; subst. rewrite <- app_assoc in R. cbn [List.length read_coefs map].
    pose proof (V 0 ltac:(cbn; lia)) as V0. rewrite Nat.add_0_r in V0. cbn [nth] in V0. rewrite V0, Nat2Z.id, (Et which Hw).
    destruct (coef_ok which c bs data r (bs' ++ rest) Hw F Cc R) as (r1 & E1 & R1 & Bc). rewrite E1. cbn [rbind fst snd].
    destruct (IH (S i) r1 rest Ft') as (r2 & E2 & R2 & L2).
    + intros j Hj. specialize (V (S j) ltac:(cbn; lia)). rewrite <- Nat.add_succ_comm in V. exact V.
    + exact R1.
    + rewrite E2. cbn [rbind fst snd]. exists r2. split; [|split; [exact R2|cbn [List.length]; lia]]. rewrite int32_id by nia. reflexivity.
Qed.
Lemma trans_ok : forallb (fun t => (0 <=? t)%Z && (t <? 256)%Z) trans = true.
Proof. vm_compute. reflexivity. Qed.
Lemma block_ok inverse l spacing b data r bs rest trees : Forall is_byte data -> (forall w, w < 8 -> nth_error trees w = Some (tree w)) -> (0 <= spacing < 65536)%Z -> well_made l -> (0 <= dc b < 256)%Z -> coefs_coded (table_of l) (coefs b) bs ->
  reads data r (low_bits 8 (dc b) ++ low_bits 8 (255 - Z.of_nat (List.length (coefs b))) ++ bs ++ rest) ->
  exists f r', read_block inverse 1 spacing (lowest l) (highest l) (0%Z :: map Z.of_nat (table_of l)) trees data r = Ok (f, r') /\ reads data r' rest /\
    forall y0 x0, f y0 x0 = limit (inverse (coefficients l spacing b) (y0 * 16 + x0)).
Proof.
  intros F Et Hs (B1 & B2 & Lt & Ft) Hd C R. unfold read_block.
  destruct (read_number 8 (dc b) data r _ F ltac:(lia) ltac:(cbn; lia) R) as (r1 & E1 & R1). rewrite E1. cbn [rbind fst snd].
  assert (Lc : List.length (coefs b) <= 255). { rewrite <- Lt. clear - C. induction C; cbn; lia. }
  destruct (read_number 8 (255 - Z.of_nat (List.length (coefs b))) data r1 (bs ++ rest) F ltac:(lia) ltac:(change (2 ^ Z.of_nat 8)%Z with 256%Z; lia) R1) as (r2 & E2 & R2). rewrite E2. cbn [rbind fst snd].
  replace (255 - Z.to_nat (255 - Z.of_nat (List.length (coefs b)))) with (List.length (coefs b)) by lia.
  destruct (coefs_ok data spacing (0%Z :: map Z.of_nat (table_of l)) trees F Et Hs (table_of l) (coefs b) bs C 1 r2 rest Ft) as (r3 & E3 & R3 & _).
  - intros j Hj. cbn [Nat.add nth]. rewrite (nth_indep _ 0%Z (Z.of_nat 0)) by (now rewrite map_length). now rewrite map_nth.
  - exact R2.
  - rewrite E3. cbn [rbind fst snd]. change (1 =? 1)%Z with true. cbv iota. do 2 eexists. split; [reflexivity|]. split; [exact R3|]. intros y0 x0.
    rewrite dc_value_ok by lia. unfold limit. f_equal. f_equal. f_equal. unfold reorder, coefficients. apply map_ext_in. intros t I.
    pose proof trans_ok as T. rewrite forallb_forall in T. specialize (T t I). apply andb_true_iff in T as [T1 T2]. apply Z.leb_le in T1. apply Z.ltb_lt in T2.
    unfold coefficient. destruct (Z.eqb_spec t 0) as [->|Nt]; [reflexivity|]. replace (Z.to_nat t) with (S (Z.to_nat t - 1)) at 1 by lia. cbn [nth]. set (j := Z.to_nat t - 1).
    destruct (Nat.lt_ge_cases j (List.length (coefs b))) as [Lj|Lj].
    + rewrite app_nth1 by (now rewrite map_length). rewrite (nth_indep _ 0%Z (0 * spacing)%Z) by (now rewrite map_length). now rewrite (map_nth (fun c => (c * spacing)%Z)).
    + rewrite app_nth2 by (rewrite map_length; lia). rewrite (nth_overflow (coefs b)) by exact Lj. rewrite nth_repeat. reflexivity.
Qed.

(** ** Groups of blocks *)
Lemma many_ok n data : n <= 24 -> Forall is_byte data -> forall vs r rest, Forall (fun v => 0 <= v < 2 ^ Z.of_nat n)%Z vs -> reads data r (flat_map (low_bits n) vs ++ rest) ->
  exists r', read_many (List.length vs) n data r = Ok (vs, r') /\ reads data r' rest.
Proof.
  intros N F. induction vs as [|v vs IH]; intros r rest B R.
  - exists r. split; [reflexivity|exact R].
  - inversion B as [|? ? Bv Bs]; subst. cbn [flat_map] in R. rewrite <- app_assoc in R. destruct (read_number n v data r _ F N Bv R) as (r1 & E1 & R1).
    cbn [List.length read_many]. rewrite E1. cbn [rbind fst snd]. destruct (IH r1 rest Bs R1) as (r2 & E2 & R2). rewrite E2. cbn [rbind fst snd]. exists r2. split; [reflexivity|exact R2].
Qed.
Definition here (y x : nat) (e : (nat * nat) * tblock) : bool := (fst (fst e) =? x / 16) && (snd (fst e) =? y / 16).
Definition corner_of (e : (nat * nat) * tblock) : nat * nat := (16 * fst (fst e), 16 * snd (fst e)).
Definition group_of (e : (nat * nat) * tblock) : Z := Z.of_nat (group (snd e)).
Lemma paint_at img bx by_ f y x : paint img (16 * bx) (16 * by_) f y x = if (bx =? x / 16) && (by_ =? y / 16) then f (y mod 16) (x mod 16) else img y x.
Proof.
  unfold paint. pose proof (Nat.div_mod x 16 ltac:(lia)) as Dx. pose proof (Nat.mod_upper_bound x 16 ltac:(lia)) as Mx.
  pose proof (Nat.div_mod y 16 ltac:(lia)) as Dy. pose proof (Nat.mod_upper_bound y 16 ltac:(lia)) as My.
  destruct (Nat.eqb_spec bx (x / 16)) as [->|Nx]; destruct (Nat.eqb_spec by_ (y / 16)) as [->|Ny]; cbn [andb].
  - replace (16 * (y / 16) <=? y) with true by (symmetry; apply Nat.leb_le; lia). replace (y <? 16 * (y / 16) + 16) with true by (symmetry; apply Nat.ltb_lt; lia).
    replace (16 * (x / 16) <=? x) with true by (symmetry; apply Nat.leb_le; lia). replace (x <? 16 * (x / 16) + 16) with true by (symmetry; apply Nat.ltb_lt; lia).
    cbn [andb]. f_equal; lia.
  - destruct (Nat.leb_spec (16 * by_) y); destruct (Nat.ltb_spec y (16 * by_ + 16)); cbn [andb]; try reflexivity. exfalso. lia.
  - destruct (Nat.leb_spec (16 * bx) x); destruct (Nat.ltb_spec x (16 * bx + 16)); cbn [andb]; rewrite ?andb_false_r; try reflexivity. exfalso. lia.
  - destruct (Nat.leb_spec (16 * bx) x); destruct (Nat.ltb_spec x (16 * bx + 16)); cbn [andb]; rewrite ?andb_false_r; try reflexivity. exfalso. lia.
Qed.
Lemma here_other y x e todo : here y x e = true -> ~ In (fst e) (map fst todo) -> forall p, find (fun e' => here y x e' && p e') todo = None.
Proof.
  intros H N p. destruct (find _ todo) as [e'|] eqn:E; [|reflexivity]. apply find_some in E as [I H']. apply andb_true_iff in H' as [H' _]. exfalso. apply N. apply in_map_iff. exists e'. split; [|exact I].
  unfold here in *. apply andb_true_iff in H as [A B]. apply andb_true_iff in H' as [A' B']. apply Nat.eqb_eq in A, B, A', B'. destruct e as [[a b] t], e' as [[a' b'] t']. cbn [fst snd] in *. congruence.
Qed.
Section Level.
  Variables (inverse : list Z -> nat -> Z) (spacing : Z) (trees : list btree) (data : list Z).
  Hypothesis F : Forall is_byte data.
  Hypothesis Et : forall w, w < 8 -> nth_error trees w = Some (tree w).
  Hypothesis Hs : (0 <= spacing < 65536)%Z.
  Definition shown (l : level) (e : (nat * nat) * tblock) (y x : nat) : Z := limit (inverse (coefficients l spacing (snd e)) (16 * (y mod 16) + x mod 16)).
  Lemma level_ok l k : well_made l -> forall todo bs r rest img, NoDup (map fst todo) -> blocks_coded l (filter (fun b => group b =? k) (map snd todo)) bs -> reads data r (bs ++ rest) ->
    exists img' r', read_level inverse (map corner_of todo) (map group_of todo) (Z.of_nat k) 1 spacing (lowest l) (highest l) (0%Z :: map Z.of_nat (table_of l)) trees data r img = (img', Ok r') /\
      reads data r' rest /\
      forall y x, img' y x = match find (fun e => here y x e && (group (snd e) =? k)) todo with Some e => shown l e y x | None => img y x end.
  Proof.
    intros W. induction todo as [|e todo IH]; intros bs r rest img ND C R.
    - inversion C; subst. exists img, r. split; [reflexivity|]. split; [exact R|reflexivity].
    - cbn [map] in ND. inversion ND as [|? ? N ND']; subst. cbn [map read_level filter] in *. cbv [corner_of group_of] in *. fold corner_of group_of in *.
      destruct (Nat.eqb_spec (group (snd e)) k) as [Eg|Ng].
      + rewrite Eg, Z.eqb_refl. inversion C as [|b blocks bs1 bs2 Hd Cc Cb Eb E2]; subst b blocks. subst bs. rewrite <- !app_assoc in R.
        destruct (block_ok inverse l spacing (snd e) data r bs1 (bs2 ++ rest) trees F Et Hs W Hd Cc R) as (f & r1 & E1 & R1 & Hf). rewrite E1.
        destruct (IH bs2 r1 rest (paint img (16 * fst (fst e)) (16 * snd (fst e)) f) ND' Cb R1) as (img' & r2 & E3 & R2 & H). exists img', r2. split; [exact E3|]. split; [exact R2|].
        intros y x. rewrite H. cbn [find]. rewrite Eg, Nat.eqb_refl, andb_true_r. destruct (here y x e) eqn:Eh.
        * rewrite (here_other y x e todo Eh N). rewrite paint_at. unfold here in Eh. rewrite Eh, Hf. unfold shown. do 2 f_equal. lia.
        * destruct (find _ todo); [reflexivity|]. rewrite paint_at. unfold here in Eh. now rewrite Eh.
      + replace (Z.of_nat (group (snd e)) =? Z.of_nat k)%Z with false by (symmetry; apply Z.eqb_neq; lia).
        destruct (IH bs r rest img ND' C R) as (img' & r2 & E3 & R2 & H). exists img', r2. split; [exact E3|]. split; [exact R2|]. intros y x. rewrite H. cbn [find].
        replace (group (snd e) =? k) with false by (symmetry; now apply Nat.eqb_neq). rewrite andb_false_r. reflexivity.
  Qed.
  Lemma present_iff k todo : existsb (Z.eqb (Z.of_nat k)) (map group_of todo) = true <-> exists b, In b (map snd todo) /\ group b = k.
  Proof.
    rewrite existsb_exists. split.
    - intros (g & I & E). apply Z.eqb_eq in E. apply in_map_iff in I as (e & <- & I). exists (snd e). split; [now apply in_map|]. unfold group_of in E. lia.
    - intros (b & I & E). apply in_map_iff in I as (e & <- & I). exists (group_of e). split; [now apply in_map|]. apply Z.eqb_eq. unfold group_of. lia.
  Qed.
  Lemma find_ext {A} (f g : A -> bool) l : (forall x, In x l -> f x = g x) -> find f l = find g l.
  Proof. induction l as [|x l IH]; intros H; [reflexivity|]. cbn [find]. rewrite (H x) by (now left). destruct (g x); [reflexivity|]. apply IH. intros y I. apply H. now right. Qed.
  Lemma header_ok l r bs : well_made l -> reads data r (low_bits 16 (lowest l) ++ low_bits 16 (highest l) ++ flat_map (fun t => low_bits 3 (Z.of_nat t)) (table_of l) ++ bs) ->
    exists r', level_header data r = Ok (lowest l, highest l, 0%Z :: map Z.of_nat (table_of l), r') /\ reads data r' bs.
  Proof.
    intros (B1 & B2 & L & Ft) R. unfold level_header.
    destruct (read_number 16 (lowest l) data r _ F ltac:(lia) ltac:(change (2 ^ Z.of_nat 16)%Z with 65536%Z; lia) R) as (r1 & E1 & R1). rewrite E1. cbn [rbind fst snd].
    destruct (read_number 16 (highest l) data r1 _ F ltac:(lia) ltac:(change (2 ^ Z.of_nat 16)%Z with 65536%Z; lia) R1) as (r2 & E2 & R2). rewrite E2. cbn [rbind fst snd].
    destruct (many_ok 3 data ltac:(lia) F (map Z.of_nat (table_of l)) r2 bs) as (r3 & E3 & R3).
    - apply Forall_forall. intros v I. apply in_map_iff in I as (t & <- & I). rewrite Forall_forall in Ft. specialize (Ft t I). change (2 ^ Z.of_nat 3)%Z with 8%Z. lia.
    - rewrite flat_map_concat_map, map_map, <- flat_map_concat_map. exact R2.
    - rewrite map_length, L in E3. rewrite E3. cbn [rbind fst snd]. exists r3. split; [reflexivity|exact R3].
  Qed.
  Definition span_find (y x k n : nat) (todo : list ((nat * nat) * tblock)) := find (fun e => here y x e && ((k <=? group (snd e)) && (group (snd e) <? k + n))) todo.
  Lemma levels_ok todo : NoDup (map fst todo) -> forall levels k bs, levels_coded (map snd todo) k levels bs -> forall r rest img y x, reads data r (bs ++ rest) ->
    read_levels inverse (List.length levels) (Z.of_nat k) (map corner_of todo) (map group_of todo) 1 spacing trees data r img y x =
    match span_find y x k (List.length levels) todo with Some e => shown (nth (group (snd e) - k) levels (mkLevel 0 0 [])) e y x | None => img y x end.
  Proof.
    intros ND levels k bs C. induction C as [k|k l levels bs No C IH|k l levels bs bs' Yes W Cb C IH]; intros r rest img y x R.
    - cbn [List.length read_levels]. unfold span_find. destruct (find _ todo) as [e|] eqn:E; [|reflexivity]. apply find_some in E as [_ E]. apply andb_true_iff in E as [_ E]. apply andb_true_iff in E as [A B]. apply Nat.leb_le in A. apply Nat.ltb_lt in B. lia.
    - cbn [List.length read_levels]. destruct (existsb _ _) eqn:Ex; [apply present_iff in Ex as (b & I & E); exfalso; exact (No b I E)|].
      replace (Z.of_nat k + 1)%Z with (Z.of_nat (S k)) by lia. rewrite (IH r rest img y x R).
      assert (Eq : span_find y x (S k) (List.length levels) todo = span_find y x k (S (List.length levels)) todo).
      { apply find_ext. intros e I. f_equal. specialize (No (snd e) (in_map snd _ _ I)). destruct (Nat.leb_spec (S k) (group (snd e))); destruct (Nat.leb_spec k (group (snd e))); cbn [andb]; try lia; try reflexivity. }
      rewrite Eq. destruct (span_find y x k (S (List.length levels)) todo) as [e|] eqn:Ef; [|reflexivity]. unfold span_find in Ef. apply find_some in Ef as [I E]. apply andb_true_iff in E as [_ E]. apply andb_true_iff in E as [A B]. apply Nat.leb_le in A.
      specialize (No (snd e) (in_map snd _ _ I)). replace (group (snd e) - k) with (S (group (snd e) - S k)) by lia. reflexivity.
    - cbn [List.length read_levels]. rewrite (proj2 (present_iff k todo) Yes). rewrite <- !app_assoc in R. destruct (header_ok l r _ W R) as (r1 & E1 & R1). rewrite E1.
      destruct (level_ok l k W todo bs r1 (bs' ++ rest) img ND Cb R1) as (img' & r2 & E2 & R2 & H). rewrite E2.
      replace (Z.of_nat k + 1)%Z with (Z.of_nat (S k)) by lia. rewrite (IH r2 rest img' y x R2), H.
      assert (Uniq : forall p q e e', find (fun e => here y x e && p e) todo = Some e -> find (fun e => here y x e && q e) todo = Some e' -> e = e').
      { clear - ND. induction todo as [|a todo IH]; intros p q e e' E E'; [discriminate|]. cbn [map] in ND. inversion ND as [|? ? N ND']; subst. cbn [find] in *. destruct (here y x a) eqn:Ha; cbn [andb] in *.
        - pose proof (here_other y x a todo Ha N) as O. destruct (p a); [|rewrite O in E; discriminate]. destruct (q a); [|rewrite O in E'; discriminate]. congruence.
        - exact (IH ND' p q e e' E E'). }
      unfold span_find. destruct (find (fun e => here y x e && ((S k <=? group (snd e)) && (group (snd e) <? S k + List.length levels))) todo) as [e|] eqn:Ea.
      + apply find_some in Ea as Pa. destruct Pa as [I E]. apply andb_true_iff in E as [Eh E]. apply andb_true_iff in E as [A B]. apply Nat.leb_le in A. apply Nat.ltb_lt in B.
        destruct (find (fun e => here y x e && ((k <=? group (snd e)) && (group (snd e) <? k + S (List.length levels)))) todo) as [e'|] eqn:Eb.
        * rewrite <- (Uniq _ _ _ _ Ea Eb). replace (group (snd e) - k) with (S (group (snd e) - S k)) by lia. reflexivity.
        * exfalso. apply (find_none _ _ Eb) in I. cbv beta in I. rewrite Eh in I. cbn [andb] in I. apply andb_false_iff in I as [I|I]; [apply Nat.leb_gt in I; lia|apply Nat.ltb_ge in I; lia].
      + destruct (find (fun e => here y x e && (group (snd e) =? k)) todo) as [e|] eqn:Eb.
        * apply find_some in Eb as Pb. destruct Pb as [I E]. apply andb_true_iff in E as [Eh E]. apply Nat.eqb_eq in E.
          destruct (find (fun e => here y x e && ((k <=? group (snd e)) && (group (snd e) <? k + S (List.length levels)))) todo) as [e'|] eqn:Ec.
          -- rewrite <- (Uniq _ _ _ _ Eb Ec). rewrite E, Nat.sub_diag. reflexivity.
          -- exfalso. apply (find_none _ _ Ec) in I. cbv beta in I. rewrite Eh in I. cbn [andb] in I. apply andb_false_iff in I as [I|I]; [apply Nat.leb_gt in I; lia|apply Nat.ltb_ge in I; lia].
        * destruct (find (fun e => here y x e && ((k <=? group (snd e)) && (group (snd e) <? k + S (List.length levels)))) todo) as [e'|] eqn:Ec; [|reflexivity].
          exfalso. apply find_some in Ec as [I E]. apply andb_true_iff in E as [Eh E]. apply andb_true_iff in E as [A B]. apply Nat.leb_le in A. apply Nat.ltb_lt in B.
          pose proof (find_none _ _ Ea e' I) as Na. pose proof (find_none _ _ Eb e' I) as Nb. cbv beta in Na, Nb. rewrite Eh in Na, Nb. cbn [andb] in Na, Nb. apply Nat.eqb_neq in Nb.
          apply andb_false_iff in Na as [Na|Na]; [apply Nat.leb_gt in Na; lia|apply Nat.ltb_ge in Na; lia].
  Qed.
End Level.

(** ** Fragments *)
Definition corners (s wb hb : nat) : list (nat * nat) := flat_map (fun x => map (fun y => (x, y)) (seq 0 hb)) (seq s wb).
Lemma corners_len s wb hb : List.length (corners s wb hb) = wb * hb.
Proof. revert s. induction wb as [|wb IH]; intros s; [reflexivity|]. unfold corners in *. cbn [seq flat_map]. rewrite app_length, map_length, seq_length, IH. reflexivity. Qed.
Lemma corner_nth hb wb : forall s bx by_, bx < wb -> by_ < hb -> nth_error (corners s wb hb) (bx * hb + by_) = Some (s + bx, by_).
Proof.
  induction wb as [|wb IH]; intros s bx by_ Hx Hy; [lia|]. unfold corners. cbn [seq flat_map]. fold (corners (S s) wb hb). destruct bx as [|bx].
  - cbn [Nat.mul Nat.add]. rewrite nth_error_app1 by (rewrite map_length, seq_length; lia). rewrite (map_nth_error _ _ _ (d := by_)); [now rewrite Nat.add_0_r|].
    rewrite (nth_error_nth' _ 0) by (rewrite seq_length; lia). now rewrite seq_nth by lia.
  - rewrite nth_error_app2 by (rewrite map_length, seq_length; cbn; lia). rewrite map_length, seq_length. replace (S bx * hb + by_ - hb) with (bx * hb + by_) by (cbn; lia).
    rewrite IH by lia. f_equal. f_equal. lia.
Qed.
Lemma corners_nodup s wb hb : NoDup (corners s wb hb).
Proof.
  apply NoDup_nth_error. intros i j Hi E. rewrite corners_len in Hi. assert (Hh : hb <> 0) by lia.
  assert (Hj : j < wb * hb). { rewrite <- (corners_len s). apply nth_error_Some. rewrite <- E. apply nth_error_Some. now rewrite corners_len. }
  pose proof (Nat.div_mod i hb Hh) as Di. pose proof (Nat.div_mod j hb Hh) as Dj. pose proof (Nat.mod_upper_bound i hb Hh). pose proof (Nat.mod_upper_bound j hb Hh).
  rewrite Di, Dj, (Nat.mul_comm hb (i / hb)), (Nat.mul_comm hb (j / hb)) in E.
  rewrite !corner_nth in E by (assumption || (apply Nat.div_lt_upper_bound; lia)). injection E as E1 E2. assert (i / hb = j / hb) by lia. rewrite Di, Dj. congruence.
Qed.
Lemma combine_fst {A B} (l : list A) : forall l' : list B, List.length l = List.length l' -> map fst (combine l l') = l.
Proof. induction l as [|x l IH]; intros [|y l'] H; try discriminate; [reflexivity|]. cbn [combine map fst]. now rewrite IH by (now injection H). Qed.
Lemma combine_snd {A B} (l : list A) : forall l' : list B, List.length l = List.length l' -> map snd (combine l l') = l'.
Proof. induction l as [|x l IH]; intros [|y l'] H; try discriminate; [reflexivity|]. cbn [combine map snd]. now rewrite IH by (now injection H). Qed.
Lemma combine_nth_error {A B} (l : list A) : forall (l' : list B) i a b, nth_error l i = Some a -> nth_error l' i = Some b -> nth_error (combine l l') i = Some (a, b).
Proof. induction l as [|x l IH]; intros [|y l'] [|i] a b H H'; try discriminate; cbn in *; [congruence|now apply IH]. Qed.
Lemma find_here y x todo p i e : NoDup (map fst todo) -> nth_error todo i = Some e -> fst e = (x / 16, y / 16) -> p e = true ->
  find (fun e => here y x e && p e) todo = Some e.
Proof.
  revert i. induction todo as [|a todo IH]; intros i ND E Ef P; [destruct i; discriminate|]. cbn [map] in ND. inversion ND as [|? ? N ND']; subst.
  assert (He : here y x e = true) by (unfold here; rewrite Ef; cbn [fst snd]; now rewrite !Nat.eqb_refl).
  destruct i as [|i]; cbn [nth_error] in E.
  - injection E as ->. cbn [find]. now rewrite He, P.
  - cbn [find]. destruct (here y x a) eqn:Ha; cbn [andb].
    + exfalso. apply N. apply in_map_iff. exists e. split; [|now apply nth_error_In in E]. unfold here in Ha. apply andb_true_iff in Ha as [A B]. apply Nat.eqb_eq in A, B. rewrite Ef. destruct a as [[a1 a2] t]. cbn [fst snd] in *. congruence.
    + exact (IH i ND' E Ef P).
Qed.
Lemma fragment_ok inverse levels blocks spacing wb hb data stream pad : Forall is_byte data -> (0 <= spacing < 65536)%Z -> fragment_coded levels blocks stream ->
  List.length blocks = wb * hb -> bits_of data = stream ++ pad ->
  decompress inverse data (wb * 16) (hb * 16) 1 spacing (List.length levels) = Ok (picture_of inverse levels blocks spacing wb hb).
Proof.
  intros F Hs (L8 & Fg & rest & C & Es) Lb Ed. unfold decompress. rewrite encode_trees_ok. cbn [rbind].
  assert (Et : forall w, w < 8 -> nth_error (map tree (seq 0 8)) w = Some (tree w)) by apply nth_tree.
  generalize dependent (map tree (seq 0 8)). intros trees Et.
  replace (wb * 16 * (hb * 16) / 256) with (List.length blocks) by (rewrite Lb; replace (wb * 16 * (hb * 16)) with (wb * hb * 256) by lia; now rewrite Nat.div_mul).
  subst stream. rewrite <- app_assoc in Ed.
  destruct (many_ok 3 data ltac:(lia) F (map (fun b => Z.of_nat (group b)) blocks) (new_reader data) (rest ++ pad)) as (r1 & E1 & R1).
  - apply Forall_forall. intros v I. apply in_map_iff in I as (b & <- & I). rewrite Forall_forall in Fg. specialize (Fg b I). change (2 ^ Z.of_nat 3)%Z with 8%Z. lia.
  - rewrite flat_map_concat_map, map_map, <- flat_map_concat_map, <- Ed. constructor.
  - rewrite map_length in E1. rewrite E1. cbn [rbind fst snd].
    replace (forallb _ (map (fun b => Z.of_nat (group b)) blocks)) with true.
    2:{ symmetry. apply forallb_forall. intros v I. apply in_map_iff in I as (b & <- & I). rewrite Forall_forall in Fg. specialize (Fg b I). apply Z.ltb_lt. lia. }
    f_equal. unfold rows_of, picture_of. rewrite (Nat.mul_comm hb 16), (Nat.mul_comm wb 16). apply map_ext_in. intros y Iy. apply in_seq in Iy. apply map_ext_in. intros x Ix. apply in_seq in Ix.
    set (todo := combine (corners 0 wb hb) blocks).
    assert (Lc : List.length (corners 0 wb hb) = List.length blocks) by (now rewrite corners_len).
    assert (ND : NoDup (map fst todo)) by (unfold todo; rewrite combine_fst by exact Lc; apply corners_nodup).
    assert (Ms : map snd todo = blocks) by (unfold todo; now rewrite combine_snd by exact Lc).
    assert (E16 : forall n, 16 * n / 16 = n) by (intros n; rewrite Nat.mul_comm; apply Nat.div_mul; lia).
    assert (Mc : block_corners (16 * wb) (16 * hb) = map corner_of todo).
    { unfold block_corners. rewrite !E16. transitivity (map (fun c => (16 * fst c, 16 * snd c)) (corners 0 wb hb)).
      - unfold corners. rewrite !flat_map_concat_map, concat_map, map_map. f_equal. apply map_ext. intros a. rewrite map_map. reflexivity.
      - rewrite <- (combine_fst (corners 0 wb hb) blocks Lc) at 1. fold todo. rewrite map_map. reflexivity. }
    assert (Mg : map (fun b => Z.of_nat (group b)) blocks = map group_of todo) by (rewrite <- Ms, map_map; reflexivity).
    rewrite Mc, Mg. rewrite <- Ms in C. pose proof (levels_ok inverse spacing trees data F Et Hs todo ND levels 0 rest C r1 pad (fun _ _ => 0%Z) y x R1) as LV. change (Z.of_nat 0) with 0%Z in LV. rewrite LV. clear LV.
    assert (Hh : hb <> 0) by lia. assert (Hx : x / 16 < wb) by (apply Nat.div_lt_upper_bound; lia). assert (Hy : y / 16 < hb) by (apply Nat.div_lt_upper_bound; lia).
    assert (Li : block_at hb y x < List.length blocks). { rewrite Lb. unfold block_at. apply Nat.lt_le_trans with (x / 16 * hb + hb); [lia|]. replace (x / 16 * hb + hb) with (S (x / 16) * hb) by lia. apply Nat.mul_le_mono_r. lia. }
    set (b := nth (block_at hb y x) blocks (mkBlock 0 0 [])).
    assert (Nb : nth_error blocks (block_at hb y x) = Some b) by (now apply nth_error_nth').
    assert (Ne : nth_error todo (block_at hb y x) = Some ((x / 16, y / 16), b)).
    { apply combine_nth_error; [|exact Nb]. unfold block_at. rewrite corner_nth by assumption. reflexivity. }
    assert (Gb : group b < List.length levels) by (rewrite Forall_forall in Fg; apply Fg; now apply nth_error_In in Nb).
    unfold span_find. rewrite (find_here y x todo _ _ _ ND Ne eq_refl).
    + unfold shown, pixel. fold b. cbn [snd]. rewrite Nat.sub_0_r. reflexivity.
    + cbn [snd]. apply andb_true_iff. split; [apply Nat.leb_le; lia|apply Nat.ltb_lt; lia].
Qed.
