(** Fixed-width PDS4 tables: the places of the values of a field. *)
From Coq Require Import ZArith Lia.
From Verif.Base Require Import Py PyFacts.
From Verif.Model Require Import Types Scaling Pds4Types Pds4Tables.
From Verif.Spec Require Import Pds4Tables.
From Verif.Proofs Require Import Pds4Manifest Pds4Tables.
Open Scope nat_scope.

Lemma places_fld k base l n F : places_from k base (Fld l n :: F) = (k, (base + (l - 1), n)%Z) :: places_from (S k) base F.
Proof. cbn [places_from places_item fields_in app]. now rewrite Nat.add_1_r. Qed.
Lemma places_grp k base r l n cs F : places_from k base (Grp r l n cs :: F) =
  flat_map (fun j => places_from k (base + (l - 1) + Z.of_nat j * (n / Z.of_nat r))%Z cs) (seq 0 r) ++ places_from (k + fields_of cs) base F.
Proof.
  cbn [places_from places_item]. f_equal. apply flat_map_ext. intros j. generalize (base + (l - 1) + Z.of_nat j * (n / Z.of_nat r))%Z as b. intros b.
  revert k. induction cs as [|c cs IH]; intros k; [reflexivity|]. cbn [places_from]. f_equal. apply IH.
Qed.
Lemma places_range F : forall k base p, In p (places_from k base F) -> k <= fst p < k + fields_of F.
Proof.
  induction F as [|l n F IH|r l n cs F IHc IH] using forest_ind; intros k base p H; [destruct H| |].
  - rewrite places_fld in H. rewrite fields_fld. destruct H as [<-|H]; [cbn; lia|]. apply IH in H. lia.
  - rewrite places_grp in H. rewrite fields_grp. apply in_app_or in H as [H|H]; [|apply IH in H; lia]. apply in_flat_map in H as (j & _ & H). apply IHc in H. lia.
Qed.
Definition of_field (k : nat) (l : list (nat * (Z * Z))) : list (Z * Z) := map snd (filter (fun p => fst p =? k) l).
Lemma of_field_app k a b : of_field k (a ++ b) = of_field k a ++ of_field k b.
Proof. unfold of_field. now rewrite filter_app, map_app. Qed.
Lemma of_field_none k l : (forall p, In p l -> fst p <> k) -> of_field k l = [].
Proof.
  unfold of_field. induction l as [|p l IH]; intros H; [reflexivity|]. cbn [filter]. destruct (Nat.eqb_spec (fst p) k) as [E|]; [exfalso; exact (H p (or_introl eq_refl) E)|].
  apply IH. intros q Hq. apply H. now right.
Qed.
Lemma of_field_flat {A} k (h : A -> list (nat * (Z * Z))) l : of_field k (flat_map h l) = flat_map (fun x => of_field k (h x)) l.
Proof. induction l as [|x l IH]; [reflexivity|]. cbn [flat_map]. now rewrite of_field_app, IH. Qed.
Definition plocs (m : list entry) (p : list gstep) : list Z := map (fun g => loc (ent m (g_idx g)) - 1)%Z p.
Definition plens (m : list entry) (p : list gstep) : list Z := map (fun g => len_ (ent m (g_idx g)) / Z.of_nat (g_rep g))%Z p.
Lemma places_path m F : forall s lvl k base j, At m s lvl F -> j < fields_of F ->
  let f := nth j (fidx s F) 0 in
  of_field (k + j) (places_from k base F) =
  map (fun p => (base + (loc (ent m f) - 1) + zdot (plocs m (path f s F)) (plens m (path f s F)) p, len_ (ent m f))%Z) (positions (map g_rep (path f s F))).
Proof.
  induction F as [|l n F IH|r l n cs F IHc IH] using forest_ind; intros s lvl k base j A Hj; [cbn in Hj; lia| |].
  - rewrite places_fld, fidx_fld. rewrite fields_fld in Hj. change ((k, (base + (l - 1), n)%Z) :: places_from (S k) base F) with ([(k, (base + (l - 1), n)%Z)] ++ places_from (S k) base F). rewrite of_field_app.
    destruct j as [|j]; cbn [nth]; cbv zeta.
    + rewrite (of_field_none _ (places_from _ _ _)) by (intros p Hp; apply places_range in Hp; lia). rewrite Nat.add_0_r. unfold of_field. cbn [filter fst map app snd]. rewrite Nat.eqb_refl. cbn [map snd app].
      rewrite path_fld by lia. rewrite Nat.eqb_refl. cbn [map positions plocs plens zdot]. rewrite (at_ent_fld _ _ _ _ _ _ A). cbn [loc len_]. now rewrite Z.add_0_r.
    + rewrite of_field_none by (intros p [<-|[]]; cbn; lia). cbn [app]. specialize (IH (S s) lvl (S k) base j (at_tail_fld _ _ _ _ _ _ A) ltac:(lia)). cbv zeta in IH.
      rewrite Nat.add_succ_r. change (S (k + j)) with (S k + j). rewrite IH. assert (R : S s <= nth j (fidx (S s) F) 0) by (apply (fidx_range F), nth_In; rewrite fidx_length; lia).
      rewrite (path_fld _ s) by lia. destruct (Nat.eqb_spec (nth j (fidx (S s) F) 0) s); [lia|reflexivity].
  - rewrite places_grp, fidx_grp, of_field_app. rewrite fields_grp in Hj. destruct (Nat.lt_ge_cases j (fields_of cs)) as [Lj|Lj]; cbv zeta.
    + rewrite (of_field_none _ (places_from _ _ F)) by (intros p Hp; apply places_range in Hp; lia). rewrite app_nil_r, of_field_flat. rewrite app_nth1 by (now rewrite fidx_length).
      set (f := nth j (fidx (S s) cs) 0). assert (R : S s <= f < S s + size cs) by (apply (fidx_range cs), nth_In; rewrite fidx_length; lia).
      rewrite path_grp, (proj2 (Nat.ltb_lt _ _)) by lia. cbn [map g_rep g_idx plocs plens positions]. rewrite (at_ent_grp _ _ _ _ _ _ _ _ A). cbn [loc len_].
      rewrite !flat_map_concat_map. rewrite concat_map, map_map. f_equal. apply map_ext. intros i. rewrite map_map.
      rewrite (IHc (S s) (S lvl) k _ j (at_in_grp _ _ _ _ _ _ _ _ A) Lj). cbv zeta. fold f. apply map_ext. intros p. cbn [zdot]. f_equal. fold (plocs m (path f (S s) cs)). fold (plens m (path f (S s) cs)). lia.
    + rewrite of_field_none by (intros p Hp; apply in_flat_map in Hp as (i & _ & Hp); apply places_range in Hp; lia). cbn [app]. rewrite app_nth2 by (now rewrite fidx_length). rewrite fidx_length.
      set (f := nth (j - fields_of cs) (fidx (S s + size cs) F) 0). assert (R : S s + size cs <= f) by (apply (fidx_range F), nth_In; rewrite fidx_length; lia).
      rewrite path_grp, (proj2 (Nat.ltb_ge _ _)) by lia. pose proof (IH (S s + size cs) lvl (k + fields_of cs) base (j - fields_of cs) (at_tail_grp _ _ _ _ _ _ _ _ A) ltac:(lia)) as I. cbv zeta in I. fold f in I.
      rewrite <- I. f_equal. lia.
Qed.

(** ** Fields one after the other *)
Lemma ends_prod rlens : forall shape, length rlens = length shape -> rlens <> [] -> ends_meet rlens shape = true ->
  (hd 0 rlens * Z.of_nat (hd 0%nat shape) = last rlens 0 * Z.of_nat (prod_n shape))%Z.
Proof.
  induction rlens as [|a rlens IH]; intros [|n shape] L Ne E; try discriminate; [contradiction|]. destruct rlens as [|b rlens]; destruct shape as [|n' shape]; try discriminate.
  - cbn. lia.
  - cbn [ends_meet] in E. apply andb_true_iff in E as [E1 E2]. apply Z.eqb_eq in E1. specialize (IH (n' :: shape) ltac:(cbn [length] in L |- *; lia) ltac:(discriminate) E2).
    cbn [hd] in IH |- *. rewrite prod_cons, Nat2Z.inj_mul. change (last (a :: b :: rlens) 0%Z) with (last (b :: rlens) 0%Z). rewrite <- E1, IH. lia.
Qed.
Lemma contiguous_positions fl : forall shape glocs rlens, length glocs = length shape -> length rlens = length shape -> shape <> [] ->
  contiguous fl glocs rlens shape = true -> map (zdot glocs rlens) (positions shape) = map (fun e => hd 0 glocs + fl * Z.of_nat e)%Z (seq 0 (prod_n shape)).
Proof.
  induction shape as [|n shape IH]; intros glocs rlens Lg Lr Ne C; [contradiction|]. destruct glocs as [|g glocs]; [discriminate|]. destruct rlens as [|a rlens]; [discriminate|].
  unfold contiguous in C. apply andb_true_iff in C as [C E]. apply andb_true_iff in C as [G F]. apply Z.eqb_eq in F. cbn [skipn] in G. cbn [hd].
  assert (Z0 : forall (h : nat -> Z) q r, flat_map (fun i => map (fun e => h (i * q + e)) (seq 0 q)) (seq 0 r) = map h (seq 0 (r * q))).
  { intros h q r. induction r as [|r IHr]; [reflexivity|]. rewrite seq_S, flat_map_app, IHr. cbn [flat_map]. rewrite app_nil_r. replace (S r * q) with (r * q + q) by lia. rewrite seq_app, map_app. f_equal. cbn [Nat.add].
    enough (W : forall w q z, map (fun e => h (w + e)) (seq z q) = map h (seq (w + z) q)) by (rewrite W; now rewrite Nat.add_0_r).
    clear. intros w. induction q as [|q IHq]; intros z; [reflexivity|]. cbn [seq map]. f_equal. rewrite <- Nat.add_succ_r. apply IHq. }
  cbn [positions]. rewrite flat_map_concat_map, concat_map, map_map. destruct shape as [|n' shape].
  - destruct glocs; [|discriminate]. destruct rlens; [|discriminate]. cbn [last] in F. subst a. cbn [positions map zdot]. rewrite prod_cons. unfold prod_n at 1. cbn [fold_left]. rewrite Nat.mul_1_r.
    generalize (seq 0 n) as q. induction q as [|i q IHq]; [reflexivity|]. cbn [map concat app]. rewrite IHq. f_equal. lia.
  - set (sh := n' :: shape) in *. assert (C' : contiguous fl glocs rlens sh = true).
    { destruct glocs as [|g' glocs]; [discriminate|]. destruct rlens as [|b rlens]; [discriminate|]. cbn [forallb] in G. apply andb_true_iff in G as [G1 G2]. unfold contiguous. cbn [skipn]. rewrite G2.
      change (last (a :: b :: rlens) 0%Z) with (last (b :: rlens) 0%Z) in F. rewrite F, Z.eqb_refl. unfold sh in *. change ((b * Z.of_nat n' =? a)%Z && ends_meet (b :: rlens) (n' :: shape) = true) in E. apply andb_true_iff in E as [_ E]. rewrite E. reflexivity. }
    assert (Ha : a = (fl * Z.of_nat (prod_n sh))%Z).
    { destruct rlens as [|b rlens]; [discriminate|]. unfold sh in *. change ((b * Z.of_nat n' =? a)%Z && ends_meet (b :: rlens) (n' :: shape) = true) in E. apply andb_true_iff in E as [E1 E2]. apply Z.eqb_eq in E1.
      pose proof (ends_prod (b :: rlens) (n' :: shape) ltac:(cbn [length] in Lr |- *; lia) ltac:(discriminate) E2) as P. cbn [hd] in P. change (last (a :: b :: rlens) 0%Z) with (last (b :: rlens) 0%Z) in F. rewrite F, <- P. lia. }
    assert (H0 : hd 0%Z glocs = 0%Z). { destruct glocs as [|g' glocs]; [reflexivity|]. cbn [forallb] in G. apply andb_true_iff in G as [G1 _]. apply Z.eqb_eq in G1. symmetry. exact G1. }
    specialize (IH glocs rlens ltac:(cbn [length] in Lg; lia) ltac:(cbn [length] in Lr; lia) ltac:(discriminate) C'). rewrite H0 in IH. rewrite prod_cons.
    rewrite <- (Z0 (fun e => g + fl * Z.of_nat e)%Z). rewrite flat_map_concat_map. f_equal. apply map_ext. intros i. rewrite map_map. cbn [zdot].
    transitivity (map (fun z => g + a * Z.of_nat i + z)%Z (map (zdot glocs rlens) (positions sh))); [now rewrite map_map|]. rewrite IH, map_map. apply map_ext. intros e. rewrite Ha. lia.
Qed.

Lemma flat_map_map {A B C} (f : A -> list B) (g : C -> A) l : flat_map f (map g l) = flat_map (fun x => f (g x)) l.
Proof. induction l as [|x l IH]; [reflexivity|]. cbn [map flat_map]. now rewrite IH. Qed.
Lemma map_flat {A B C} (f : B -> C) (g : A -> list B) l : map f (flat_map g l) = flat_map (fun x => map f (g x)) l.
Proof. induction l as [|x l IH]; [reflexivity|]. cbn [flat_map]. now rewrite map_app, IH. Qed.
Lemma field_bytes_ok g data rl num j : j < fields_of g -> let f := nth j (fidx 0 g) 0 in
  field_bytes (flatten 0 g) data rl num f =
  flat_map (fun r => map (fun p => cut data (Z.of_nat r * rl + fst p)%Z (snd p)) (of_field j (places g))) (seq 0 num).
Proof.
  intros Hj f. set (m := flatten 0 g). assert (If : In f (fidx 0 g)) by now apply fidx_in.
  pose proof (places_path m g 0 0 0 0%Z j (at_root g) Hj) as P. cbv zeta in P. fold f in P. unfold places. cbn [Nat.add] in P. rewrite P. clear P.
  destruct (path_parents m f g 0 0 [] (ctx_root g) If) as [Ep Ge]. rewrite app_nil_r in Ep. rewrite Forall_forall in Ge.
  unfold field_bytes. rewrite Ep, rev_involutive. assert (Sh := proj1 (shape_ok g f If)). fold m in Sh. rewrite Sh. set (pa := path f 0 g) in *.
  rewrite !map_map. fold (plocs m pa). assert (El : map (fun x => (len_ (ent m (g_idx x)) / Z.of_nat (repetitions (ent m (g_idx x))))%Z) pa = plens m pa).
  { unfold plens. apply map_ext_in. intros x Hx. destruct (Ge x Hx) as [-> _]. reflexivity. }
  rewrite El. set (fl := len_ (ent m f)). set (fo := (loc (ent m f) - 1)%Z). set (shape := map g_rep pa).
  assert (Lg : length (plocs m pa) = length shape) by (unfold plocs, shape; now rewrite !map_length). assert (Lr : length (plens m pa) = length shape) by (unfold plens, shape; now rewrite !map_length).
  assert (K : forall r, map (fun p => cut data (Z.of_nat r * rl + fst p)%Z (snd p)) (map (fun p => (0 + fo + zdot (plocs m pa) (plens m pa) p, fl)%Z) (positions shape))
     = map (fun z => cut data (rl * Z.of_nat r + fo + z)%Z fl) (map (zdot (plocs m pa) (plens m pa)) (positions shape))).
  { intros r. rewrite !map_map. apply map_ext. intros p. cbn [fst snd]. f_equal. lia. }
  unfold extract_fixed. destruct shape as [|n shape'] eqn:Es.
  - assert (Z0 : plocs m pa = []) by (destruct (plocs m pa); [reflexivity|discriminate]). rewrite Z0. cbn [positions map zdot]. generalize (seq 0 num) as q.
    induction q as [|r q IH]; [reflexivity|]. cbn [map flat_map app fst snd]. rewrite IH. f_equal. f_equal. lia.
  - rewrite <- Es in *. destruct (contiguous fl (plocs m pa) (plens m pa) shape) eqn:Ec.
    + apply flat_map_ext. intros r. rewrite K, (contiguous_positions fl shape _ _ Lg Lr ltac:(rewrite Es; discriminate) Ec), map_map. apply map_ext. intros e. f_equal. lia.
    + cbn [positions]. rewrite map_flat. apply flat_map_ext. intros r. rewrite K, !map_map. apply map_ext. intros p. cbn [hd skipn]. reflexivity.
Qed.

(** ** Uniformly sampled fields come first and have no bytes *)
Lemma places_ahead u F : forall k base, places_from k base (ahead u F) = map (fun i => (k + i, (base + (0 - 1), 0)%Z)) (seq 0 u) ++ places_from (k + u) base F.
Proof.
  induction u as [|u IH]; intros k base; [cbn; now rewrite Nat.add_0_r|]. unfold ahead. cbn [repeat app]. rewrite places_fld. fold (ahead u F). rewrite IH. cbn [seq map app]. rewrite Nat.add_0_r. f_equal.
  rewrite <- seq_shift, map_map. rewrite Nat.add_succ_r. f_equal. apply map_ext. intros i. now rewrite Nat.add_succ_r.
Qed.
Lemma of_field_ahead u f j : j < fields_of f -> of_field (u + j) (places (ahead u f)) = of_field j (places f).
Proof.
  intros Hj. unfold places. rewrite places_ahead, of_field_app, of_field_none by (intros p Hp; apply in_map_iff in Hp as (i & <- & Hi); apply in_seq in Hi; cbn; lia). cbn [app Nat.add].
  pose proof (places_path (flatten 0 f) f 0 0 u 0%Z j (at_root f) Hj) as P. pose proof (places_path (flatten 0 f) f 0 0 0 0%Z j (at_root f) Hj) as P'. cbv zeta in P, P'. cbn [Nat.add] in P'. now rewrite P, P'.
Qed.
Lemma read_fixed_places u f rl num data : check_groups (manifest u f) = Ok tt ->
  read_fixed u f rl num data = Ok (map (fun k => flat_map (fun r => map (fun p => cut data (Z.of_nat r * rl + fst p)%Z (snd p)) (of_field k (places f))) (seq 0 num)) (seq 0 (fields_of f))).
Proof.
  intros C. unfold read_fixed. rewrite C. cbn [rbind]. f_equal. rewrite manifest_ahead, field_indices_ok. set (g := ahead u f).
  assert (E : skipn u (fidx 0 g) = map (fun k => nth (u + k) (fidx 0 g) 0) (seq 0 (fields_of f))).
  { assert (L : length (fidx 0 g) = u + fields_of f) by (rewrite fidx_length; unfold g; now rewrite ahead_fields). revert L. generalize (fidx 0 g) as q, (fields_of f) as n. clear.
    induction u as [|u IH]; intros q n L.
    - cbn [skipn Nat.add] in *. subst n. rewrite map_nth_firstn by lia. now rewrite firstn_all.
    - destruct q as [|x q]; [discriminate|]. cbn [skipn Nat.add nth]. apply IH. cbn [length] in L. lia. }
  rewrite E, map_map. apply map_ext_in. intros k Hk. apply in_seq in Hk. rewrite (field_bytes_ok g data rl num (u + k)) by (unfold g; rewrite ahead_fields; lia).
  apply flat_map_ext. intros r. f_equal. apply of_field_ahead. lia.
Qed.
