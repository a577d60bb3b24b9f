From Verif.Base Require Import Py PyFacts Numpy.
From Verif.Model Require Import Types Image.
From Verif.Spec Require Import Image.
Open Scope nat_scope.

Section Facts.
  Context {A : Type}.
  Definition repr (a : arr A) (sh : list nat) (g : list nat -> A) : Prop :=
    shape a = sh /\ forall idx, valid sh idx -> at_ a idx = g idx.
  Lemma repr_ext a sh g h : repr a sh g -> (forall idx, valid sh idx -> g idx = h idx) -> repr a sh h.
  Proof. intros [H1 H2] H. split; [exact H1|]. intros idx Hv. now rewrite H2, H. Qed.
  Lemma repr_reshape a sh g sh' : repr a sh g -> prod sh' = prod sh ->
    exists b, reshape sh' a = Ok b /\ repr b sh' (fun idx => g (unlin sh (lin sh' idx))).
  Proof.
    intros [H1 H2] H. destruct (reshape_ok sh' a) as (b & Hb & Hs & Ha); [unfold size; now rewrite H1|].
    exists b. split; [exact Hb|]. split; [exact Hs|]. intros idx Hv. rewrite Ha, H1, H2; [reflexivity|].
    apply unlin_valid. rewrite <- H. now apply lin_lt.
  Qed.
  Lemma upd_valid sh idx ax lo hi : lo <= hi <= nth ax sh 0 ->
    valid (upd sh ax (fun _ => hi - lo)) idx -> valid sh (upd idx ax (fun i => lo + i)).
  Proof.
    unfold valid. revert idx ax. induction sh as [|n sh IH]; intros idx ax Hh H; cbn [upd] in H.
    - inversion H; subst. constructor.
    - destruct ax as [|ax]; cbn [nth] in Hh; inversion H; subst; cbn [upd]; constructor; auto; try lia.
  Qed.
  Lemma repr_slice a sh g ax lo hi : repr a sh g -> lo <= hi <= nth ax sh 0 ->
    repr (slice_ax ax lo hi a) (upd sh ax (fun _ => hi - lo)) (fun idx => g (upd idx ax (fun i => lo + i))).
  Proof.
    intros [H1 H2] H. unfold slice_ax. split; cbn [shape at_]; [now rewrite H1|].
    intros idx Hv. apply H2. eapply upd_valid; eauto.
  Qed.
  Lemma repr_map a sh g f : repr a sh g -> repr (map_arr f a) sh (fun idx => f (g idx)).
  Proof. intros [H1 H2]. split; [exact H1|]. intros idx Hv. cbn. now rewrite H2. Qed.
  Lemma valid3 x y z idx : valid [x; y; z] idx -> exists i j k, idx = [i; j; k] /\ i < x /\ j < y /\ k < z.
  Proof.
    intros H. inversion H as [|i ? idx1 ? Hi H1]; subst. inversion H1 as [|j ? idx2 ? Hj H2]; subst.
    inversion H2 as [|k ? idx3 ? Hk H3]; subst. inversion H3; subst. now exists i, j, k.
  Qed.
  Lemma valid2 x y idx : valid [x; y] idx -> exists i j, idx = [i; j] /\ i < x /\ j < y.
  Proof.
    intros H. inversion H as [|i ? idx1 ? Hi H1]; subst. inversion H1 as [|j ? idx2 ? Hj H2]; subst.
    inversion H2; subst. now exists i, j.
  Qed.
  Lemma valid3_i x y z i j k : i < x -> j < y -> k < z -> valid [x; y; z] [i; j; k].
  Proof. intros. repeat constructor; assumption. Qed.
  Lemma valid2_i x y i j : i < x -> j < y -> valid [x; y] [i; j].
  Proof. intros. repeat constructor; assumption. Qed.
  Lemma repr_move20 a x y z g : repr a [x; y; z] g ->
    repr (moveaxis_2_0 a) [z; x; y] (fun idx => g (match idx with [i; j; k] => [j; k; i] | s => s end)).
  Proof.
    intros [H1 H2]. unfold moveaxis_2_0. split; cbn [shape at_]; [now rewrite H1|].
    intros idx Hv. apply valid3 in Hv as (i & j & k & -> & ? & ? & ?). apply H2. now apply valid3_i.
  Qed.
  Lemma repr_move01 a x y z g : repr a [x; y; z] g ->
    repr (moveaxis_0_1 a) [y; x; z] (fun idx => g (match idx with [i; j; k] => [j; i; k] | s => s end)).
  Proof.
    intros [H1 H2]. unfold moveaxis_0_1. split; cbn [shape at_]; [now rewrite H1|].
    intros idx Hv. apply valid3 in Hv as (i & j & k & -> & ? & ? & ?). apply H2. now apply valid3_i.
  Qed.

  Variable dec : str -> list ascii -> A.
  (** the k-th raw item of a stream *)
  Definition raw (f : stream) (dt : str) (w k : nat) : A := dec dt (firstn w (skipn (k * w) (rest f))).

  Lemma item_of_prefix (l : list ascii) w k n : (k + 1) * w <= n ->
    firstn w (skipn (k * w) (firstn n l)) = firstn w (skipn (k * w) l).
  Proof.
    intros H. rewrite skipn_firstn_comm, firstn_firstn. f_equal. lia.
  Qed.
  Lemma read_ok f dt w count : 0 < w -> count * w <= List.length (rest f) ->
    exists a, np_from_buffered_io A dec f dt w count = Ok a /\ repr a [count] (fun idx => raw f dt w (hd 0 idx)).
  Proof.
    intros Hw Hl. unfold np_from_buffered_io. destruct (in_memory f).
    - rewrite firstn_length, Nat.min_l, Nat.mod_mul by lia. cbn [Nat.eqb]. eexists. split; [reflexivity|].
      unfold of_buffer. split; cbn [shape at_].
      + rewrite firstn_length, Nat.min_l, Nat.div_mul by lia. reflexivity.
      + intros idx Hv. inversion Hv as [|k ? idx' ? Hk Hv']; subst. cbn [hd]. unfold raw. rewrite item_of_prefix by nia. reflexivity.
    - assert (Hd : count <= List.length (rest f) / w) by (apply Nat.div_le_lower_bound; lia).
      rewrite (Nat.min_l _ _ Hd). eexists. split; [reflexivity|].
      unfold of_buffer. split; cbn [shape at_].
      + rewrite firstn_length, Nat.min_l, Nat.div_mul by lia. reflexivity.
      + intros idx Hv. inversion Hv as [|k ? idx' ? Hk Hv']; subst. cbn [hd]. unfold raw. rewrite item_of_prefix by nia. reflexivity.
  Qed.
  (** a file that ends early gives the whole items there are *)
  Lemma read_short f dt w count n : 0 < w -> n <= count -> List.length (rest f) = n * w ->
    exists a, np_from_buffered_io A dec f dt w count = Ok a /\ repr a [n] (fun idx => raw f dt w (hd 0 idx)).
  Proof.
    intros Hw Hn Hl. unfold np_from_buffered_io. destruct (in_memory f).
    - rewrite firstn_all2 by nia. rewrite Hl, Nat.mod_mul by lia. cbn [Nat.eqb]. eexists. split; [reflexivity|].
      unfold of_buffer. split; cbn [shape at_]; [rewrite Hl, Nat.div_mul by lia; reflexivity|]. intros; reflexivity.
    - rewrite Hl, Nat.div_mul, Nat.min_r by lia. eexists. split; [reflexivity|].
      unfold of_buffer. rewrite firstn_all2 by lia. split; cbn [shape at_]; [rewrite Hl, Nat.div_mul by lia; reflexivity|].
      intros; reflexivity.
  Qed.
End Facts.

Section Shapes.
  Context {A : Type}.
  Implicit Types (a : arr A) (g : nat -> A).
  Definition idx3 (f : nat -> nat -> nat -> A) (d : list nat -> A) (idx : list nat) : A :=
    match idx with [b; l; s] => f b l s | _ => d idx end.
  Lemma lin3 x y z i j k : lin [x; y; z] [i; j; k] = (i * y + j) * z + k.
  Proof. cbn [lin]. unfold prod. cbn [fold_right]. lia. Qed.
  Lemma lin2 x y i j : lin [x; y] [i; j] = i * y + j.
  Proof. cbn [lin]. unfold prod. cbn [fold_right]. lia. Qed.
  Lemma prod3 x y z : prod [x; y; z] = x * y * z. Proof. unfold prod; cbn [fold_right]; lia. Qed.
  Lemma prod2 x y : prod [x; y] = x * y. Proof. unfold prod; cbn [fold_right]; lia. Qed.
  Lemma prod1 x : prod [x] = x. Proof. unfold prod; cbn [fold_right]; lia. Qed.
  Lemma unlin1 n k : unlin [n] k = [k].
  Proof. cbn [unlin prod fold_right]. change (prod []) with 1. now rewrite Nat.div_1_r. Qed.
  (** the three-dimensional array seen as a function of band, line and sample *)
  Definition cube a (B L S : nat) (f : nat -> nat -> nat -> A) : Prop :=
    shape a = [B; L; S] /\ forall b l s, b < B -> l < L -> s < S -> at_ a [b; l; s] = f b l s.
  Definition plane2 a (L S : nat) (f : nat -> nat -> A) : Prop :=
    shape a = [L; S] /\ forall l s, l < L -> s < S -> at_ a [l; s] = f l s.
  Lemma reshape3 a N g x y z : repr a [N] (fun idx => g (hd 0 idx)) -> x * y * z = N ->
    exists b, reshape [x; y; z] a = Ok b /\ cube b x y z (fun i j k => g ((i * y + j) * z + k)).
  Proof.
    intros Ha HN. destruct (repr_reshape _ _ _ [x; y; z] Ha) as (b & Hb & Hs & Hg); [now rewrite prod3, prod1|].
    exists b. split; [exact Hb|]. split; [exact Hs|]. intros i j k Hi Hj Hk.
    rewrite Hg by now apply valid3_i. rewrite unlin1. cbn [hd]. now rewrite lin3.
  Qed.
  Lemma reshape2 a N g x y : repr a [N] (fun idx => g (hd 0 idx)) -> x * y = N ->
    exists b, reshape [x; y] a = Ok b /\ plane2 b x y (fun i j => g (i * y + j)).
  Proof.
    intros Ha HN. destruct (repr_reshape _ _ _ [x; y] Ha) as (b & Hb & Hs & Hg); [now rewrite prod2, prod1|].
    exists b. split; [exact Hb|]. split; [exact Hs|]. intros i j Hi Hj.
    rewrite Hg by now apply valid2_i. rewrite unlin1. cbn [hd]. now rewrite lin2.
  Qed.
  Lemma plane2_repr a L S f : plane2 a L S f <-> repr a [L; S] (fun idx => match idx with [l; s] => f l s | _ => at_ a idx end).
  Proof.
    unfold plane2, repr. split; intros [H1 H2]; (split; [exact H1|]).
    - intros idx Hv. apply valid2 in Hv as (i & j & -> & ? & ?). now apply H2.
    - intros l s Hl Hs. now rewrite H2 by now apply valid2_i.
  Qed.
  Lemma cube_repr a B L S f : cube a B L S f <-> repr a [B; L; S] (fun idx => match idx with [b; l; s] => f b l s | _ => at_ a idx end).
  Proof.
    unfold cube, repr. split; intros [H1 H2]; (split; [exact H1|]).
    - intros idx Hv. apply valid3 in Hv as (i & j & k & -> & ? & ? & ?). now apply H2.
    - intros b l s Hb Hl Hs. now rewrite H2 by now apply valid3_i.
  Qed.
  Lemma reshape_23 a x n f y z : plane2 a x n f -> y * z = n ->
    exists b, reshape [x; y; z] a = Ok b /\ cube b x y z (fun i j k => f i (j * z + k)).
  Proof.
    intros Ha Hn. apply plane2_repr in Ha. destruct (repr_reshape _ _ _ [x; y; z] Ha) as (b & Hb & Hs & Hg).
    { rewrite prod3, prod2. subst n. now rewrite Nat.mul_assoc. }
    exists b. split; [exact Hb|]. split; [exact Hs|]. intros i j k Hi Hj Hk.
    rewrite Hg by now apply valid3_i.
    replace (lin [x; y; z] [i; j; k]) with (lin [x; n] [i; j * z + k]).
    2:{ rewrite lin3, lin2. subst n. lia. }
    rewrite unlin_lin; [reflexivity|]. apply valid2_i; [exact Hi|]. subst n. nia.
  Qed.
  Lemma reshape_22 a x y f : plane2 a x y f -> exists b, reshape [x; y] a = Ok b /\ plane2 b x y f.
  Proof.
    intros Ha. pose proof Ha as Hc. apply plane2_repr in Ha. destruct (repr_reshape _ _ _ [x; y] Ha) as (b & Hb & Hs & Hg); [reflexivity|].
    exists b. split; [exact Hb|]. split; [exact Hs|]. intros i j Hi Hj.
    rewrite Hg by now apply valid2_i. rewrite unlin_lin by now apply valid2_i. reflexivity.
  Qed.
  Lemma move20_cube a x y z f : cube a x y z f -> cube (moveaxis_2_0 a) z x y (fun b l s => f l s b).
  Proof.
    intros [H1 H2]. unfold moveaxis_2_0, cube. cbn [shape at_]. rewrite H1. split; [reflexivity|]. intros. now apply H2.
  Qed.
  Lemma move01_cube a x y z f : cube a x y z f -> cube (moveaxis_0_1 a) y x z (fun b l s => f l b s).
  Proof.
    intros [H1 H2]. unfold moveaxis_0_1, cube. cbn [shape at_]. rewrite H1. split; [reflexivity|]. intros. now apply H2.
  Qed.
  (** slices of cubes and planes *)
  Lemma cube_slice0 a B L S f lo hi : cube a B L S f -> lo <= hi <= B ->
    cube (slice_ax 0 lo hi a) (hi - lo) L S (fun b l s => f (lo + b) l s).
  Proof. intros [H1 H2] H. unfold slice_ax, cube. cbn [shape at_]. rewrite H1. split; [reflexivity|]. intros. cbn [upd]. apply H2; lia. Qed.
  Lemma cube_slice1 a B L S f lo hi : cube a B L S f -> lo <= hi <= L ->
    cube (slice_ax 1 lo hi a) B (hi - lo) S (fun b l s => f b (lo + l) s).
  Proof. intros [H1 H2] H. unfold slice_ax, cube. cbn [shape at_]. rewrite H1. split; [reflexivity|]. intros. cbn [upd]. apply H2; lia. Qed.
  Lemma cube_slice2 a B L S f lo hi : cube a B L S f -> lo <= hi <= S ->
    cube (slice_ax 2 lo hi a) B L (hi - lo) (fun b l s => f b l (lo + s)).
  Proof. intros [H1 H2] H. unfold slice_ax, cube. cbn [shape at_]. rewrite H1. split; [reflexivity|]. intros. cbn [upd]. apply H2; lia. Qed.
  Lemma plane_slice0 a L S f lo hi : plane2 a L S f -> lo <= hi <= L ->
    plane2 (slice_ax 0 lo hi a) (hi - lo) S (fun l s => f (lo + l) s).
  Proof. intros [H1 H2] H. unfold slice_ax, plane2. cbn [shape at_]. rewrite H1. split; [reflexivity|]. intros. cbn [upd]. apply H2; lia. Qed.
  Lemma plane_slice1 a L S f lo hi : plane2 a L S f -> lo <= hi <= S ->
    plane2 (slice_ax 1 lo hi a) L (hi - lo) (fun l s => f l (lo + s)).
  Proof. intros [H1 H2] H. unfold slice_ax, plane2. cbn [shape at_]. rewrite H1. split; [reflexivity|]. intros. cbn [upd]. apply H2; lia. Qed.
End Shapes.

Section Planes.
  Context {A : Type}.
  Implicit Types (a : arr A) (f : list nat -> A) (lo n : axis -> nat).
  Fixpoint add2 (l m : list nat) : list nat :=
    match l, m with x :: l', y :: m' => (x + y) :: add2 l' m' | _, _ => [] end.
  (** [a] is the box of [f] starting at [lo] with extent [n], axes in order [axs] *)
  Definition box (axs : list axis) a lo n f : Prop :=
    shape a = map n axs /\ forall idx, valid (map n axs) idx -> at_ a idx = f (add2 (map lo axs) idx).
  Definition set_ax (ax : axis) (v : nat) (n : axis -> nat) : axis -> nat := fun x => if axis_eqb x ax then v else n x.
  Definition axs3 := [BAND; LINE; SAMPLE].
  Definition axs2 := [LINE; SAMPLE].
  Definition axpos (axs : list axis) (ax : axis) : option nat :=
    match axs, ax with
    | [_; _; _], BAND => Some 0 | [_; _; _], LINE => Some 1 | [_; _; _], SAMPLE => Some 2
    | [_; _], LINE => Some 0 | [_; _], SAMPLE => Some 1
    | _, _ => None
    end.
  Lemma box_ext axs a lo n f lo' n' : box axs a lo n f -> (forall x, In x axs -> lo x = lo' x) -> (forall x, In x axs -> n x = n' x) -> box axs a lo' n' f.
  Proof.
    intros [H1 H2] Hl Hn.
    assert (E1 : map n axs = map n' axs) by now apply map_ext_in.
    assert (E2 : map lo axs = map lo' axs) by now apply map_ext_in.
    split; rewrite <- E1; [exact H1|]. intros idx Hv. rewrite <- E2. now apply H2.
  Qed.
  Lemma box_slice axs a lo n f ax k u v : axs = axs3 \/ axs = axs2 -> axpos axs ax = Some k ->
    box axs a lo n f -> u <= v <= n ax ->
    box axs (slice_ax k u v a) (set_ax ax (lo ax + u) lo) (set_ax ax (v - u) n) f.
  Proof.
    intros Haxs Hk [H1 H2] Huv. unfold slice_ax, box. cbn [shape at_].
    destruct Haxs as [->| ->]; unfold axs3, axs2 in *; cbn [map] in *; destruct ax; cbn [axpos] in Hk;
      try discriminate; injection Hk as <-; unfold set_ax; cbn [axis_eqb]; rewrite H1; (split; [reflexivity|]);
      intros idx Hv; [apply valid3 in Hv as (i & j & l & -> & ? & ? & ?)..|apply valid2 in Hv as (i & j & -> & ? & ?)|apply valid2 in Hv as (i & j & -> & ? & ?)];
      cbn [upd]; (rewrite H2 by (first [apply valid3_i|apply valid2_i]; lia)); cbn [add2]; f_equal; repeat first [reflexivity | apply f_equal2; [lia|]].
  Qed.
  Lemma box_shape_nth axs a lo n f ax k : axs = axs3 \/ axs = axs2 -> axpos axs ax = Some k -> box axs a lo n f ->
    nth k (shape a) 0 = n ax /\ List.length (shape a) = List.length axs.
  Proof.
    intros Haxs Hk [-> _]. destruct Haxs as [->| ->]; unfold axs3, axs2 in *; destruct ax; cbn in Hk; try discriminate; injection Hk as <-; split; reflexivity.
  Qed.
  (** one cut *)
  Lemma step_cut axs p im pls sd ax k lo n f : axs = axs3 \/ axs = axs2 -> axpos axs ax = Some k -> box axs im lo n f ->
    pix (planes p sd ax) <= n ax -> (sd = SUFFIX -> planes p sd ax <> Some 0) ->
    let c := pix (planes p sd ax) in
    exists im' new, axplanes_step A p (im, pls) (sd, ax) = (im', pls ++ new) /\
      box axs im' (set_ax ax (match sd with PREFIX => lo ax + c | SUFFIX => lo ax end) lo) (set_ax ax (n ax - c) n) f /\
      (forall s x pl, In (s, x, pl) new -> s = sd /\ x = ax /\
         box axs pl (set_ax ax (match sd with PREFIX => lo ax | SUFFIX => lo ax + (n ax - c) end) lo) (set_ax ax c n) f) /\
      (planes p sd ax = None -> new = []) /\ (planes p sd ax <> None -> exists pl, new = [(sd, ax, pl)]).
  Proof.
    intros Haxs Hk Hb Hc Hs c. unfold axplanes_step. fold (planes p sd ax).
    destruct (box_shape_nth _ _ _ _ _ _ _ Haxs Hk Hb) as [Hnth Hlen].
    destruct (planes p sd ax) as [m|] eqn:E.
    - cbn [pix] in c. subst c. cbn [pix] in Hc.
      assert (Ek : (if List.length (shape im) =? 2 then match match ax with BAND => 0 | LINE => 1 | SAMPLE => 2 end with 0 => None | S n0 => Some n0 end
                    else Some (match ax with BAND => 0 | LINE => 1 | SAMPLE => 2 end)) = Some k).
      { rewrite Hlen. destruct Haxs as [->| ->]; destruct ax; cbn in Hk |- *; congruence. }
      rewrite Ek. destruct sd.
      + unfold pyslice, s_to, s_from. cbn [fst snd]. rewrite Hnth, Nat.min_l by lia.
        pose proof (box_slice _ _ _ _ _ _ _ m (n ax) Haxs Hk Hb ltac:(lia)) as B1.
        assert (B2 : box axs (slice_ax k 0 m im) (set_ax ax (lo ax) lo) (set_ax ax m n) f).
        { eapply box_ext; [exact (box_slice _ _ _ _ _ _ _ 0 m Haxs Hk Hb ltac:(lia))|..]; intros y _; unfold set_ax; destruct (axis_eqb y ax); lia. }
        eexists _, _. split; [reflexivity|]. split; [exact B1|]. split; [|split; [discriminate|intros _; eexists; reflexivity]].
        intros s x pl [H'|[]]. injection H' as <- <- <-. repeat split; apply B2.
      + assert (m <> 0) by (intros ->; now apply Hs). assert (Em : (m =? 0) = false) by now apply Nat.eqb_neq.
        unfold pyslice, s_to_neg, s_from_neg. cbn [fst snd]. rewrite Hnth, Em.
        assert (B1 : box axs (slice_ax k 0 (n ax - m) im) (set_ax ax (lo ax) lo) (set_ax ax (n ax - m) n) f).
        { eapply box_ext; [exact (box_slice _ _ _ _ _ _ _ 0 (n ax - m) Haxs Hk Hb ltac:(lia))|..]; intros y _; unfold set_ax; destruct (axis_eqb y ax); lia. }
        assert (B2 : box axs (slice_ax k (n ax - m) (n ax) im) (set_ax ax (lo ax + (n ax - m)) lo) (set_ax ax m n) f).
        { eapply box_ext; [exact (box_slice _ _ _ _ _ _ _ (n ax - m) (n ax) Haxs Hk Hb ltac:(lia))|..]; intros y _; unfold set_ax; destruct (axis_eqb y ax); lia. }
        eexists _, _. split; [reflexivity|]. split; [exact B1|]. split; [|split; [discriminate|intros _; eexists; reflexivity]].
        intros s x pl [H'|[]]. injection H' as <- <- <-. repeat split; apply B2.
    - exists im, []. rewrite app_nil_r. split; [reflexivity|]. cbn [pix] in c. subst c.
      split; [|split; [intros s x pl []|split; [reflexivity|congruence]]].
      eapply box_ext; [exact Hb|..]; intros y _; unfold set_ax; destruct (axis_eqb y ax) eqn:Ey; try reflexivity;
        destruct y, ax; try discriminate; destruct sd; lia.
  Qed.
  (** cutting bands off a 2-D image does nothing to it *)
  Lemma step_band2 p im pls sd lo n f : box axs2 im lo n f ->
    exists new, axplanes_step A p (im, pls) (sd, BAND) = (im, pls ++ new) /\ (forall s x pl, In (s, x, pl) new -> x = BAND).
  Proof.
    intros [H1 _]. unfold axplanes_step. fold (planes p sd BAND). rewrite H1.
    destruct (planes p sd BAND) as [m|].
    - eexists. split; [reflexivity|]. intros s x pl [H|[]]. congruence.
    - exists []. rewrite app_nil_r. split; [reflexivity|]. intros s x pl [].
  Qed.
  Definition pre p ax := pix (planes p PREFIX ax).
  Definition suf p ax := pix (planes p SUFFIX ax).
  (** All cuts.  [core] is the extent without padding. *)
  Lemma axplanes_box axs p a core f : axs = axs3 \/ axs = axs2 ->
    box axs a (fun _ => 0) (fun x => core x + pre p x + suf p x) f ->
    (forall x, In x axs -> planes p SUFFIX x <> Some 0) ->
    exists im pls, extract_axplanes A a p = (im, pls) /\ box axs im (pre p) core f /\
      (forall x, In x axs -> (forall y, y <> x -> pre p y + suf p y = 0) ->
         (planes p PREFIX x <> None -> exists pl, In (PREFIX, x, pl) pls) /\
         (planes p SUFFIX x <> None -> exists pl, In (SUFFIX, x, pl) pls) /\
         (forall pl, In (PREFIX, x, pl) pls -> planes p PREFIX x <> None /\ box axs pl (fun _ => 0) (set_ax x (pre p x) core) f) /\
         (forall pl, In (SUFFIX, x, pl) pls -> planes p SUFFIX x <> None /\
            box axs pl (set_ax x (pre p x + core x) (fun _ => 0)) (set_ax x (suf p x) core) f)).
  Proof.
    intros Haxs Hb Hs. unfold extract_axplanes. cbn [fold_left].
    destruct Haxs as [->| ->].
    - assert (Haxs : axs3 = axs3 \/ axs3 = axs2) by auto.
      match goal with |- context [axplanes_step A p (?im, ?pls) (PREFIX, LINE)] =>
        destruct (step_cut axs3 p im pls PREFIX LINE 1 _ _ _ Haxs eq_refl Hb) as (im1 & new1 & E1 & B1 & P1 & N1 & S1);
          [unfold set_ax, pre, suf; cbn [axis_eqb]; lia|discriminate|] end.
      rewrite E1.
      match goal with |- context [axplanes_step A p (?im, ?pls) (PREFIX, SAMPLE)] =>
        destruct (step_cut axs3 p im pls PREFIX SAMPLE 2 _ _ _ Haxs eq_refl B1) as (im2 & new2 & E2 & B2 & P2 & N2 & S2);
          [unfold set_ax, pre, suf; cbn [axis_eqb]; lia|discriminate|] end.
      rewrite E2.
      match goal with |- context [axplanes_step A p (?im, ?pls) (PREFIX, BAND)] =>
        destruct (step_cut axs3 p im pls PREFIX BAND 0 _ _ _ Haxs eq_refl B2) as (im3 & new3 & E3 & B3 & P3 & N3 & S3);
          [unfold set_ax, pre, suf; cbn [axis_eqb]; lia|discriminate|] end.
      rewrite E3.
      match goal with |- context [axplanes_step A p (?im, ?pls) (SUFFIX, LINE)] =>
        destruct (step_cut axs3 p im pls SUFFIX LINE 1 _ _ _ Haxs eq_refl B3) as (im4 & new4 & E4 & B4 & P4 & N4 & S4);
          [unfold set_ax, pre, suf; cbn [axis_eqb]; lia|intros _; apply Hs; cbn; auto|] end.
      rewrite E4.
      match goal with |- context [axplanes_step A p (?im, ?pls) (SUFFIX, SAMPLE)] =>
        destruct (step_cut axs3 p im pls SUFFIX SAMPLE 2 _ _ _ Haxs eq_refl B4) as (im5 & new5 & E5 & B5 & P5 & N5 & S5);
          [unfold set_ax, pre, suf; cbn [axis_eqb]; lia|intros _; apply Hs; cbn; auto|] end.
      rewrite E5.
      match goal with |- context [axplanes_step A p (?im, ?pls) (SUFFIX, BAND)] =>
        destruct (step_cut axs3 p im pls SUFFIX BAND 0 _ _ _ Haxs eq_refl B5) as (im6 & new6 & E6 & B6 & P6 & N6 & S6);
          [unfold set_ax, pre, suf; cbn [axis_eqb]; lia|intros _; apply Hs; cbn; auto|] end.
      rewrite E6.
      eexists _, _. split; [reflexivity|]. split.
      { eapply box_ext; [exact B6|..]; intros y Hy; unfold set_ax, pre, suf; destruct y; cbn [axis_eqb]; try lia; (exfalso; clear -Hy; cbn in Hy; intuition discriminate). }
      intros x Hx Hone.
      assert (HL : x = LINE \/ pix (planes p PREFIX LINE) = 0 /\ pix (planes p SUFFIX LINE) = 0)
        by (destruct x; try (right; specialize (Hone LINE ltac:(discriminate)); unfold pre, suf in Hone; lia); now left).
      assert (HS : x = SAMPLE \/ pix (planes p PREFIX SAMPLE) = 0 /\ pix (planes p SUFFIX SAMPLE) = 0)
        by (destruct x; try (right; specialize (Hone SAMPLE ltac:(discriminate)); unfold pre, suf in Hone; lia); now left).
      assert (HB : x = BAND \/ pix (planes p PREFIX BAND) = 0 /\ pix (planes p SUFFIX BAND) = 0)
        by (destruct x; try (right; specialize (Hone BAND ltac:(discriminate)); unfold pre, suf in Hone; lia); now left).
      clear Hone.
      split; [|split; [|split]].
      { intros Hne. destruct x.
        - destruct (S1 Hne) as [pl ->]. exists pl. clear. rewrite !in_app_iff. cbn [In]. tauto.
        - destruct (S2 Hne) as [pl ->]. exists pl. clear. rewrite !in_app_iff. cbn [In]. tauto.
        - destruct (S3 Hne) as [pl ->]. exists pl. clear. rewrite !in_app_iff. cbn [In]. tauto.
      }
      { intros Hne. destruct x.
        - destruct (S4 Hne) as [pl ->]. exists pl. clear. rewrite !in_app_iff. cbn [In]. tauto.
        - destruct (S5 Hne) as [pl ->]. exists pl. clear. rewrite !in_app_iff. cbn [In]. tauto.
        - destruct (S6 Hne) as [pl ->]. exists pl. clear. rewrite !in_app_iff. cbn [In]. tauto.
      }
      { intros pl Hin. rewrite !in_app_iff in Hin. destruct Hin as [[[[[[[]|Hin]|Hin]|Hin]|Hin]|Hin]|Hin].
        - split; [intros Hnn; pose proof Hin as Hin2; apply P1 in Hin2 as (_ & -> & _); rewrite (N1 Hnn) in Hin; destruct Hin|].
          apply P1 in Hin as (_ & -> & Hpl). eapply box_ext; [exact Hpl|..]; intros y Hy; clear -HL HS HB Hy Hx; unfold set_ax, pre, suf; destruct y; cbn [axis_eqb]; destruct HL as [HL|HL], HS as [HS|HS], HB as [HB|HB]; try discriminate; try lia; (exfalso; clear -Hy; cbn in Hy; intuition discriminate).
        - split; [intros Hnn; pose proof Hin as Hin2; apply P2 in Hin2 as (_ & -> & _); rewrite (N2 Hnn) in Hin; destruct Hin|].
          apply P2 in Hin as (_ & -> & Hpl). eapply box_ext; [exact Hpl|..]; intros y Hy; clear -HL HS HB Hy Hx; unfold set_ax, pre, suf; destruct y; cbn [axis_eqb]; destruct HL as [HL|HL], HS as [HS|HS], HB as [HB|HB]; try discriminate; try lia; (exfalso; clear -Hy; cbn in Hy; intuition discriminate).
        - split; [intros Hnn; pose proof Hin as Hin2; apply P3 in Hin2 as (_ & -> & _); rewrite (N3 Hnn) in Hin; destruct Hin|].
          apply P3 in Hin as (_ & -> & Hpl). eapply box_ext; [exact Hpl|..]; intros y Hy; clear -HL HS HB Hy Hx; unfold set_ax, pre, suf; destruct y; cbn [axis_eqb]; destruct HL as [HL|HL], HS as [HS|HS], HB as [HB|HB]; try discriminate; try lia; (exfalso; clear -Hy; cbn in Hy; intuition discriminate).
        - apply P4 in Hin as (? & _). discriminate.
        - apply P5 in Hin as (? & _). discriminate.
        - apply P6 in Hin as (? & _). discriminate.
      }
      { intros pl Hin. rewrite !in_app_iff in Hin. destruct Hin as [[[[[[[]|Hin]|Hin]|Hin]|Hin]|Hin]|Hin].
        - apply P1 in Hin as (? & _). discriminate.
        - apply P2 in Hin as (? & _). discriminate.
        - apply P3 in Hin as (? & _). discriminate.
        - split; [intros Hnn; pose proof Hin as Hin2; apply P4 in Hin2 as (_ & -> & _); rewrite (N4 Hnn) in Hin; destruct Hin|].
          apply P4 in Hin as (_ & -> & Hpl). eapply box_ext; [exact Hpl|..]; intros y Hy; clear -HL HS HB Hy Hx; unfold set_ax, pre, suf; destruct y; cbn [axis_eqb]; destruct HL as [HL|HL], HS as [HS|HS], HB as [HB|HB]; try discriminate; try lia; (exfalso; clear -Hy; cbn in Hy; intuition discriminate).
        - split; [intros Hnn; pose proof Hin as Hin2; apply P5 in Hin2 as (_ & -> & _); rewrite (N5 Hnn) in Hin; destruct Hin|].
          apply P5 in Hin as (_ & -> & Hpl). eapply box_ext; [exact Hpl|..]; intros y Hy; clear -HL HS HB Hy Hx; unfold set_ax, pre, suf; destruct y; cbn [axis_eqb]; destruct HL as [HL|HL], HS as [HS|HS], HB as [HB|HB]; try discriminate; try lia; (exfalso; clear -Hy; cbn in Hy; intuition discriminate).
        - split; [intros Hnn; pose proof Hin as Hin2; apply P6 in Hin2 as (_ & -> & _); rewrite (N6 Hnn) in Hin; destruct Hin|].
          apply P6 in Hin as (_ & -> & Hpl). eapply box_ext; [exact Hpl|..]; intros y Hy; clear -HL HS HB Hy Hx; unfold set_ax, pre, suf; destruct y; cbn [axis_eqb]; destruct HL as [HL|HL], HS as [HS|HS], HB as [HB|HB]; try discriminate; try lia; (exfalso; clear -Hy; cbn in Hy; intuition discriminate).
      }
    - assert (Haxs : axs2 = axs3 \/ axs2 = axs2) by auto.
      match goal with |- context [axplanes_step A p (?im, ?pls) (PREFIX, LINE)] =>
        destruct (step_cut axs2 p im pls PREFIX LINE 0 _ _ _ Haxs eq_refl Hb) as (im1 & new1 & E1 & B1 & P1 & N1 & S1);
          [unfold set_ax, pre, suf; cbn [axis_eqb]; lia|discriminate|] end.
      rewrite E1.
      match goal with |- context [axplanes_step A p (?im, ?pls) (PREFIX, SAMPLE)] =>
        destruct (step_cut axs2 p im pls PREFIX SAMPLE 1 _ _ _ Haxs eq_refl B1) as (im2 & new2 & E2 & B2 & P2 & N2 & S2);
          [unfold set_ax, pre, suf; cbn [axis_eqb]; lia|discriminate|] end.
      rewrite E2.
      match goal with |- context [axplanes_step A p (?im, ?pls) (?s, BAND)] =>
        destruct (step_band2 p im pls PREFIX _ _ _ B2) as (new3 & E3 & P3) end.
      rewrite E3.
      match goal with |- context [axplanes_step A p (?im, ?pls) (SUFFIX, LINE)] =>
        destruct (step_cut axs2 p im pls SUFFIX LINE 0 _ _ _ Haxs eq_refl B2) as (im4 & new4 & E4 & B4 & P4 & N4 & S4);
          [unfold set_ax, pre, suf; cbn [axis_eqb]; lia|intros _; apply Hs; cbn; auto|] end.
      rewrite E4.
      match goal with |- context [axplanes_step A p (?im, ?pls) (SUFFIX, SAMPLE)] =>
        destruct (step_cut axs2 p im pls SUFFIX SAMPLE 1 _ _ _ Haxs eq_refl B4) as (im5 & new5 & E5 & B5 & P5 & N5 & S5);
          [unfold set_ax, pre, suf; cbn [axis_eqb]; lia|intros _; apply Hs; cbn; auto|] end.
      rewrite E5.
      match goal with |- context [axplanes_step A p (?im, ?pls) (?s, BAND)] =>
        destruct (step_band2 p im pls SUFFIX _ _ _ B5) as (new6 & E6 & P6) end.
      rewrite E6.
      eexists _, _. split; [reflexivity|]. split.
      { eapply box_ext; [exact B5|..]; intros y Hy; unfold set_ax, pre, suf; destruct y; cbn [axis_eqb]; try lia; (exfalso; clear -Hy; cbn in Hy; intuition discriminate). }
      intros x Hx Hone.
      assert (HL : x = LINE \/ pix (planes p PREFIX LINE) = 0 /\ pix (planes p SUFFIX LINE) = 0)
        by (destruct x; try (right; specialize (Hone LINE ltac:(discriminate)); unfold pre, suf in Hone; lia); now left).
      assert (HS : x = SAMPLE \/ pix (planes p PREFIX SAMPLE) = 0 /\ pix (planes p SUFFIX SAMPLE) = 0)
        by (destruct x; try (right; specialize (Hone SAMPLE ltac:(discriminate)); unfold pre, suf in Hone; lia); now left).
      assert (HB : x = BAND \/ pix (planes p PREFIX BAND) = 0 /\ pix (planes p SUFFIX BAND) = 0)
        by (destruct x; try (right; specialize (Hone BAND ltac:(discriminate)); unfold pre, suf in Hone; lia); now left).
      clear Hone.
      split; [|split; [|split]].
      { intros Hne. destruct x.
        - destruct (S1 Hne) as [pl ->]. exists pl. clear. rewrite !in_app_iff. cbn [In]. tauto.
        - destruct (S2 Hne) as [pl ->]. exists pl. clear. rewrite !in_app_iff. cbn [In]. tauto.
        - exfalso; clear -Hx; cbn in Hx; intuition discriminate.
      }
      { intros Hne. destruct x.
        - destruct (S4 Hne) as [pl ->]. exists pl. clear. rewrite !in_app_iff. cbn [In]. tauto.
        - destruct (S5 Hne) as [pl ->]. exists pl. clear. rewrite !in_app_iff. cbn [In]. tauto.
        - exfalso; clear -Hx; cbn in Hx; intuition discriminate.
      }
      { intros pl Hin. rewrite !in_app_iff in Hin. destruct Hin as [[[[[[[]|Hin]|Hin]|Hin]|Hin]|Hin]|Hin].
        - split; [intros Hnn; pose proof Hin as Hin2; apply P1 in Hin2 as (_ & -> & _); rewrite (N1 Hnn) in Hin; destruct Hin|].
          apply P1 in Hin as (_ & -> & Hpl). eapply box_ext; [exact Hpl|..]; intros y Hy; clear -HL HS HB Hy Hx; unfold set_ax, pre, suf; destruct y; cbn [axis_eqb]; destruct HL as [HL|HL], HS as [HS|HS], HB as [HB|HB]; try discriminate; try lia; (exfalso; clear -Hy; cbn in Hy; intuition discriminate).
        - split; [intros Hnn; pose proof Hin as Hin2; apply P2 in Hin2 as (_ & -> & _); rewrite (N2 Hnn) in Hin; destruct Hin|].
          apply P2 in Hin as (_ & -> & Hpl). eapply box_ext; [exact Hpl|..]; intros y Hy; clear -HL HS HB Hy Hx; unfold set_ax, pre, suf; destruct y; cbn [axis_eqb]; destruct HL as [HL|HL], HS as [HS|HS], HB as [HB|HB]; try discriminate; try lia; (exfalso; clear -Hy; cbn in Hy; intuition discriminate).
        - apply P3 in Hin. subst x. exfalso; clear -Hx; cbn in Hx; intuition discriminate.
        - apply P4 in Hin as (? & _). discriminate.
        - apply P5 in Hin as (? & _). discriminate.
        - apply P6 in Hin. subst x. exfalso; clear -Hx; cbn in Hx; intuition discriminate.
      }
      { intros pl Hin. rewrite !in_app_iff in Hin. destruct Hin as [[[[[[[]|Hin]|Hin]|Hin]|Hin]|Hin]|Hin].
        - apply P1 in Hin as (? & _). discriminate.
        - apply P2 in Hin as (? & _). discriminate.
        - apply P3 in Hin. subst x. exfalso; clear -Hx; cbn in Hx; intuition discriminate.
        - split; [intros Hnn; pose proof Hin as Hin2; apply P4 in Hin2 as (_ & -> & _); rewrite (N4 Hnn) in Hin; destruct Hin|].
          apply P4 in Hin as (_ & -> & Hpl). eapply box_ext; [exact Hpl|..]; intros y Hy; clear -HL HS HB Hy Hx; unfold set_ax, pre, suf; destruct y; cbn [axis_eqb]; destruct HL as [HL|HL], HS as [HS|HS], HB as [HB|HB]; try discriminate; try lia; (exfalso; clear -Hy; cbn in Hy; intuition discriminate).
        - split; [intros Hnn; pose proof Hin as Hin2; apply P5 in Hin2 as (_ & -> & _); rewrite (N5 Hnn) in Hin; destruct Hin|].
          apply P5 in Hin as (_ & -> & Hpl). eapply box_ext; [exact Hpl|..]; intros y Hy; clear -HL HS HB Hy Hx; unfold set_ax, pre, suf; destruct y; cbn [axis_eqb]; destruct HL as [HL|HL], HS as [HS|HS], HB as [HB|HB]; try discriminate; try lia; (exfalso; clear -Hy; cbn in Hy; intuition discriminate).
        - apply P6 in Hin. subst x. exfalso; clear -Hx; cbn in Hx; intuition discriminate.
      }
  Qed.
End Planes.

(** ** Properties from labels *)
Lemma index_of_nth names i x : NoDup names -> nth_error names i = Some x -> index_of x names = Ok i.
Proof.
  revert i. induction names as [|y names IH]; intros i Hd Hi; [destruct i; discriminate|].
  inversion Hd as [|? ? Hny Hd']; subst. destruct i as [|i]; cbn [nth_error] in Hi.
  - injection Hi as ->. cbn [index_of]. now rewrite str_eqb_refl.
  - cbn [index_of]. assert (E : str_eqb x y = false).
    { apply str_eqb_neq. intros ->. apply Hny. eapply nth_error_In; eauto. }
    rewrite E, (IH _ Hd' Hi). reflexivity.
Qed.
Lemma fix_pix_ok n bpp : 0 < bpp -> fix_pix (n * bpp) bpp = Ok n.
Proof.
  intros H. unfold fix_pix. assert (E : (bpp =? 0) = false) by (apply Nat.eqb_neq; lia). rewrite E.
  rewrite Nat.mod_mul, Nat.div_mul by lia. reflexivity.
Qed.
Lemma all_equal_repeat k m : all_equal (repeat k m) = true.
Proof. destruct m as [|m]; [reflexivity|]. cbn [repeat all_equal]. apply forallb_forall. intros x Hx. apply repeat_spec in Hx as ->. apply Nat.eqb_refl. Qed.
Lemma sum_repeat k m : fold_right Nat.add 0 (repeat k m) = m * k.
Proof. induction m as [|m IH]; [reflexivity|]. cbn [repeat fold_right Nat.mul]. now rewrite IH. Qed.
Lemma axplane_step_ok f names bpp pl pad_ ax sd n : 0 < bpp -> NoDup names -> planes_or_none f names bpp sd ax n ->
  exists pl' pad', axplane_step f bpp (Some names) (pl, pad_) (ax, sd) = Ok (pl', pad') /\
    (forall s x, pl' s x = if side_eqb s sd && axis_eqb x ax then (match item_bytes f ax sd with None => pl s x | Some _ => Some n end) else pl s x) /\
    (forall x, pad' x = if axis_eqb x ax then pad_ x + n else pad_ x).
Proof.
  intros Hb Hd H. unfold axplane_step. destruct H as [[-> ->]|[(k & counts & i & c & -> & -> & Hi & Hc & E)|(k & m & counts & -> & -> & E)]].
  - exists pl, pad_. split; [reflexivity|]. split; intros; destruct (axis_eqb x ax); rewrite ?andb_false_r, ?andb_true_r; try destruct (side_eqb s sd); auto; lia.
  - rewrite (index_of_nth _ _ _ Hd Hi). cbn [rbind]. unfold nth_res. rewrite Hc. cbn [rbind]. rewrite E, fix_pix_ok by exact Hb.
    cbn [rbind]. eexists _, _. split; [reflexivity|]. split; reflexivity.
  - rewrite all_equal_repeat, sum_repeat. cbn [rbind]. rewrite E, fix_pix_ok by exact Hb.
    cbn [rbind]. eexists _, _. split; [reflexivity|]. split; reflexivity.
Qed.
Lemma axplane_metadata_ok f names bpp (n : side -> axis -> nat) : 0 < bpp -> NoDup names ->
  (forall sd ax, planes_or_none f names bpp sd ax (n sd ax)) ->
  exists pl pad_, axplane_metadata f bpp (Some names) = Ok (pl, pad_) /\
    (forall sd ax, pl sd ax = match item_bytes f ax sd with None => None | Some _ => Some (n sd ax) end) /\
    (forall ax, pad_ ax = n PREFIX ax + n SUFFIX ax).
Proof.
  intros Hb Hd H. unfold axplane_metadata. cbn [rfold].
  destruct (axplane_step_ok f names bpp (fun _ _ => None) (fun _ => 0) BAND PREFIX _ Hb Hd (H PREFIX BAND)) as (p1 & d1 & -> & P1 & D1). cbn [rbind].
  destruct (axplane_step_ok f names bpp p1 d1 BAND SUFFIX _ Hb Hd (H SUFFIX BAND)) as (p2 & d2 & -> & P2 & D2). cbn [rbind].
  destruct (axplane_step_ok f names bpp p2 d2 LINE PREFIX _ Hb Hd (H PREFIX LINE)) as (p3 & d3 & -> & P3 & D3). cbn [rbind].
  destruct (axplane_step_ok f names bpp p3 d3 LINE SUFFIX _ Hb Hd (H SUFFIX LINE)) as (p4 & d4 & -> & P4 & D4). cbn [rbind].
  destruct (axplane_step_ok f names bpp p4 d4 SAMPLE PREFIX _ Hb Hd (H PREFIX SAMPLE)) as (p5 & d5 & -> & P5 & D5). cbn [rbind].
  destruct (axplane_step_ok f names bpp p5 d5 SAMPLE SUFFIX _ Hb Hd (H SUFFIX SAMPLE)) as (p6 & d6 & -> & P6 & D6). cbn [rbind].
  exists p6, d6. split; [reflexivity|]. split.
  - intros sd ax. rewrite P6, P5, P4, P3, P2, P1. destruct sd, ax; cbn [side_eqb axis_eqb andb]; destruct (item_bytes f _ _); reflexivity.
  - intros ax. rewrite D6, D5, D4, D3, D2, D1. destruct ax; cbn [axis_eqb]; lia.
Qed.
Lemma axplane_metadata_none f names bpp : no_planes f ->
  axplane_metadata f bpp names = Ok (fun _ _ => None, fun _ => 0).
Proof. intros H. unfold axplane_metadata. cbn [rfold]. unfold axplane_step. rewrite !H. cbn [rbind]. reflexivity. Qed.
Lemma linefix_metadata_ok f bpp (n : side -> nat) : 0 < bpp -> (forall sd, declares_linefix f bpp sd (n sd)) ->
  exists lf, linefix_metadata f bpp = Ok (lf, n PREFIX + n SUFFIX) /\
    (forall sd, lf sd = if n sd =? 0 then None else Some (n sd)).
Proof.
  intros Hb H.
  assert (S : forall st sd, exists st', linefix_step f bpp st sd = Ok st' /\ snd st' = snd st + n sd /\
      forall s, fst st' s = if side_eqb s sd && negb (n sd =? 0) then Some (n sd) else fst st s).
  { intros st sd. unfold linefix_step. destruct (H sd) as [[E0 [E|E]]|[H0 E]]; rewrite E.
    - exists st. rewrite E0. split; [reflexivity|]. cbn [Nat.eqb negb]. split; [lia|]. intros s. now rewrite andb_false_r.
    - exists st. rewrite E0. split; [reflexivity|]. cbn [Nat.eqb negb]. split; [lia|]. intros s. now rewrite andb_false_r.
    - destruct (n sd * bpp) as [|m] eqn:Em; [nia|]. rewrite <- Em, fix_pix_ok by exact Hb. cbn [rbind].
      eexists. split; [reflexivity|]. split; [reflexivity|]. intros s.
      assert (En : (n sd =? 0) = false) by (apply Nat.eqb_neq; lia). rewrite En. cbn [negb]. rewrite andb_true_r. reflexivity. }
  unfold linefix_metadata. cbn [rfold].
  destruct (S (fun _ => None, 0) PREFIX) as (s1 & -> & A1 & F1). cbn [rbind].
  destruct (S s1 SUFFIX) as ([lf k] & -> & A2 & F2). cbn [rbind]. cbn [fst snd] in *.
  exists lf. split; [do 2 f_equal; lia|]. intros sd. rewrite F2, F1. destruct sd; cbn [side_eqb andb]; destruct (n PREFIX =? 0), (n SUFFIX =? 0); reflexivity.
Qed.

(** ** Whole images *)
Definition storage_of (p : props) : storage := match bst p with Some t => storage_named t | None => BSQ end.
Section Whole.
  Context {A : Type}.
  Variable dec : str -> list ascii -> A.
  Variable from_vax32 : A -> A.
  Definition conv (p : props) (x : A) : A := if is_vax p then from_vax32 x else x.
  (** the value at (b, l, s) of the padded cube *)
  Definition at3 (p : props) (f : stream) dt w B L S (idx : list nat) : A :=
    match idx with
    | [b; l; s] => conv p (raw dec f dt w (position (storage_of p) B L S b l s))
    | _ => conv p (raw dec f dt w 0)
    end.
  Definition at2 (p : props) (f : stream) dt w S (idx : list nat) : A :=
    match idx with [l; s] => conv p (raw dec f dt w (l * S + s)) | _ => conv p (raw dec f dt w 0) end.
  Definition extent (r c b : nat) (x : axis) : nat := match x with LINE => r | SAMPLE => c | BAND => b end.
  Definition one_axis (p : props) : Prop := exists x, forall y, y <> x -> pad p y = 0.
  Lemma validity_ok p : linepad p = 0 -> one_axis p -> check_fix_validity p = Ok tt.
  Proof.
    intros Hl [x Hx]. unfold check_fix_validity. rewrite Hl. change (0 <? 0) with false. cbn [andb].
    assert (E : List.length (filter (Nat.ltb 0) [pad p LINE; pad p SAMPLE; pad p BAND]) <= 1).
    { destruct x; rewrite ?(Hx LINE), ?(Hx SAMPLE), ?(Hx BAND) by discriminate; cbn [filter Nat.ltb Nat.leb]; destruct (pad p _); cbn; lia. }
    apply Nat.ltb_ge in E. rewrite E. reflexivity.
  Qed.
  Lemma conv_repr p a N (g : nat -> A) : repr a [N] (fun idx => g (hd 0 idx)) ->
    repr (convert_if_vax A from_vax32 a p) [N] (fun idx => conv p (g (hd 0 idx))).
  Proof. intros H. unfold convert_if_vax, conv. destruct (is_vax p); [now apply (repr_map _ _ _ from_vax32 H)|exact H]. Qed.
  Lemma cube_box a B L S (g : list nat -> A) : cube a B L S (fun b l s => g [b; l; s]) ->
    box axs3 a (fun _ => 0) (extent L S B) g.
  Proof.
    intros [H1 H2]. split; [exact H1|]. intros idx Hv. apply valid3 in Hv as (i & j & k & -> & ? & ? & ?). now apply H2.
  Qed.
  Lemma plane_box a L S (g : list nat -> A) b : plane2 a L S (fun l s => g [l; s]) ->
    box axs2 a (fun _ => 0) (extent L S b) g.
  Proof.
    intros [H1 H2]. split; [exact H1|]. intros idx Hv. apply valid2 in Hv as (i & j & -> & ? & ?). now apply H2.
  Qed.
  Lemma load_multi p f r c b dt w : nrows p = Some r -> ncols p = Some c -> nbands p = Some b -> b <> 1 ->
    linepad p = 0 -> one_axis p -> (forall x, pad p x = pre p x + suf p x) -> (forall x, planes p SUFFIX x <> Some 0) ->
    format_dtype p = Ok (dt, w) -> 0 < w ->
    (r + pad p LINE) * (c + pad p SAMPLE) * (b + pad p BAND) * w <= List.length (rest f) ->
    exists l, load_pixels A dec from_vax32 p f = Ok l /\ l_prefix A l = None /\ l_suffix A l = None /\
      let g := at3 p f dt w (b + pad p BAND) (r + pad p LINE) (c + pad p SAMPLE) in
      box axs3 (l_image A l) (pre p) (extent r c b) g /\
      (forall x, (forall y, y <> x -> pre p y + suf p y = 0) ->
         (planes p PREFIX x <> None -> exists pl, In (PREFIX, x, pl) (l_planes A l)) /\
         (planes p SUFFIX x <> None -> exists pl, In (SUFFIX, x, pl) (l_planes A l)) /\
         (forall pl, In (PREFIX, x, pl) (l_planes A l) -> planes p PREFIX x <> None /\ box axs3 pl (fun _ => 0) (set_ax x (pre p x) (extent r c b)) g) /\
         (forall pl, In (SUFFIX, x, pl) (l_planes A l) -> planes p SUFFIX x <> None /\
            box axs3 pl (set_ax x (pre p x + extent r c b x) (fun _ => 0)) (set_ax x (suf p x) (extent r c b)) g)).
  Proof.
    intros Hr Hc Hb Hb1 Hlp Hone Hpad Hsuf Hfmt Hw Hlen. unfold load_pixels, pixel_count.
    rewrite (validity_ok _ Hlp Hone), Hr, Hc, Hb. cbn [rbind key]. rewrite Hlp, Nat.add_0_r.
    assert (E1 : (b =? 1) = false) by now apply Nat.eqb_neq. rewrite E1.
    unfold process_multiband_image. rewrite Hfmt. cbn [rbind fst snd].
    destruct (read_ok dec f dt w ((r + pad p LINE) * (c + pad p SAMPLE) * (b + pad p BAND)) Hw Hlen) as (a & -> & Ha).
    cbn [rbind]. apply (conv_repr p) in Ha. set (a' := convert_if_vax A from_vax32 a p) in *. clearbody a'.
    set (B := b + pad p BAND) in *. set (L := r + pad p LINE) in *. set (S := c + pad p SAMPLE) in *.
    set (g := at3 p f dt w B L S). set (raw' := fun k => conv p (raw dec f dt w k)) in *.
    match goal with |- exists l, rbind ?x _ = _ /\ _ => assert (Hx : exists im, x = Ok (im, None, None) /\ cube im B L S (fun i j k => g [i; j; k])) end.
    { unfold g, at3, storage_of, storage_named.
      assert (Hseq : exists im, (do image0 <- reshape [B; L; S] a'; Ok (image0, @None (arr A), @None (arr A))) = Ok (im, None, None) /\
         cube im B L S (fun b0 l0 s0 => raw' ((b0 * L + l0) * S + s0))).
      { destruct (reshape3 a' _ raw' B L S Ha ltac:(lia)) as (im & -> & H). exists im. now split. }
      destruct (bst p) as [t|]; [|exact Hseq].
      destruct (str_eqb t $"SAMPLE_INTERLEAVED").
      - destruct (reshape3 a' _ raw' L S B Ha ltac:(lia)) as (im & -> & H). cbn [rbind]. eexists. split; [reflexivity|].
        apply move20_cube in H. exact H.
      - destruct (str_eqb t $"LINE_INTERLEAVED").
        + unfold extract_bil_linefix. rewrite Hlp. cbn [Nat.eqb rbind].
          destruct (reshape3 a' _ raw' L B S Ha ltac:(lia)) as (im & -> & H). cbn [rbind]. eexists. split; [reflexivity|].
          apply move01_cube in H. exact H.
        + exact Hseq. }
    destruct Hx as (im & -> & Him). cbn [rbind]. apply cube_box in Him.
    assert (Him' : box axs3 im (fun _ => 0) (fun x => extent r c b x + pre p x + suf p x) g).
    { eapply box_ext; [exact Him|reflexivity|]. intros x _. subst L S B. destruct x; cbn [extent]; rewrite Hpad; lia. }
    destruct (axplanes_box axs3 p im (extent r c b) g (or_introl eq_refl) Him' (fun x _ => Hsuf x)) as (im2 & pls & -> & Hi & Hp).
    eexists. split; [reflexivity|]. cbn. split; [reflexivity|]. split; [reflexivity|]. split; [exact Hi|].
    intros x Hx. apply Hp; [destruct x; cbn; auto|exact Hx].
  Qed.

  Lemma load_single p f r c dt w : nrows p = Some r -> ncols p = Some c -> nbands p = Some 1 ->
    linepad p = 0 -> one_axis p -> pad p BAND = 0 -> (forall x, pad p x = pre p x + suf p x) ->
    (forall x, x <> BAND -> planes p SUFFIX x <> Some 0) ->
    format_dtype p = Ok (dt, w) -> 0 < w ->
    (r + pad p LINE) * (c + pad p SAMPLE) * w <= List.length (rest f) ->
    exists l, load_pixels A dec from_vax32 p f = Ok l /\ l_prefix A l = None /\ l_suffix A l = None /\
      let g := at2 p f dt w (c + pad p SAMPLE) in
      box axs2 (l_image A l) (pre p) (extent r c 1) g /\
      (forall x, x <> BAND -> (forall y, y <> x -> pre p y + suf p y = 0) ->
         (planes p PREFIX x <> None -> exists pl, In (PREFIX, x, pl) (l_planes A l)) /\
         (planes p SUFFIX x <> None -> exists pl, In (SUFFIX, x, pl) (l_planes A l)) /\
         (forall pl, In (PREFIX, x, pl) (l_planes A l) -> planes p PREFIX x <> None /\ box axs2 pl (fun _ => 0) (set_ax x (pre p x) (extent r c 1)) g) /\
         (forall pl, In (SUFFIX, x, pl) (l_planes A l) -> planes p SUFFIX x <> None /\
            box axs2 pl (set_ax x (pre p x + extent r c 1 x) (fun _ => 0)) (set_ax x (suf p x) (extent r c 1)) g)).
  Proof.
    intros Hr Hc Hb Hlp Hone Hpb Hpad Hsuf Hfmt Hw Hlen. unfold load_pixels, pixel_count.
    rewrite (validity_ok _ Hlp Hone), Hr, Hc, Hb. cbn [rbind key]. rewrite Hlp, Hpb, !Nat.add_0_r, Nat.mul_1_r.
    cbn [Nat.eqb]. unfold process_single_band_image. rewrite Hfmt. cbn [rbind fst snd].
    destruct (read_ok dec f dt w ((r + pad p LINE) * (c + pad p SAMPLE)) Hw Hlen) as (a & -> & Ha).
    cbn [rbind]. unfold extract_single_band_linefix. rewrite Hlp. cbn [Nat.eqb rbind].
    apply (conv_repr p) in Ha. set (a' := convert_if_vax A from_vax32 a p) in *. clearbody a'.
    set (raw' := fun k => conv p (raw dec f dt w k)) in *.
    destruct (reshape2 a' _ raw' _ _ Ha eq_refl) as (im & -> & Him). cbn [rbind].
    set (g := at2 p f dt w (c + pad p SAMPLE)).
    assert (Him' : box axs2 im (fun _ => 0) (fun x => extent r c 1 x + pre p x + suf p x) g).
    { eapply box_ext; [exact (plane_box im _ _ g 1 Him)|reflexivity|].
      intros x Hx. destruct x; cbn [extent]; rewrite ?Hpad; try lia. cbn in Hx. intuition discriminate. }
    destruct (axplanes_box axs2 p im (extent r c 1) g (or_intror eq_refl) Him') as (im2 & pls & -> & Hi & Hp).
    { intros x Hx. apply Hsuf. intros ->. cbn in Hx. intuition discriminate. }
    eexists. split; [reflexivity|]. cbn. split; [reflexivity|]. split; [reflexivity|]. split; [exact Hi|].
    intros x Hx Hx'. apply Hp; [destruct x; cbn; auto|exact Hx'].
  Qed.

  (** single-band line prefixes and suffixes *)
  Lemma validity_line p : (forall x, pad p x = 0) -> (bst p = None \/ bst p = Some $"LINE_INTERLEAVED" \/ nbands p = Some 1) ->
    check_fix_validity p = Ok tt.
  Proof.
    intros Hp H. unfold check_fix_validity. rewrite !Hp. change (0 <? 0 + 0 + 0) with false. rewrite andb_false_r.
    cbn [filter]. change (0 <? 0) with false. cbn [List.length]. change (1 <? 0) with false.
    destruct H as [->|[->| ->]].
    - now rewrite andb_false_r.
    - cbn [str_eqb]. rewrite str_eqb_refl. cbn [negb]. now rewrite andb_false_r.
    - cbn [key rbind]. change (1 <? 1) with false. now destruct (_ && _).
  Qed.
  Lemma axplanes_none p (a : arr A) : (forall s x, planes p s x = None) -> extract_axplanes A a p = (a, []).
  Proof. intros H. unfold extract_axplanes. cbn [fold_left]. unfold axplanes_step. rewrite !H. reflexivity. Qed.
  (** the prefix and suffix arrays as the code returns them *)
  Definition part_is (o : option (arr A)) (n r : nat) (f : nat -> nat -> A) : Prop :=
    match o with None => n = 0 | Some a => 0 < n /\ plane2 a r n f end.
  Lemma cut_line (a : arr A) r c u v f :
    plane2 a r (u + c + v) f ->
    let suffix := if 0 <? v then Some (pyslice 1 (s_from_neg v) a) else None in
    let a1 := if 0 <? v then pyslice 1 (s_to_neg v) a else a in
    let prefix := if 0 <? u then Some (pyslice 1 (s_to u) a1) else None in
    let a2 := if 0 <? u then pyslice 1 (s_from u) a1 else a1 in
    plane2 a2 r c (fun l s => f l (u + s)) /\ part_is prefix u r f /\ part_is suffix v r (fun l s => f l (u + c + s)).
  Proof.
    intros Ha suffix a1 prefix a2.
    assert (H1 : plane2 a1 r (u + c) f).
    { subst a1. destruct (0 <? v) eqn:Ev.
      - apply Nat.ltb_lt in Ev. unfold pyslice, s_to_neg. rewrite (proj1 Ha). cbn [nth fst snd].
        assert (E : (v =? 0) = false) by (apply Nat.eqb_neq; lia). rewrite E.
        destruct (plane_slice1 a r _ f 0 (u + c + v - v) Ha ltac:(lia)) as [Q1 Q2]. split.
        + rewrite Q1. do 2 f_equal. lia.
        + intros l s Hl Hs. apply Q2; lia.
      - apply Nat.ltb_ge in Ev. replace v with 0 in Ha by lia. now rewrite Nat.add_0_r in Ha. }
    split; [|split].
    - subst a2. clearbody a1. destruct (0 <? u) eqn:Eu.
      + apply Nat.ltb_lt in Eu. unfold pyslice, s_from. rewrite (proj1 H1). cbn [nth fst snd]. rewrite Nat.min_l by lia.
        destruct (plane_slice1 a1 r _ f u (u + c) H1 ltac:(lia)) as [Q1 Q2]. split.
        * rewrite Q1. do 2 f_equal. lia.
        * intros l s Hl Hs. apply Q2; lia.
      + apply Nat.ltb_ge in Eu. replace u with 0 in * by lia. exact H1.
    - subst prefix. clearbody a1. unfold part_is. destruct (0 <? u) eqn:Eu; [|apply Nat.ltb_ge in Eu; lia].
      apply Nat.ltb_lt in Eu. split; [exact Eu|]. unfold pyslice, s_to. rewrite (proj1 H1). cbn [nth fst snd]. rewrite Nat.min_l by lia.
      destruct (plane_slice1 a1 r _ f 0 u H1 ltac:(lia)) as [Q1 Q2]. split.
      + rewrite Q1. do 2 f_equal. lia.
      + intros l s Hl Hs. apply Q2; lia.
    - subst suffix. unfold part_is. destruct (0 <? v) eqn:Ev; [|apply Nat.ltb_ge in Ev; lia].
      apply Nat.ltb_lt in Ev. split; [exact Ev|]. unfold pyslice, s_from_neg. rewrite (proj1 Ha). cbn [nth fst snd].
      assert (E : (v =? 0) = false) by (apply Nat.eqb_neq; lia). rewrite E.
      destruct (plane_slice1 a r _ f (u + c + v - v) (u + c + v) Ha ltac:(lia)) as [Q1 Q2]. split.
      + rewrite Q1. do 2 f_equal. lia.
      + intros l s Hl Hs. rewrite (Q2 l s) by lia. f_equal. lia.
  Qed.
  Lemma map_plane2 (a : arr A) L S g h : plane2 a L S g -> plane2 (map_arr h a) L S (fun l s => h (g l s)).
  Proof. intros [H1 H2]. split; [exact H1|]. intros l s Hl Hs. cbn. now rewrite H2. Qed.
  Lemma load_single_linefix p f r c u v dt w : nrows p = Some r -> ncols p = Some c -> nbands p = Some 1 ->
    (forall x, pad p x = 0) -> (forall s x, planes p s x = None) ->
    linepad p = u + v -> pix (linefix p PREFIX) = u -> pix (linefix p SUFFIX) = v ->
    format_dtype p = Ok (dt, w) -> 0 < w -> r * (c + (u + v)) * w <= List.length (rest f) ->
    exists l, load_pixels A dec from_vax32 p f = Ok l /\
      plane2 (l_image A l) r c (fun i j => conv p (raw dec f dt w (i * (u + c + v) + (u + j)))) /\
      part_is (l_prefix A l) u r (fun i j => raw dec f dt w (i * (u + c + v) + j)) /\
      part_is (l_suffix A l) v r (fun i j => raw dec f dt w (i * (u + c + v) + (u + c + j))).
  Proof.
    intros Hr Hc Hb Hpad Hpl Hlp Hu Hv Hfmt Hw Hlen. unfold load_pixels, pixel_count.
    rewrite (validity_line p Hpad) by auto. rewrite Hr, Hc, Hb. cbn [rbind key]. rewrite !Hpad, Hlp, !Nat.add_0_r, Nat.mul_1_r.
    cbn [Nat.eqb]. unfold process_single_band_image. rewrite Hfmt. cbn [rbind fst snd].
    destruct (read_ok dec f dt w (r * (c + (u + v))) Hw Hlen) as (a & -> & Ha). cbn [rbind].
    assert (Hx : exists im pr su, extract_single_band_linefix A a p r c = Ok (im, pr, su) /\
      (exists im2, reshape [r; c] (convert_if_vax A from_vax32 im p) = Ok im2 /\ plane2 im2 r c (fun i j => conv p (raw dec f dt w (i * (u + c + v) + (u + j))))) /\
      part_is pr u r (fun i j => raw dec f dt w (i * (u + c + v) + j)) /\
      part_is su v r (fun i j => raw dec f dt w (i * (u + c + v) + (u + c + j)))).
    { unfold extract_single_band_linefix. rewrite Hlp, Hu, Hv. destruct (u + v =? 0) eqn:E0.
      - apply Nat.eqb_eq in E0. assert (u = 0) as -> by lia. assert (v = 0) as -> by lia.
        exists a, None, None. split; [reflexivity|]. split; [|split; reflexivity].
        apply (conv_repr p) in Ha. destruct (reshape2 (convert_if_vax A from_vax32 a p) _ (fun k => conv p (raw dec f dt w k)) r c Ha ltac:(lia)) as (im & -> & Him). exists im. split; [reflexivity|].
        destruct Him as [Q1 Q2]. split; [exact Q1|]. intros l s Hl Hs. rewrite Q2 by assumption. do 2 f_equal. lia.
      - clear E0. destruct (reshape2 a _ (fun k => raw dec f dt w k) r (c + (u + v)) Ha eq_refl) as (b & -> & Hb2). cbn [rbind].
        assert (Hb3 : plane2 b r (u + c + v) (fun i j => raw dec f dt w (i * (u + c + v) + j))).
        { replace (u + c + v) with (c + (u + v)) by lia. exact Hb2. }
        pose proof (cut_line b r c u v _ Hb3) as Hcut. cbn zeta in Hcut.
        destruct (0 <? v); destruct (0 <? u); destruct Hcut as (C1 & C2 & C3); (eexists _, _, _; split; [reflexivity|]; split; [|split; [exact C2|exact C3]]);
          (eapply reshape_22; unfold convert_if_vax, conv; destruct (is_vax p); [now apply map_plane2|exact C1]). }
    destruct Hx as (im & pr & su & -> & (im2 & Him & Hp2) & Hpr & Hsu). cbn [rbind]. rewrite !Hpad, !Nat.add_0_r, Him. cbn [rbind].
    rewrite axplanes_none by exact Hpl. eexists. split; [reflexivity|]. cbn. now split.
  Qed.

  Lemma bil_cut p (a : arr A) r n c u v g : repr a [r * n] (fun idx => g (hd 0 idx)) -> 0 < r -> n = u + c + v ->
    linepad p = u + v -> 0 < u + v ->
    linefix p PREFIX = (if u =? 0 then None else Some u) -> linefix p SUFFIX = (if v =? 0 then None else Some v) ->
    exists im pr su, extract_bil_linefix A a p r = Ok (im, pr, su) /\
      plane2 im r c (fun i j => g (i * n + (u + j))) /\
      part_is pr u r (fun i j => g (i * n + j)) /\ part_is su v r (fun i j => g (i * n + (u + c + j))).
  Proof.
    intros Ha Hr0 Hn Hlp Huv Hu Hv. unfold extract_bil_linefix. rewrite Hlp.
    assert (E0 : (u + v =? 0) = false) by (apply Nat.eqb_neq; lia). rewrite E0.
    assert (E1 : (r =? 0) = false) by (apply Nat.eqb_neq; lia). rewrite E1.
    unfold size. rewrite (proj1 Ha), prod1. rewrite (Nat.mul_comm r n), Nat.div_mul by lia. rewrite Nat.mul_comm in Ha.
    destruct (reshape2 a _ g r n Ha ltac:(lia)) as (b & -> & Hb). cbn [rbind].
    assert (Hb' : plane2 b r (u + c + v) (fun i j => g (i * n + j))) by (now rewrite <- Hn).
    pose proof (cut_line b r c u v _ Hb') as Hcut. cbn zeta in Hcut. rewrite Hu, Hv.
    destruct (Nat.eqb_spec u 0) as [Eu|Eu], (Nat.eqb_spec v 0) as [Ev|Ev];
      [lia|assert (F1 : (0 <? v) = true) by (apply Nat.ltb_lt; lia); assert (F2 : (0 <? u) = false) by (apply Nat.ltb_ge; lia)
      |assert (F1 : (0 <? v) = false) by (apply Nat.ltb_ge; lia); assert (F2 : (0 <? u) = true) by (apply Nat.ltb_lt; lia)
      |assert (F1 : (0 <? v) = true) by (apply Nat.ltb_lt; lia); assert (F2 : (0 <? u) = true) by (apply Nat.ltb_lt; lia)];
      rewrite F1, F2 in Hcut; eexists _, _, _; (split; [reflexivity|exact Hcut]).
  Qed.
  Lemma load_bil_linefix p f r c b u v dt w : nrows p = Some r -> ncols p = Some c -> nbands p = Some b -> 1 < b -> 0 < r ->
    bst p = Some $"LINE_INTERLEAVED" ->
    (forall x, pad p x = 0) -> (forall s x, planes p s x = None) ->
    linepad p = u + v -> 0 < u + v ->
    linefix p PREFIX = (if u =? 0 then None else Some u) -> linefix p SUFFIX = (if v =? 0 then None else Some v) ->
    format_dtype p = Ok (dt, w) -> 0 < w -> List.length (rest f) = r * (u + b * c + v) * w ->
    exists l, load_pixels A dec from_vax32 p f = Ok l /\
      cube (l_image A l) b r c (fun k i j => conv p (raw dec f dt w (i * (u + b * c + v) + (u + (k * c + j))))) /\
      part_is (l_prefix A l) u r (fun i j => conv p (raw dec f dt w (i * (u + b * c + v) + j))) /\
      part_is (l_suffix A l) v r (fun i j => conv p (raw dec f dt w (i * (u + b * c + v) + (u + b * c + j)))).
  Proof.
    intros Hr Hc Hb Hb1 Hr0 Hbst Hpad Hpl Hlp Huv Hu Hv Hfmt Hw Hlen. unfold load_pixels, pixel_count.
    rewrite (validity_line p Hpad) by auto. rewrite Hr, Hc, Hb. cbn [rbind key]. rewrite !Hpad, Hlp, !Nat.add_0_r.
    assert (E1 : (b =? 1) = false) by (apply Nat.eqb_neq; lia). rewrite E1.
    unfold process_multiband_image. rewrite Hfmt. cbn [rbind fst snd].
    destruct (read_short dec f dt w (r * (c + (u + v)) * b) (r * (u + b * c + v)) Hw ltac:(nia) Hlen) as (a & -> & Ha).
    cbn [rbind]. rewrite Hbst. cbn [str_eqb].
    replace (str_eqb $"LINE_INTERLEAVED" $"SAMPLE_INTERLEAVED") with false by reflexivity.
    rewrite str_eqb_refl.
    apply (conv_repr p) in Ha.
    destruct (bil_cut p _ r (u + b * c + v) (b * c) u v (fun k => conv p (raw dec f dt w k)) Ha Hr0 eq_refl Hlp Huv Hu Hv) as (im & pr & su & -> & Him & Hpr & Hsu).
    cbn [rbind]. rewrite !Hpad, !Nat.add_0_r.
    destruct (reshape_23 im r (b * c) _ b c Him eq_refl) as (im2 & -> & H2). cbn [rbind].
    rewrite axplanes_none by exact Hpl. eexists. split; [reflexivity|]. cbn. split; [|now split].
    apply move01_cube in H2. exact H2.
  Qed.
  (** when more data follow the image, the pixel count is wrong and reading fails *)
  Lemma load_bil_linefix_fails p f r c b u v dt w : nrows p = Some r -> ncols p = Some c -> nbands p = Some b -> 1 < b -> 0 < r ->
    bst p = Some $"LINE_INTERLEAVED" ->
    (forall x, pad p x = 0) -> linepad p = u + v -> 0 < u + v ->
    linefix p PREFIX = (if u =? 0 then None else Some u) -> linefix p SUFFIX = (if v =? 0 then None else Some v) ->
    format_dtype p = Ok (dt, w) -> 0 < w -> r * (c + (u + v)) * b * w <= List.length (rest f) ->
    load_pixels A dec from_vax32 p f = Err ValueError.
  Proof.
    intros Hr Hc Hb Hb1 Hr0 Hbst Hpad Hlp Huv Hu Hv Hfmt Hw Hlen. unfold load_pixels, pixel_count.
    rewrite (validity_line p Hpad) by auto. rewrite Hr, Hc, Hb. cbn [rbind key]. rewrite !Hpad, Hlp, !Nat.add_0_r.
    assert (E1 : (b =? 1) = false) by (apply Nat.eqb_neq; lia). rewrite E1.
    unfold process_multiband_image. rewrite Hfmt. cbn [rbind fst snd].
    destruct (read_ok dec f dt w (r * (c + (u + v)) * b) Hw Hlen) as (a & -> & Ha).
    cbn [rbind]. rewrite Hbst. cbn [str_eqb].
    replace (str_eqb $"LINE_INTERLEAVED" $"SAMPLE_INTERLEAVED") with false by reflexivity.
    rewrite str_eqb_refl.
    apply (conv_repr p) in Ha.
    replace (r * (c + (u + v)) * b) with (r * (b * (c + (u + v)))) in Ha by lia.
    destruct (bil_cut p _ r (b * (c + (u + v))) (b * c + (b - 1) * (u + v)) u v (fun k => conv p (raw dec f dt w k)) Ha Hr0 ltac:(nia) Hlp Huv Hu Hv) as (im & pr & su & -> & Him & Hpr & Hsu).
    cbn [rbind]. rewrite !Hpad, !Nat.add_0_r. unfold reshape, size. rewrite (proj1 Him), prod3, prod2.
    assert (E : (r * b * c =? r * (b * c + (b - 1) * (u + v))) = false) by (assert (K : 0 < (b - 1) * (u + v)) by (apply Nat.mul_pos_pos; lia); apply Nat.eqb_neq; intros K2; rewrite <- Nat.mul_assoc in K2; apply Nat.mul_cancel_l in K2; lia).
    rewrite E. reflexivity.
  Qed.
End Whole.
