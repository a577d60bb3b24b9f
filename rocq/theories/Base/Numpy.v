(** Base layer: the fragment of numpy the model is written in.  Nothing here
    models pdr.  An array is its shape and a function from indices; only the
    values at valid indices are meaningful. *)
From Verif.Base Require Import Py.
Open Scope nat_scope.

(** What a numpy dtype string means (numpy on a 64-bit Unix, where C long has 8
    bytes). *)
Inductive order_ := Little | Big | NoOrder.
Inductive tkind := KSigned | KUnsigned | KFloat | KBytes | KVoid.
Record tmeaning := mkT { t_order : order_; t_kind : tkind; t_size : nat }.
Definition num_suffix (s : str) : option nat :=
  match s with [] => None | _ => option_map N.to_nat (parse_digits 10 0 s) end.
Definition numpy_body (o : order_) (s : str) : option tmeaning :=
  match s with
  | ["b"] => Some (mkT o KSigned 1)
  | ["B"] => Some (mkT o KUnsigned 1)
  | ["h"] => Some (mkT o KSigned 2)
  | ["H"] => Some (mkT o KUnsigned 2)
  | ["l"] => Some (mkT o KSigned 8)
  | ["L"] => Some (mkT o KUnsigned 8)
  | ["f"] => Some (mkT o KFloat 4)
  | ["d"] => Some (mkT o KFloat 8)
  | "i" :: ns => option_map (mkT o KSigned) (num_suffix ns)
  | "u" :: ns => option_map (mkT o KUnsigned) (num_suffix ns)
  | "S" :: ns => option_map (mkT NoOrder KBytes) (num_suffix ns)
  | "V" :: ns => option_map (mkT NoOrder KVoid) (num_suffix ns)
  | _ => None
  end%char.
Definition numpy_meaning (s : str) : option tmeaning :=
  match s with
  | "<" :: s' => numpy_body Little s'
  | ">" :: s' => numpy_body Big s'
  | _ => numpy_body NoOrder s
  end%char.

(** ** Arrays *)
Record arr (A : Type) := mkArr { shape : list nat; at_ : list nat -> A }.
Arguments mkArr {A}. Arguments shape {A}. Arguments at_ {A}.
Definition prod (sh : list nat) : nat := fold_right Nat.mul 1 sh.
(** position of an index in C (last axis fastest) order, and its inverse *)
Fixpoint lin (sh idx : list nat) : nat :=
  match sh, idx with
  | _ :: sh', i :: idx' => i * prod sh' + lin sh' idx'
  | _, _ => 0
  end.
Fixpoint unlin (sh : list nat) (k : nat) : list nat :=
  match sh with
  | [] => []
  | _ :: sh' => (k / prod sh') :: unlin sh' (k mod prod sh')
  end.
Definition valid (sh idx : list nat) : Prop := Forall2 lt idx sh.
(** ndarray.size *)
Definition size {A} (a : arr A) : nat := prod (shape a).
(** ndarray.reshape *)
Definition reshape {A} (sh : list nat) (a : arr A) : res (arr A) :=
  if prod sh =? size a
  then Ok (mkArr sh (fun idx => at_ a (unlin (shape a) (lin sh idx))))
  else Err ValueError.
(** a[..., lo:hi, ...] on axis [ax] (bounds already resolved, lo <= hi <= length) *)
Fixpoint upd (l : list nat) (n : nat) (f : nat -> nat) : list nat :=
  match l, n with
  | [], _ => []
  | x :: l', O => f x :: l'
  | x :: l', S n' => x :: upd l' n' f
  end.
Definition slice_ax {A} (ax lo hi : nat) (a : arr A) : arr A :=
  mkArr (upd (shape a) ax (fun _ => hi - lo)) (fun idx => at_ a (upd idx ax (fun i => lo + i))).
(** resolved bounds of the Python slices [:c], [c:], [:-c] and [-c:] *)
Definition s_to (c n : nat) : nat * nat := (0, Nat.min c n).
Definition s_from (c n : nat) : nat * nat := (Nat.min c n, n).
Definition s_to_neg (c n : nat) : nat * nat := (0, if c =? 0 then 0 else n - c).
Definition s_from_neg (c n : nat) : nat * nat := (if c =? 0 then 0 else n - c, n).
Definition pyslice {A} (ax : nat) (s : nat -> nat * nat) (a : arr A) : arr A :=
  let b := s (nth ax (shape a) 0) in slice_ax ax (fst b) (snd b) a.
(** np.moveaxis(a, 2, 0) and np.moveaxis(a, 0, 1) of a 3-D array *)
Definition moveaxis_2_0 {A} (a : arr A) : arr A :=
  mkArr (match shape a with [x; y; z] => [z; x; y] | s => s end)
        (fun idx => at_ a (match idx with [i; j; k] => [j; k; i] | s => s end)).
Definition moveaxis_0_1 {A} (a : arr A) : arr A :=
  mkArr (match shape a with [x; y; z] => [y; x; z] | s => s end)
        (fun idx => at_ a (match idx with [i; j; k] => [j; i; k] | s => s end)).
Definition map_arr {A} (f : A -> A) (a : arr A) : arr A := mkArr (shape a) (fun idx => f (at_ a idx)).

(** ** Facts *)
Lemma prod_cons n sh : prod (n :: sh) = n * prod sh. Proof. reflexivity. Qed.
Lemma lin_lt sh idx : valid sh idx -> lin sh idx < prod sh.
Proof.
  intros H. induction H as [|i n idx sh Hi H IH]; cbn [lin]; [cbn; lia|].
  rewrite prod_cons. nia.
Qed.
Lemma unlin_lin sh idx : valid sh idx -> unlin sh (lin sh idx) = idx.
Proof.
  intros H. induction H as [|i n idx sh Hi H IH]; [reflexivity|]. cbn [lin unlin].
  pose proof (lin_lt _ _ H) as Hl.
  rewrite Nat.div_add_l, (Nat.div_small _ _ Hl), Nat.add_0_r by lia.
  rewrite Nat.add_comm, Nat.mod_add, (Nat.mod_small _ _ Hl), IH by lia. reflexivity.
Qed.
Lemma lin_unlin sh k : k < prod sh -> lin sh (unlin sh k) = k.
Proof.
  revert k. induction sh as [|n sh IH]; intros k H; cbn [lin unlin].
  - cbn in H. lia.
  - rewrite prod_cons in H. assert (prod sh <> 0) by (intros E; rewrite E in H; lia).
    rewrite IH by (now apply Nat.mod_upper_bound).
    rewrite (Nat.div_mod_eq k (prod sh)) at 3. lia.
Qed.
Lemma unlin_valid sh k : k < prod sh -> valid sh (unlin sh k).
Proof.
  revert k. induction sh as [|n sh IH]; intros k H; cbn [unlin]; constructor.
  - rewrite prod_cons in H. apply Nat.div_lt_upper_bound; [intros E; rewrite E in H; lia|]. lia.
  - rewrite prod_cons in H. apply IH. apply Nat.mod_upper_bound. intros E. rewrite E in H. lia.
Qed.
(** Elements in C order. *)
Definition ravel {A} (a : arr A) : list A := map (fun k => at_ a (unlin (shape a) k)) (seq 0 (size a)).
Lemma reshape_ok {A} sh (a : arr A) : prod sh = size a ->
  exists b, reshape sh a = Ok b /\ shape b = sh /\
    forall idx, at_ b idx = at_ a (unlin (shape a) (lin sh idx)).
Proof. intros H. unfold reshape. apply Nat.eqb_eq in H. rewrite H. eexists. split; [reflexivity|]. split; reflexivity. Qed.
