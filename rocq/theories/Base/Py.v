(** Base layer: the fragment of Python's run time that the pdr model is
    written in.  Nothing in this file models pdr itself; it fixes the meaning
    of the Python built-ins (str methods, list slicing, integer formatting and
    parsing, exceptions as values) used by the model files.

    Simplifications, valid for the whole development:
    - a Python [str]/[bytes] is a [list ascii] (8-bit characters).  pdr's
      labels are decoded text; characters above U+00FF are not represented;
    - Python's [str.strip()], [isdigit] etc. are the ASCII restrictions;
    - a raised exception is the value [Err e]. *)
From Coq Require Export Ascii String.
From Coq Require Export Arith ZArith NArith Lia Bool List.
From Coq Require Import ZifyBool ZifyNat ZifyN.
Export ListNotations.
Open Scope list_scope.

(** Python exceptions, as values. *)
Inductive exn :=
| ValueError | TypeError | KeyError | IndexError | SyntaxError | AttributeError
| FileNotFoundError | NotImplementedError_ | AlreadyLoadedError
| DuplicateKeyError | OSError | ZeroDivisionError | EOFError_ | StructError
| OverflowError | StandardsError | VerifyError | OutOfFuel.

Inductive res (A : Type) := Ok (a : A) | Err (e : exn).
Arguments Ok {A} a.
Arguments Err {A} e.

Definition rbind {A B} (x : res A) (f : A -> res B) : res B :=
  match x with Ok a => f a | Err e => Err e end.
Notation "'do' x <- e1 ; e2" := (rbind e1 (fun x => e2))
  (at level 200, x name, e1 at level 100, e2 at level 200).

Fixpoint rmap {A B} (f : A -> res B) (l : list A) : res (list B) :=
  match l with
  | [] => Ok []
  | a :: l => do b <- f a; do bs <- rmap f l; Ok (b :: bs)
  end.

(** ** Strings *)
Definition str := list ascii.
Notation "$ s" := (list_ascii_of_string s) (at level 1, format "$ s").

Definition ch_eqb : ascii -> ascii -> bool := Ascii.eqb.

Fixpoint str_eqb (a b : str) : bool :=
  match a, b with
  | [], [] => true
  | x :: a, y :: b => Ascii.eqb x y && str_eqb a b
  | _, _ => false
  end.

Lemma str_eqb_eq a b : str_eqb a b = true <-> a = b.
Proof.
  revert b; induction a as [|x a IH]; intros [|y b]; simpl; split; intros H;
    try discriminate; try reflexivity.
  - apply andb_true_iff in H as [H1 H2].
    apply Ascii.eqb_eq in H1; apply IH in H2; congruence.
  - injection H as -> ->. rewrite Ascii.eqb_refl; simpl; now apply IH.
Qed.
Lemma str_eqb_refl a : str_eqb a a = true.
Proof. now apply str_eqb_eq. Qed.
Lemma str_eqb_neq a b : str_eqb a b = false <-> a <> b.
Proof.
  destruct (str_eqb a b) eqn:E; split; intros H; try easy.
  - apply str_eqb_eq in E; contradiction.
  - intros ->. rewrite str_eqb_refl in E; discriminate.
Qed.
Lemma str_eqb_spec a b : reflect (a = b) (str_eqb a b).
Proof.
  destruct (str_eqb a b) eqn:E; constructor.
  - now apply str_eqb_eq. - now apply str_eqb_neq.
Qed.
Definition str_eq_dec (a b : str) : {a = b} + {a <> b} :=
  list_eq_dec ascii_dec a b.

(** [s in collection_of_strings] *)
Definition str_in (s : str) (l : list str) : bool := existsb (str_eqb s) l.
Lemma str_in_iff s l : str_in s l = true <-> In s l.
Proof.
  unfold str_in. rewrite existsb_exists. split.
  - intros (x & Hx & E). apply str_eqb_eq in E; congruence.
  - intros H; exists s; split; [exact H | apply str_eqb_refl].
Qed.
Lemma str_in_false s l : str_in s l = false <-> ~ In s l.
Proof.
  rewrite <- str_in_iff. destruct (str_in s l); split; intros H; congruence.
Qed.

(** [s.startswith(p)] *)
Fixpoint startswith (p s : str) : bool :=
  match p, s with
  | [], _ => true
  | x :: p, y :: s => Ascii.eqb x y && startswith p s
  | _, _ => false
  end.
Lemma startswith_iff p s : startswith p s = true <-> exists t, s = p ++ t.
Proof.
  revert s; induction p as [|x p IH]; intros s; simpl.
  - split; [intros _; now exists s | reflexivity].
  - destruct s as [|y s].
    + split; [discriminate | intros [t Ht]; discriminate].
    + rewrite andb_true_iff, IH, Ascii.eqb_eq. split.
      * intros [-> [t ->]]. now exists t.
      * intros [t Ht]. injection Ht as -> ->. split; [reflexivity|now exists t].
Qed.

(** [s.endswith(p)] *)
Definition endswith (p s : str) : bool := startswith (rev p) (rev s).
Lemma endswith_iff p s : endswith p s = true <-> exists t, s = t ++ p.
Proof.
  unfold endswith. rewrite startswith_iff. split; intros [t Ht].
  - exists (rev t). rewrite <- (rev_involutive s), Ht, rev_app_distr.
    now rewrite rev_involutive.
  - exists (rev t). now rewrite Ht, rev_app_distr.
Qed.

(** [p in s] (substring test) *)
Fixpoint contains (p s : str) : bool :=
  startswith p s || match s with [] => false | _ :: s' => contains p s' end.
Lemma contains_iff p s : contains p s = true <-> exists a b, s = a ++ p ++ b.
Proof.
  induction s as [|y s IH]; cbn [contains]; rewrite orb_true_iff, startswith_iff.
  - split.
    + intros [[t Ht]|H]; [|discriminate]. exists [], t; exact Ht.
    + intros (a & b & H). left. exists b. destruct a; [exact H|discriminate].
  - rewrite IH. split.
    + intros [[t Ht] | (a & b & H)].
      * exists [], t; exact Ht.
      * exists (y :: a), b. now rewrite H.
    + intros ([|c a] & b & H).
      * left; exists b; exact H.
      * right; exists a, b. now injection H.
Qed.

(** [c in s] for a single character *)
Definition has_char (c : ascii) (s : str) : bool := existsb (Ascii.eqb c) s.
Lemma has_char_iff c s : has_char c s = true <-> In c s.
Proof.
  unfold has_char. rewrite existsb_exists. split.
  - intros (x & Hx & E). apply Ascii.eqb_eq in E; congruence.
  - intros H; exists c; split; [exact H|apply Ascii.eqb_refl].
Qed.
Lemma has_char_false c s : has_char c s = false <-> ~ In c s.
Proof.
  rewrite <- has_char_iff. destruct (has_char c s); split; intros H; congruence.
Qed.
Lemma has_char_app c a b : has_char c (a ++ b) = has_char c a || has_char c b.
Proof. unfold has_char. apply existsb_app. Qed.

(** Characters *)
Definition NL : ascii := "010"%char.
Definition CR : ascii := "013"%char.
Definition is_space (c : ascii) : bool :=
  let n := N_of_ascii c in
  ((9 <=? n) && (n <=? 13) || (28 <=? n) && (n <=? 32))%N.
Definition is_upper (c : ascii) : bool :=
  let n := N_of_ascii c in ((65 <=? n) && (n <=? 90))%N.
Definition is_lower (c : ascii) : bool :=
  let n := N_of_ascii c in ((97 <=? n) && (n <=? 122))%N.
Definition is_digit (c : ascii) : bool :=
  let n := N_of_ascii c in ((48 <=? n) && (n <=? 57))%N.
Definition to_upper (c : ascii) : ascii :=
  if is_lower c then ascii_of_N (N_of_ascii c - 32) else c.
Definition to_lower (c : ascii) : ascii :=
  if is_upper c then ascii_of_N (N_of_ascii c + 32) else c.
Definition upper (s : str) : str := map to_upper s.
Definition lower (s : str) : str := map to_lower s.

(** [s.strip(chars)], the predicate says which characters are removed. *)
Fixpoint lstrip_by (f : ascii -> bool) (s : str) : str :=
  match s with
  | [] => []
  | c :: s' => if f c then lstrip_by f s' else s
  end.
Definition rstrip_by (f : ascii -> bool) (s : str) : str :=
  rev (lstrip_by f (rev s)).
Definition strip_by (f : ascii -> bool) (s : str) : str :=
  rstrip_by f (lstrip_by f s).
Definition strip (s : str) : str := strip_by is_space s.
Definition strip_chars (cs : str) (s : str) : str :=
  strip_by (fun c => has_char c cs) s.

(** [s.split(c)] for a one-character separator: never empty. *)
Fixpoint split_on (c : ascii) (s : str) : list str :=
  match s with
  | [] => [[]]
  | x :: s' =>
      if Ascii.eqb x c then [] :: split_on c s'
      else match split_on c s' with
           | [] => [[x]]   (* unreachable *)
           | w :: ws => (x :: w) :: ws
           end
  end.

(** [sep.join(l)] *)
Fixpoint join (sep : str) (l : list str) : str :=
  match l with
  | [] => []
  | [w] => w
  | w :: l' => w ++ sep ++ join sep l'
  end.

(** ** Integers as text *)
Definition digit_char (d : N) : ascii :=
  if (d <? 10)%N then ascii_of_N (48 + d) else ascii_of_N (55 + d).
Definition digit_val (c : ascii) : option N :=
  let n := N_of_ascii c in
  if is_digit c then Some (n - 48)%N
  else if is_upper c then Some (n - 55)%N
  else if is_lower c then Some (n - 87)%N
  else None.

(** [str(n)] for a natural number, with fuel = bit size. *)
Fixpoint to_base_fuel (fuel : nat) (b n : N) : str :=
  match fuel with
  | O => [digit_char (n mod b)]
  | S f => if (n <? b)%N then [digit_char n]
           else to_base_fuel f b (n / b) ++ [digit_char (n mod b)]
  end.
Definition to_base (b n : N) : str := to_base_fuel (N.to_nat (N.size n)) b n.
Definition str_of_N (n : N) : str := to_base 10 n.
Definition str_of_nat (n : nat) : str := str_of_N (N.of_nat n).

(** The digits accepted by [int(text, base)], most significant first. *)
Fixpoint parse_digits (b : N) (acc : N) (s : str) : option N :=
  match s with
  | [] => Some acc
  | c :: s' => match digit_val c with
               | Some d => if (d <? b)%N then parse_digits b (acc * b + d) s'
                           else None
               | None => None
               end
  end.

(** ** Lists and Python slices *)
(** Python's clamping of slice bounds for a sequence of length [len]. *)
Definition norm_index (len i : Z) : Z :=
  if (i <? 0)%Z then Z.max 0 (i + len) else Z.min i len.
Definition zslice {A} (lo hi : Z) (l : list A) : list A :=
  let len := Z.of_nat (List.length l) in
  let a := norm_index len lo in
  let b := norm_index len hi in
  firstn (Z.to_nat (b - a)) (skipn (Z.to_nat a) l).
(** [l[:n]] and [l[n:]] for natural numbers *)
Notation prefix_ n l := (firstn n l) (only parsing).

(** [l[i]] with Python's negative indices *)
Definition zindex {A} (l : list A) (i : Z) : res A :=
  let len := Z.of_nat (List.length l) in
  let j := if (i <? 0)%Z then (i + len)%Z else i in
  if (j <? 0)%Z then Err IndexError
  else match nth_error l (Z.to_nat j) with
       | Some a => Ok a
       | None => Err IndexError
       end.
