(** Properties C17 and C18: sample types and built-in special constants. *)
From Coq Require Import QArith Qabs.
From Verif.Base Require Import Py PyFacts.
From Verif.Model Require Import Types.
From Verif.Spec Require Import Types.
Open Scope nat_scope.

Lemma num_suffix_of n : num_suffix (str_of_nat n) = Some n.
Proof.
  unfold num_suffix, str_of_nat, str_of_N.
  destruct (to_base 10 (N.of_nat n)) eqn:E; [now apply to_base_nonempty in E|]. rewrite <- E.
  rewrite parse_to_base by lia. cbn. now rewrite Nat2N.id.
Qed.
Lemma integer_name_iff st :
  (contains $"INTEGER" st || str_eqb st $"BOOLEAN") && negb (contains $"ASCII" st) = true <-> integer_name st.
Proof.
  unfold integer_name. rewrite andb_true_iff, orb_true_iff, negb_true_iff, str_eqb_eq, !contains_iff.
  rewrite <- not_true_iff_false, contains_iff. tauto.
Qed.
Lemma little_iff st : determine_byte_order st = $"<" <-> little_endian_name st.
Proof.
  unfold determine_byte_order, little_endian_name.
  destruct (existsb (fun s => startswith s st) [$"PC"; $"LSB"; $"VAX"]) eqn:E.
  - split; [intros _|reflexivity]. apply existsb_exists in E as (p & Hp & H). apply startswith_iff in H as [t ->].
    now exists p, t.
  - split; [discriminate|]. intros (p & t & Hp & ->). exfalso.
    assert (H : existsb (fun s => startswith s (p ++ t)) [$"PC"; $"LSB"; $"VAX"] = true); [|congruence].
    apply existsb_exists. exists p. split; [exact Hp|]. apply startswith_iff. now exists t.
Qed.

(** ** C17.  Type names may be written with blanks for underscores. *)
(** Integers of 1, 2, 4 or 8 bytes: width, sign and byte order are the named ones. *)
Theorem C17_integers : forall name w, integer_name (underscored name) -> In w [1; 2; 4; 8] ->
  exists s o k, sample_types name w true = Ok s /\ numpy_meaning s = Some (mkT o k w) /\
    (o = Little <-> little_endian_name (underscored name)) /\ o <> NoOrder /\
    (k = KUnsigned <-> unsigned_name (underscored name)) /\ (k = KSigned \/ k = KUnsigned).
Proof.
  intros name w Hn Hw. unfold sample_types. rewrite (proj2 (integer_name_iff _) Hn).
  set (st := underscored name).
  assert (Hu : contains $"UNSIGNED" st = true <-> unsigned_name st) by apply contains_iff.
  assert (Hl := little_iff st).
  eexists. exists (if str_eqb (determine_byte_order st) $"<" then Little else Big),
    (if contains $"UNSIGNED" st then KUnsigned else KSigned). split; [reflexivity|].
  assert (Ho : determine_byte_order st = $"<" \/ determine_byte_order st = $">")
    by (unfold determine_byte_order; destruct (existsb _ _); auto).
  split; [destruct Ho as [Ho|Ho]; rewrite Ho; destruct (contains $"UNSIGNED" st); cbn [negb];
    cbn [In] in Hw; decompose [or] Hw; subst; try contradiction; reflexivity|].
  split; [rewrite <- Hl; destruct Ho as [Ho|Ho]; rewrite Ho; cbn; split; congruence|].
  split; [destruct Ho as [Ho|Ho]; rewrite Ho; discriminate|].
  split; [rewrite <- Hu; destruct (contains $"UNSIGNED" st); split; congruence|].
  destruct (contains $"UNSIGNED" st); auto.
Qed.
Print Assumptions C17_integers.
(** Reals of 4 or 8 bytes. *)
Theorem C17_reals : forall name w, In w [4; 8] ->
  (In (underscored name) big_real_names ->
     exists s, sample_types name w true = Ok s /\ numpy_meaning s = Some (mkT Big KFloat w)) /\
  (underscored name = $"PC_REAL" ->
     exists s, sample_types name w true = Ok s /\ numpy_meaning s = Some (mkT Little KFloat w)) /\
  (underscored name = $"IBM_REAL" ->
     exists s, sample_types name w true = Ok s /\ numpy_meaning s = Some (mkT Big KUnsigned w)) /\
  (underscored name = $"VAX_REAL" -> w = 4 ->
     exists s, sample_types name w true = Ok s /\ numpy_meaning s = Some (mkT Little KUnsigned w)).
Proof.
  intros name w Hw. unfold sample_types. set (st := underscored name). clearbody st. repeat split.
  - intros Hs. cbn [In big_real_names] in Hs, Hw. decompose [or] Hs; try contradiction; subst st;
      (decompose [or] Hw; try contradiction; subst w; eexists; (split; [reflexivity|reflexivity])).
  - intros ->. cbn [In] in Hw. decompose [or] Hw; try contradiction; subst w; eexists; split; reflexivity.
  - intros ->. cbn [In] in Hw. decompose [or] Hw; try contradiction; subst w; eexists; split; reflexivity.
  - intros -> ->. eexists; split; reflexivity.
Qed.
Print Assumptions C17_reals.
(** Reals of any other width are refused. *)
Theorem C17_odd_reals : forall name w numpy, w <> 4 -> w <> 8 ->
  In (underscored name) (big_real_names ++ [$"PC_REAL"; $"VAX_REAL"; $"IBM_REAL"]) ->
  sample_types name w numpy = Err NotImplementedError_.
Proof.
  intros name w numpy H4 H8 Hs. unfold sample_types. set (st := underscored name) in *. clearbody st.
  apply Nat.eqb_neq in H4, H8. rewrite H4, H8.
  cbn [In app big_real_names] in Hs. decompose [or] Hs; try contradiction; subst st; reflexivity.
Qed.
Print Assumptions C17_odd_reals.
(** Text and opaque fields, of any width. *)
Theorem C17_text : forall name w, In (underscored name) text_names ->
  exists s, sample_types name w true = Ok s /\ numpy_meaning s = Some (mkT NoOrder KBytes w).
Proof.
  intros name w Hs. exists ($"S" ++ str_of_nat w). split.
  - unfold sample_types. set (st := underscored name) in *. clearbody st.
    cbn [In text_names] in Hs. decompose [or] Hs; try contradiction; subst st;
      destruct (w =? 8), (w =? 4); reflexivity.
  - cbn [app numpy_meaning]. cbn [numpy_meaning list_ascii_of_string app].
    pose proof (num_suffix_of w) as H. destruct (str_of_nat w) eqn:E; [discriminate|].
    cbn. cbn in H. rewrite H. reflexivity.
Qed.
Print Assumptions C17_text.
Theorem C17_opaque : forall name w, In (underscored name) opaque_names ->
  exists s, sample_types name w true = Ok s /\ numpy_meaning s = Some (mkT NoOrder KVoid w).
Proof.
  intros name w Hs. exists ($"V" ++ str_of_nat w). split.
  - unfold sample_types. set (st := underscored name) in *. clearbody st.
    cbn [In opaque_names] in Hs. decompose [or] Hs; try contradiction; subst st;
      destruct (w =? 8), (w =? 4); reflexivity.
  - pose proof (num_suffix_of w) as H. destruct (str_of_nat w) eqn:E; [discriminate|].
    cbn. cbn in H. rewrite H. reflexivity.
Qed.
Print Assumptions C17_opaque.
(** Any other name is an error. *)
Theorem C17_unknown : forall name w numpy, ~ integer_name (underscored name) ->
  ~ In (underscored name) known_names -> exists e, sample_types name w numpy = Err e.
Proof.
  intros name w numpy Hi Hk. unfold sample_types. set (st := underscored name) in *.
  destruct ((contains $"INTEGER" st || str_eqb st $"BOOLEAN") && negb (contains $"ASCII" st)) eqn:E;
    [apply integer_name_iff in E; contradiction|].
  match goal with |- exists e, rbind ?x _ = _ => destruct x as [fl|e] end; [|now exists e].
  cbn [rbind]. destruct (str_eqb st $"VAX_REAL" && negb (w =? 4)); [now eexists|].
  match goal with |- context [find ?p ?l] => destruct (find p l) as [kv|] eqn:Ef end; [|now eexists].
  exfalso. apply find_some in Ef as [Hin Heq]. apply str_eqb_eq in Heq. apply Hk. rewrite <- Heq.
  apply (in_map fst) in Hin. cbn [map fst] in Hin. revert Hin. clear.
  generalize (fst kv). intros y Hy.
  assert (Hs : forallb (fun x => str_in x known_names)
    [$"IEEE_REAL"; $"PC_REAL"; $"FLOAT"; $"REAL"; $"MAC_REAL"; $"SUN_REAL"; $"MSB_BIT_STRING"; $"LSB_BIT_STRING";
     $"ASCII_REAL"; $"ASCII_INTEGER"; $"DATE"; $"CHARACTER"; $"TIME"; $"VOID"; $"BCD"; $"BINARY_CODED_DECIMAL";
     $"VAX_REAL"; $"IBM_REAL"; $"EBCDIC"; $"EBCDIC_CHARACTER"] = true) by reflexivity.
  rewrite forallb_forall in Hs. apply str_in_iff. apply Hs. exact Hy.
Qed.
Print Assumptions C17_unknown.
Example C17_meets :
  integer_name (underscored $"LSB UNSIGNED INTEGER") /\
  sample_types $"LSB UNSIGNED INTEGER" 4 true = Ok $"<u4" /\
  sample_types $"IEEE REAL" 8 true = Ok $">d" /\ sample_types $"CHARACTER" 17 true = Ok $"S17" /\
  sample_types $"FOO" 1 true = Err KeyError.
Proof. split; [apply integer_name_iff|]; repeat split. Qed.
(** Findings: integers of any other width are silently read as single bytes;
    without for_numpy (as for qubes) 4-byte integers become 8-byte longs and
    8-byte integers single bytes. *)
Theorem C17_odd_integers_refuted : forall name w, integer_name (underscored name) ->
  ~ In w [1; 2; 4; 8] ->
  exists s m, sample_types name w true = Ok s /\ numpy_meaning s = Some m /\ t_size m = 1 /\ t_size m <> w.
Proof.
  intros name w Hn Hw. unfold sample_types. rewrite (proj2 (integer_name_iff _) Hn).
  set (st := underscored name). unfold integer_code.
  assert (H4 : (w =? 4) = false) by (apply Nat.eqb_neq; intros ->; apply Hw; cbn; auto).
  assert (H2 : (w =? 2) = false) by (apply Nat.eqb_neq; intros ->; apply Hw; cbn; auto).
  assert (H8 : (w =? 8) = false) by (apply Nat.eqb_neq; intros ->; apply Hw; cbn; auto).
  rewrite H4, H2, H8. cbn [orb andb].
  assert (H1 : 1 <> w) by (intros <-; apply Hw; cbn; auto).
  assert (Ho : determine_byte_order st = $"<" \/ determine_byte_order st = $">")
    by (unfold determine_byte_order; destruct (existsb _ _); auto).
  destruct Ho as [Ho|Ho]; rewrite Ho; destruct (contains $"UNSIGNED" st); cbn [negb];
    eexists; eexists; (split; [reflexivity|]); (split; [reflexivity|]); cbn; auto.
Qed.
Print Assumptions C17_odd_integers_refuted.
Theorem C17_qube_integers_refuted : forall name, integer_name (underscored name) ->
  (exists s m, sample_types name 4 false = Ok s /\ numpy_meaning s = Some m /\ t_size m = 8) /\
  (exists s m, sample_types name 8 false = Ok s /\ numpy_meaning s = Some m /\ t_size m = 1).
Proof.
  intros name Hn. unfold sample_types. rewrite (proj2 (integer_name_iff _) Hn).
  set (st := underscored name).
  assert (Ho : determine_byte_order st = $"<" \/ determine_byte_order st = $">")
    by (unfold determine_byte_order; destruct (existsb _ _); auto).
  destruct Ho as [Ho|Ho]; rewrite Ho; destruct (contains $"UNSIGNED" st); cbn [negb];
    (split; eexists; eexists; (split; [reflexivity|]); (split; [reflexivity|]); reflexivity).
Qed.
Print Assumptions C17_qube_integers_refuted.

(** ** C18 *)
Definition is_integer (c : Q) : Prop := exists z, (c == inject_Z z)%Q.
(** Every constant listed for an integer type is an integer in its range, and
    every one listed for a float type is finite in it. *)
Theorem C18_representable : forall dtype cs name c,
  implicit_constants dtype = Some cs -> In (name, c) cs ->
  match int_range dtype with
  | Some (lo, hi) => exists z, c = inject_Z z /\ (lo <= z <= hi)%Z
  | None => (dtype = $"float32" /\ - f32_max <= c <= f32_max)%Q \/ (dtype = $"float64" /\ - f64_max <= c <= f64_max)%Q
  end.
Proof.
  intros dtype cs name c Hd Hin. unfold implicit_constants in Hd.
  destruct (find (fun kv => str_eqb (fst kv) dtype) IMPLICIT_PDS3_CONSTANTS) as [[d l]|] eqn:E; [|discriminate].
  injection Hd as <-. apply find_some in E as [E Ed]. apply str_eqb_eq in Ed. cbn [fst snd] in *. subst d.
  assert (Hz : forall z lo hi, (lo <=? z)%Z && (z <=? hi)%Z = true -> exists z', inject_Z z = inject_Z z' /\ (lo <= z' <= hi)%Z).
  { intros z lo hi H. apply andb_true_iff in H as [H1 H2]. apply Z.leb_le in H1, H2. exists z. auto. }
  assert (Hf : forall m, Qle_bool (- m) c && Qle_bool c m = true -> (- m <= c <= m)%Q).
  { intros m H. apply andb_true_iff in H as [H1 H2]. apply Qle_bool_iff in H1, H2. auto. }
  cbn [In IMPLICIT_PDS3_CONSTANTS] in E.
  decompose [or] E; try contradiction;
    match goal with H : (_, _) = (_, _) |- _ => injection H as <- <- end; cbn [In] in Hin;
    decompose [or] Hin; try contradiction;
    match goal with H : (_, _) = (_, _) |- _ => injection H as _ <- end;
    first [ apply Hz; vm_compute; reflexivity
          | left; split; [reflexivity|apply Hf; vm_compute; reflexivity]
          | right; split; [reflexivity|apply Hf; vm_compute; reflexivity] ].
Qed.
Print Assumptions C18_representable.
(** The ISIS single-precision constants are the documented bit patterns. *)
Theorem C18_isis_bits : exists cs, implicit_constants $"float32" = Some cs /\
  (forall name hex, In (name, hex) [($"ISIS_LOW_REPR_SAT", $"FF7FFFFC"); ($"ISIS_LOW_INST_SAT", $"FF7FFFFD");
      ($"ISIS_HIGH_INST_SAT", $"FF7FFFFE"); ($"ISIS_HIGH_REPR_SAT", $"FF7FFFFF")] ->
    exists bits, hex_value hex = Some bits /\ In (name, f32_value bits) cs).
Proof.
  eexists. split; [reflexivity|]. intros name hex Hin. cbn [In] in Hin.
  decompose [or] Hin; try contradiction; match goal with H : (_, _) = (_, _) |- _ => injection H as <- <- end;
    (eexists; split; [reflexivity|]; cbn [In]; repeat (first [left; reflexivity | right])).
Qed.
Print Assumptions C18_isis_bits.
(** NULL, given in decimal, is FF7FFFFB to within double precision. *)
Theorem C18_isis_null : exists cs c bits, implicit_constants $"float32" = Some cs /\ In ($"NULL", c) cs /\
  hex_value $"FF7FFFFB" = Some bits /\
  (Qabs (f32_value bits - c) <= Qabs (f32_value bits) * (1 # 2 ^ 53))%Q.
Proof.
  do 3 eexists. split; [reflexivity|]. split; [left; reflexivity|]. split; [reflexivity|].
  apply Qle_bool_iff. vm_compute. reflexivity.
Qed.
Print Assumptions C18_isis_null.
(** Finding: the "not applicable" constant of 32-bit integers is not -2147483648. *)
Theorem C18_int32_na_refuted : exists cs c, implicit_constants $"int32" = Some cs /\ In ($"N/A", c) cs /\
  ~ (c == inject_Z (-2147483648))%Q.
Proof. do 2 eexists. split; [reflexivity|]. split; [left; reflexivity|]. discriminate. Qed.
Print Assumptions C18_int32_na_refuted.
Example C18_meets : exists cs, implicit_constants $"int16" = Some cs /\ List.length cs = 6.
Proof. eexists. split; reflexivity. Qed.
