(** C88: blocks of labels that special cases correct in place, in any history of reading. *)
From Coq Require Import QArith ZArith Lia.
From Verif.Base Require Import Py PyFacts Val.
From Verif.Model Require Import PvlLiteral Blocks.
From Verif.Model Require Checkers.
From Verif.Proofs Require Import Blocks.
From Verif.Spec Require Import Blocks.
Open Scope Z_scope.

(** the functions whose corrections depend on what earlier ones have done *)
Definition repeats (mf : str * str) : bool :=
  existsb (fun x => str_eqb (fst mf) (fst x) && str_eqb (snd mf) (snd x))
    [($"phoenix", $"wcl_edr_special_block"); ($"ground", $"wff_atm_special_block"); ($"voyager", $"pra_special_block")].
(** *** If the block of an object could be read, then however often it is read again (by reload,
    or after a failed load) the answer is the same; in the metadata is just what the first reading left there *)
Theorem C88_same_block m f h c b b' x :
  In (m, f, h) handlers -> repeats (m, f) = false -> query h c b = (b', Ok x) ->
  forall n, after h c n b' = b' /\ query h c (after h c n b') = (b', Ok x).
Proof.
  intros I N Q.
  assert (D : plain h c \/ h = sp_2b_supp_special_block).
  { unfold handlers in I. repeat (destruct I as [I|I]; [injection I as <- <- <-; try discriminate N; try (now right); left|]); [..|destruct I].
    - apply plain_mag. - apply plain_avg. - apply plain_fine. - apply plain_ionbr. - apply plain_orpa. - apply plain_oims. - apply plain_epd. - apply plain_pws.
    - apply plain_mini. - apply plain_msl. - apply plain_mariner. - apply plain_ihw. - apply plain_pfs. - apply plain_da. - apply plain_iss. - apply plain_ulysses. }
  destruct D as [P| ->].
  - destruct (query_again h c b b' x P Q) as [-> Q']. intros n. rewrite (after_same h c b' Q' n). now split.
  - assert (B : forall y, fst (query sp_2b_supp_special_block c y) = y).
    { intros y. unfold query, sp_2b_supp_special_block. destruct (bind _ _ (firstn (length y - 4) y)) as [copy [u|e]]; reflexivity. }
    assert (b' = b) as ->. { pose proof (B b) as Bb. rewrite Q in Bb. exact Bb. }
    assert (A : forall n, after sp_2b_supp_special_block c n b = b). { intros n. induction n as [|n IH]; [reflexivity|]. cbn [after]. rewrite B. exact IH. }
    intros n. rewrite A. now split.
Qed.
(** *** What is in the block then *)
Definition sets : list (handler * list (str * (context -> pv))) :=
  [(mag_special_block, [($"ROW_BYTES", fun _ => PInt 145)]);
   (orpa_low_res_loader, [($"ROW_BYTES", fun _ => PInt 243)]);
   (oims_12s_loader, [($"ROWS", fun c => metaget c $"FILE_RECORDS")]);
   (epd_special_block, [($"ROW_BYTES", fun c => metaget c $"RECORD_BYTES")]);
   (pls_ionbr_special_block, [($"^STRUCTURE", fun _ => PStr $"SUMRY.FMT")]);
   (mini_rf_image_loader, [($"LINES", fun _ => PInt 5760); ($"LINE_SAMPLES", fun _ => PInt 11520)]);
   (msl_edr_special_block, [($"INTERCHANGE_FORMAT", fun _ => PStr $"BINARY"); ($"SAMPLE_TYPE", fun _ => PStr $"UNSIGNED_INTEGER");
      ($"BAND_STORAGE_TYPE", fun _ => PStr $"BAND_SEQUENTIAL"); ($"CHECKSUM", fun _ => PStr $"N/A"); ($"INVALID_CONSTANT", fun _ => PFloat 0);
      ($"MISSING_CONSTANT", fun _ => PFloat 0); ($"SAMPLE_BIT_MASK", fun _ => PStr $"2#11111111#")])].
Lemma corrected_set b k v : corrected b (multi_set b k v) [(k, v)].
Proof.
  split.
  - intros k' v' [E|[]]. injection E as <- <-. apply values_set.
  - intros k' N. apply values_set_other. intros ->. apply N. now left.
Qed.
Lemma corrected_more b b' l k v : ~ In k (map fst l) -> corrected b b' l -> corrected b (multi_set b' k v) (l ++ [(k, v)]).
Proof.
  intros F [V O]. split.
  - intros k' v' I. apply in_app_iff in I as [I|[E|[]]].
    + rewrite values_set_other; [now apply V|]. intros ->. apply F. now apply (in_map fst) in I.
    + injection E as <- <-. apply values_set.
  - intros k' N. rewrite map_app, in_app_iff in N. rewrite values_set_other; [apply O; tauto|]. intros ->. apply N. right. now left.
Qed.
Ltac not_in := let H := fresh in intros H; cbn [map fst] in H; repeat (destruct H as [H|H]; [revert H; apply neq_by; reflexivity|]); exact H.
Theorem C88_corrections h l c b : In (h, l) sets ->
  exists b', query h c b = (b', Ok b') /\ corrected b b' (map (fun kv => (fst kv, snd kv c)) l).
Proof.
  intros I. repeat (destruct I as [I|I]; [injection I as <- <-|]); [..|destruct I]; (eexists; split; [reflexivity|]); cbn [map fst snd]; try apply corrected_set.
  - apply (corrected_more b _ [_]); [not_in|]. apply corrected_set.
  - repeat match goal with
    | |- corrected _ (multi_set _ _ _) [_] => apply corrected_set
    | |- corrected ?b (multi_set ?b' ?k ?v) ?l => let l' := eval cbv [removelast] in (removelast l) in apply (corrected_more b b' l'); [not_in|]
    end.
Qed.
(** corrections under conditions *)
Theorem C88_pls_avg c b s : values b $"^STRUCTURE" = [PStr s] ->
  exists b', query pls_avg_special_block c b = (b', Ok b') /\
  if str_eqb s $"VGR_PLS_HR_2017.FMT" then corrected b b' [($"ROW_BYTES", PInt 57)] else b' = b.
Proof.
  intros V. unfold query, pls_avg_special_block. rewrite (bind_eq _ _ _ _ _ (get_values _ _ _ V)). cbn [eq_text]. destruct (str_eqb s _); (eexists; split; [reflexivity|]); [apply corrected_set|reflexivity].
Qed.
Theorem C88_pls_fine c b z : values b $"ROW_BYTES" = [PInt z] ->
  exists b', query pls_fine_special_block c b = (b', Ok b') /\ if z =? 57 then corrected b b' [($"ROW_BYTES", PInt 64)] else b' = b.
Proof.
  intros V. unfold query, pls_fine_special_block. rewrite (bind_eq _ _ _ _ _ (get_values _ _ _ V)). cbn [eq_int]. destruct (z =? 57); (eexists; split; [reflexivity|]); [apply corrected_set|reflexivity].
Qed.
Theorem C88_pws c b s : metaget c $"PRODUCT_ID" = PStr s ->
  exists b', query pws_special_block c b = (b', Ok b') /\
  if contains $"E.TAB" s then corrected b b' [($"ROW_BYTES", PInt 516)]
  else if contains $"B.TAB" s then corrected b b' [($"ROW_BYTES", PInt 366)] else b' = b.
Proof.
  intros M. unfold query, pws_special_block. rewrite M. cbn [text_in]. unfold special, bind, ret, when. destruct (contains $"B.TAB" s), (contains $"E.TAB" s);
  (eexists; split; [reflexivity|]); cbn [set fst]; rewrite ?set_set; try apply corrected_set; reflexivity.
Qed.
Theorem C88_no_prefix c b :
  exists b', query iss_calib_da_special_block c b = (b', Ok b') /\ values b' $"LINE_PREFIX_BYTES" = [] /\
  forall k, k <> $"LINE_PREFIX_BYTES" -> values b' k = values b k.
Proof.
  unfold query, iss_calib_da_special_block, bind, has. destruct (md_has b $"LINE_PREFIX_BYTES") eqn:E.
  - unfold special, bind, del. rewrite E. eexists. split; [reflexivity|]. split; [apply values_del|]. intros k N. now apply values_del_other.
  - eexists. split; [reflexivity|]. split; [|reflexivity]. rewrite md_has_values in E. destruct (values b _); [reflexivity|discriminate].
Qed.
(** format files named with a path are named without, and [x] is what comes after the last slash *)
Lemma last_split x y : ~ In "/"%char y -> last (split_on "/"%char (x ++ "/"%char :: y)) [] = y.
Proof.
  intros N. assert (Y : split_on "/"%char y = [y]).
  { clear x. induction y as [|a y IH]; [reflexivity|]. cbn [split_on]. destruct (Ascii.eqb a "/") eqn:E.
    - apply Ascii.eqb_eq in E as ->. exfalso. apply N. now left.
    - rewrite IH; [reflexivity|]. intros I. apply N. now right. }
  assert (G : exists w l, split_on "/"%char (x ++ "/"%char :: y) = w :: l ++ [y]).
  { induction x as [|a x (w & l & IH)]; cbn [app split_on].
    - rewrite Ascii.eqb_refl, Y. now exists [], [].
    - destruct (Ascii.eqb a "/"); [exists [], (w :: l); now rewrite IH|rewrite IH; now exists (a :: w), l]. }
  destruct G as (w & l & ->). change (w :: l ++ [y]) with ((w :: l) ++ [y]). apply last_last.
Qed.
Theorem C88_format_file c b (k x y : str) :
  name c = $"LINE_PREFIX_TABLE" /\ k = $"^LINE_PREFIX_STRUCTURE" \/ name c = $"TELEMETRY_TABLE" /\ k = $"^STRUCTURE" ->
  values b k = [PStr (x ++ $"/" ++ y)] -> ~ In "/"%char y ->
  exists b', query iss_edr_special_block c b = (b', Ok b') /\ corrected b b' [(k, PStr y)].
Proof.
  intros K V Y. assert (CT : contains $"/" (x ++ $"/" ++ y) = true) by (apply contains_iff; now exists x, y).
  unfold query, iss_edr_special_block. assert (L : last_part (PStr (x ++ $"/" ++ y)) = PStr y) by (cbn [last_part]; f_equal; now apply (last_split x y)).
  destruct K as [[-> ->]|[-> ->]].
  - assert (P : (v <~ get $"^LINE_PREFIX_STRUCTURE";; text_in $"/" v) b = (b, Ok true)) by (rewrite (bind_eq _ _ _ _ _ (get_values _ _ _ V)); cbn [text_in]; unfold ret; now rewrite CT).
    rewrite str_eqb_refl. rewrite (bind_eq _ _ _ _ _ P). unfold special. unfold bind at 1 2. rewrite (get_values _ _ _ V), L. eexists. split; [reflexivity|]. apply corrected_set.
  - assert (P : (v <~ get $"^STRUCTURE";; text_in $"/" v) b = (b, Ok true)) by (rewrite (bind_eq _ _ _ _ _ (get_values _ _ _ V)); cbn [text_in]; unfold ret; now rewrite CT).
    change (str_eqb $"TELEMETRY_TABLE" $"LINE_PREFIX_TABLE") with false. cbv iota. rewrite (bind_eq (ret false) _ b b false eq_refl). cbv iota. rewrite str_eqb_refl. rewrite (bind_eq _ _ _ _ _ P). unfold special. unfold bind at 1 2. rewrite (get_values _ _ _ V), L. eexists. split; [reflexivity|]. apply corrected_set.
Qed.
Theorem C88_mariner c b col rest : values b $"COLUMN" = PMulti col :: rest ->
  exists b', query mariner_special_block c b = (b', Ok b') /\ first_within $"COLUMN" (fun x x' => corrected x x' [($"START_BYTE", PInt 1)]) b b'.
Proof.
  intros V. destruct (within_first $"COLUMN" (set $"START_BYTE" (PInt 1)) (fun x x' => corrected x x' [($"START_BYTE", PInt 1)]) b col rest _ V eq_refl (corrected_set _ _ _)) as (b' & E & F).
  exists b'. split; [|exact F]. exact (query_special _ c _ _ E).
Qed.
Lemma are_set P b k v : str_eqb k $"COLUMN" = false -> v <> PStr $"COLUMN" -> columns_are P b -> columns_are P (multi_set b k v).
Proof.
  intros K V T. induction T as [|[k0 v0] b H T IH]; cbn [multi_set].
  - constructor; [|constructor]. cbn [fst snd]. now rewrite K.
  - cbn [fst] in *. destruct (str_eqb k0 k) eqn:E.
    + constructor; [cbn [fst snd]; now rewrite K|]. clear - T. induction T as [|x l H T IH]; [constructor|]. cbn [filter]. destruct (negb _); [constructor; assumption|exact IH].
    + constructor; [exact H|exact IH].
Qed.
Theorem C88_pfs c b records : columns_are called b -> metaget c $"FILE_RECORDS" = PInt records ->
  (metaget c $"ORBIT_NUMBER" = PStr $"N/A" \/ exists z, metaget c $"ORBIT_NUMBER" = PInt z /\ z < 8945) ->
  exists b1 b', query pfs_edr_special_block c b = (b', Ok b') /\ corrected b b1 [($"ROWS", PInt records)] /\ columns_related retyped b1 b'.
Proof.
  intros T R O. exists (multi_set b $"ROWS" (PInt records)).
  match eval unfold pfs_edr_special_block in (pfs_edr_special_block c) with context [each_column ?f] => set (col := f) end.
  destruct (each_are col called retyped (multi_set b $"ROWS" (PInt records))) as (b' & E & RL).
  - intros x (t & N). unfold col. rewrite (bind_eq _ _ _ _ _ (get_values _ _ _ N)). cbn [eq_text]. unfold retyped.
    destruct (str_eqb t $"OBT OBSERVATION TIME") eqn:E1; cbn [when].
    + assert (N' : values (multi_set x $"DATA_TYPE" (PStr $"PC_REAL")) $"NAME" = [PStr t]) by (rewrite values_set_other; [exact N|now apply neq_by]).
      rewrite (bind_eq (set _ _) _ x _ tt eq_refl). rewrite (bind_eq _ _ _ _ _ (get_values _ _ _ N')). cbn [eq_text]. pose proof E1 as E1'. apply str_eqb_eq in E1' as ->.
      change (str_eqb $"OBT OBSERVATION TIME" $"SCET OBSERVATION TIME") with false. cbn [when]. eexists. split; [reflexivity|]. intros t' N''. rewrite N in N''. assert (TT : t' = $"OBT OBSERVATION TIME") by congruence. rewrite TT, str_eqb_refl. apply corrected_set.
    + rewrite (bind_eq (ret tt) _ x _ tt eq_refl). rewrite (bind_eq _ _ _ _ _ (get_values _ _ _ N)). cbn [eq_text]. destruct (str_eqb t $"SCET OBSERVATION TIME") eqn:E2; cbn [when];
      (eexists; split; [reflexivity|]); intros t' N''; rewrite N in N''; injection N'' as <-; rewrite E1, E2; [apply corrected_set|reflexivity].
  - apply are_set; [reflexivity|discriminate|exact T].
  - exists b'. split; [|split; [apply corrected_set|exact RL]]. unfold query.
    assert (EE : pfs_edr_special_block c b = special (set $"ROWS" (metaget c $"FILE_RECORDS");;; each_column col) b).
    { unfold pfs_edr_special_block. destruct O as [-> |(z & -> & Hz)]; [reflexivity|]. cbn [eq_text int_of]. unfold bind at 1 2, ret at 1 2. apply Z.ltb_lt in Hz. rewrite Hz. reflexivity. }
    rewrite EE. rewrite R. assert (E2 : (set $"ROWS" (PInt records);;; each_column col) b = (b', Ok tt)) by (rewrite (bind_eq (set _ _) _ b _ tt eq_refl); exact E).
    exact (query_special _ c _ _ E2).
Qed.
Theorem C88_later_orbits c b z : metaget c $"ORBIT_NUMBER" = PInt z -> 8945 <= z -> query pfs_edr_special_block c b = (b, Ok b).
Proof. intros M Hz. unfold query, pfs_edr_special_block. rewrite M. cbn [eq_text int_of]. unfold bind, ret. apply Z.ltb_ge in Hz. rewrite Hz. reflexivity. Qed.
Theorem C88_meteors c b : columns_are starting b ->
  exists b', query ihw_special_block c b = (b', Ok b') /\ columns_related named_by_start b b'.
Proof.
  intros T. match eval unfold ihw_special_block in (ihw_special_block c) with context [each_column ?f] => set (col := f) end.
  destruct (each_are col starting named_by_start b) as (b' & E & RL); [|exact T|exists b'; split; [exact (query_special _ c _ _ E)|exact RL]].
  intros x (z & N). unfold col. rewrite (bind_eq _ _ _ _ _ (get_values _ _ _ N)). cbn [eq_int].
  assert (NB : forall y, (if (z =? 17) && negb (md_has x $"NAME") then y = x ++ [($"NAME", PStr $">=1SEC")]
    else if (z =? 21) && negb (md_has x $"NAME") then y = x ++ [($"NAME", PStr $">=8SEC")] else y = x) -> named_by_start x y).
  { intros y Hy z' N'. rewrite N in N'. injection N' as <-. exact Hy. }
  assert (F : forall (w : bool) (q : bool -> upd unit), bind (if w then has $"NAME" else ret true) q x = q (if w then md_has x $"NAME" else true) x) by (intros [|] q; reflexivity).
  rewrite F. destruct (z =? 17) eqn:E17.
  - apply Z.eqb_eq in E17 as ->. destruct (md_has x $"NAME") eqn:Hn; cbn [negb when].
    + rewrite (bind_eq (ret tt) _ x x tt eq_refl). rewrite (bind_eq _ _ _ _ _ (get_values _ _ _ N)). cbn [eq_int Z.eqb Pos.eqb]. exists x. split; [reflexivity|]. apply NB. cbn [negb andb Z.eqb Pos.eqb]. reflexivity.
    + rewrite (bind_eq (add _ _) _ x _ tt eq_refl). assert (N' : values (md_add x $"NAME" (PStr $">=1SEC")) $"START_BYTE" = [PInt 17]) by (rewrite values_add, N; reflexivity).
      rewrite (bind_eq _ _ _ _ _ (get_values _ _ _ N')). cbn [eq_int Z.eqb Pos.eqb]. eexists. split; [reflexivity|]. apply NB. reflexivity.
  - cbn [negb when]. rewrite (bind_eq (ret tt) _ x x tt eq_refl). rewrite (bind_eq _ _ _ _ _ (get_values _ _ _ N)). cbn [eq_int]. rewrite F. destruct (z =? 21); [|exists x; split; [reflexivity|]; apply NB; reflexivity].
    destruct (md_has x $"NAME") eqn:Hn; cbn [negb when]; (eexists; split; [reflexivity|]); apply NB; reflexivity.
Qed.
(** Ulysses EPAC: first COLUMN of the first CONTAINER *)
Theorem C88_epac c b d rest e rest' : contains $"ULY-J-EPAC-4-SUMM-PSTL" (data_set c) = true ->
  values b $"CONTAINER" = PMulti d :: rest -> values d $"COLUMN" = PMulti e :: rest' ->
  exists b1 b', query ulysses_special_block c b = (b', Ok b') /\
  first_within $"CONTAINER" (first_within $"COLUMN" (fun x x' => corrected x x' [($"ITEM_BYTES", PInt 13)])) b b1 /\
  first_within $"CONTAINER" (first_within $"COLUMN" (fun x x' => corrected x x' [($"START_BYTE", PInt 1)])) b1 b'.
Proof.
  intros D V W.
  assert (G : forall k v b d rest e rest', values b $"CONTAINER" = PMulti d :: rest -> values d $"COLUMN" = PMulti e :: rest' ->
    exists b', within $"CONTAINER" (within $"COLUMN" (set k v)) b = (b', Ok tt) /\ first_within $"CONTAINER" (first_within $"COLUMN" (fun x x' => corrected x x' [(k, v)])) b b').
  { clear. intros k v b d rest e rest' V W.
    destruct (within_first $"COLUMN" (set k v) (fun x x' => corrected x x' [(k, v)]) d e rest' _ W eq_refl (corrected_set _ _ _)) as (d' & Ed & Fd).
    destruct (within_first $"CONTAINER" _ (first_within $"COLUMN" (fun x x' => corrected x x' [(k, v)])) b d rest d' V Ed Fd) as (b' & E & F). eauto. }
  destruct (G $"ITEM_BYTES" (PInt 13) b d rest e rest' V W) as (b1 & E1 & F1).
  pose proof F1 as (d0 & d1 & r0 & _ & V1 & (e0 & e1 & r1 & _ & W1 & _) & _).
  destruct (G $"START_BYTE" (PInt 1) b1 d1 r0 e1 r1 V1 W1) as (b' & E2 & F2).
  exists b1, b'. split; [|now split]. unfold query, ulysses_special_block. rewrite D. unfold special. assert (E3 : (within $"CONTAINER" (within $"COLUMN" (set $"ITEM_BYTES" (PInt 13)));;; within $"CONTAINER" (within $"COLUMN" (set $"START_BYTE" (PInt 1)))) b = (b', Ok tt)) by (now rewrite (bind_eq _ _ _ _ _ E1)).
  rewrite (bind_eq _ _ _ _ _ E3). reflexivity.
Qed.
(** Kaguya: a corrected copy; the metadata is left alone *)
Theorem C88_supplement c label dropped columns : length dropped = 4%nat -> values label $"COLUMNS" = [PInt columns] ->
  exists x, query sp_2b_supp_special_block c (label ++ dropped) = (label ++ dropped, Ok x) /\ corrected label x [($"COLUMNS", PInt (columns - 4))].
Proof.
  intros L V. unfold query, sp_2b_supp_special_block. rewrite app_length, L. replace (length label + 4 - 4)%nat with (length label + 0)%nat by lia. rewrite firstn_app_2. cbn [firstn]. rewrite app_nil_r.
  rewrite (bind_eq _ _ _ _ _ (get_values _ _ _ V)). eexists. split; [reflexivity|]. apply corrected_set.
Qed.
(** *** Corrections that add up: Phoenix WCL.  Each reading moves columns 13 and 14 again *)
Theorem C88_wcl c n b : table_of_columns b ->
  columns_related (moved (Z.of_nat n)) b (after wcl_edr_special_block c n b) /\
  exists x, query wcl_edr_special_block c (after wcl_edr_special_block c n b) = (x, Ok x) /\ columns_related (moved (Z.of_nat n + 1)) b x.
Proof.
  intros T. destruct (wcl_times c n b T) as [R T']. split; [exact R|]. destruct (wcl_once c _ T') as (x & Q & R1). exists x. split; [exact Q|]. exact (related_trans _ _ _ _ _ T R R1).
Qed.
(** WFF/ATM: lines and samples are exchanged by each reading *)
Theorem C88_wff c id n b lines samples : metaget c $"PRODUCT_ID" = PStr id -> startswith $"S" id = true ->
  values b $"LINES" = [lines] -> values b $"LINE_SAMPLES" = [samples] ->
  corrected b (after wff_atm_special_block c n b)
    (if Nat.odd n then [($"LINES", samples); ($"LINE_SAMPLES", lines)] else [($"LINES", lines); ($"LINE_SAMPLES", samples)]) /\
  exists x, query wff_atm_special_block c (after wff_atm_special_block c n b) = (x, Ok x).
Proof.
  intros M Sid. assert (STEP : forall b l s, values b $"LINES" = [l] -> values b $"LINE_SAMPLES" = [s] ->
    query wff_atm_special_block c b = (multi_set (multi_set b $"LINES" s) $"LINE_SAMPLES" l, Ok (multi_set (multi_set b $"LINES" s) $"LINE_SAMPLES" l))).
  { clear - M Sid. intros b l s V W. unfold query, wff_atm_special_block. rewrite M, Sid. unfold special, bind. rewrite (get_values _ _ _ V). rewrite (get_values _ _ _ W). reflexivity. }
  intros V W. induction n as [|n [IH _]].
  - cbn [after Nat.odd Nat.even negb]. split; [|rewrite (STEP b lines samples V W); eauto]. split; [|reflexivity]. intros k v [E|[E|[]]]; injection E as <- <-; [exact V|exact W].
  - rewrite after_snoc. destruct IH as [I O].
    assert (X : exists l s, values (after wff_atm_special_block c n b) $"LINES" = [l] /\ values (after wff_atm_special_block c n b) $"LINE_SAMPLES" = [s] /\
      (if Nat.odd (S n) then l = lines /\ s = samples else l = samples /\ s = lines)).
    { rewrite Nat.odd_succ, <- Nat.negb_odd. destruct (Nat.odd n); cbn [negb]; [exists samples, lines|exists lines, samples]; (split; [apply I; now left|split; [apply I; right; now left|now split]]). }
    destruct X as (l & s & Vl & Vs & Hls). rewrite (STEP _ l s Vl Vs). cbn [fst].
    set (b0 := after wff_atm_special_block c n b) in *.
    assert (C : corrected b (multi_set (multi_set b0 $"LINES" s) $"LINE_SAMPLES" l) [($"LINES", s); ($"LINE_SAMPLES", l)]).
    { split.
      - intros k v [E|[E|[]]]; injection E as <- <-; [|apply values_set]. rewrite values_set_other by (now apply neq_by). apply values_set.
      - intros k Nk. assert (N1 : k <> $"LINES") by (intros ->; apply Nk; now left). assert (N2 : k <> $"LINE_SAMPLES") by (intros ->; apply Nk; right; now left).
        rewrite !values_set_other by assumption. apply O. intros I'. apply Nk. destruct (Nat.odd n); exact I'. }
    split.
    + destruct (Nat.odd (S n)); destruct Hls as [-> ->]; exact C.
    + destruct C as [C _]. rewrite (STEP _ s l); [eauto| |]; apply C; [now left|right; now left].
Qed.
(** Voyager PRA: each reading adds another ITEM_BYTES, of the same value *)
Theorem C88_pra c n b : In (data_set c) [$"VG2-S-PRA-3-RDR-LOWBAND-6SEC-V1.0"; $"VG2-N-PRA-3-RDR-LOWBAND-6SEC-V1.0"; $"VG2-U-PRA-3-RDR-LOWBAND-6SEC-V1.0"] ->
  columns_are called b ->
  columns_related (swept n) b (after pra_special_block c n b) /\ exists x, query pra_special_block c (after pra_special_block c n b) = (x, Ok x).
Proof.
  intros D T. match eval unfold pra_special_block in (pra_special_block c) with context [special (if _ then each_column ?f else _)] =>
  destruct (each_times f pra_special_block c called swept) with (b := b) (n := n) as (R & _ & Q) end; [| | |exact T|now split].
  - intros y. unfold pra_special_block. assert (I : str_in (data_set c) [$"VG2-S-PRA-3-RDR-LOWBAND-6SEC-V1.0"; $"VG2-N-PRA-3-RDR-LOWBAND-6SEC-V1.0"; $"VG2-U-PRA-3-RDR-LOWBAND-6SEC-V1.0"] = true) by (now apply str_in_iff). now rewrite I.
  - exact pra_column.
  - intros x _ t N. destruct (contains $"SWEEP" t); [|reflexivity]. cbn [repeat]. rewrite app_nil_r. auto.
Qed.
(** Jupiter: the columns of the first CONTAINER, and as often as one likes *)
Theorem C88_pra_jupiter c b d rest : data_set c = $"VG2-J-PRA-3-RDR-LOWBAND-6SEC-V1.0" ->
  values b $"CONTAINER" = PMulti d :: rest -> columns_are called d ->
  exists b', query pra_special_block c b = (b', Ok b') /\ first_within $"CONTAINER" (columns_related restarted) b b' /\
  forall n, query pra_special_block c (after pra_special_block c n b') = (b', Ok b').
Proof.
  intros D V T. destruct (each_are _ called restarted d jupiter_column T) as (d' & Ed & Rd).
  destruct (within_first $"CONTAINER" _ (columns_related restarted) b d rest d' V Ed Rd) as (b' & E & F).
  assert (Q : query pra_special_block c b = (b', Ok b')).
  { unfold query, pra_special_block. rewrite D. change (str_in _ _) with false. cbv iota. rewrite str_eqb_refl. cbv iota. exact (query_special _ c _ _ E). }
  exists b'. split; [exact Q|]. split; [exact F|]. intros n. destruct (query_again _ c b b' b' (jupiter_plain c D) Q) as [_ Q']. now rewrite (after_same _ c b' Q' n).
Qed.
(** Ulysses EPAC, all channels: the first CONTAINER's COLUMN, and in the second CONTAINER the CONTAINER there and its COLUMN *)
Theorem C88_all_channels c b d1 d2 rest e r1 d3 r2 e3 r3 : contains $"ULY-J-EPAC-4-SUMM-PSTL" (data_set c) = false -> contains $"ULY-J-EPAC-4-SUMM-ALL-CHAN" (data_set c) = true ->
  values b $"CONTAINER" = PMulti d1 :: PMulti d2 :: rest -> values d1 $"COLUMN" = PMulti e :: r1 ->
  values d2 $"CONTAINER" = PMulti d3 :: r2 -> values d3 $"COLUMN" = PMulti e3 :: r3 ->
  exists b1 b2 b', query ulysses_special_block c b = (b', Ok b') /\
  first_within $"CONTAINER" (first_within $"COLUMN" (fun x x' => corrected x x' [($"START_BYTE", PInt 1)])) b b1 /\
  second_within $"CONTAINER" (first_within $"CONTAINER" (fun x x' => corrected x x' [($"START_BYTE", PInt 1)])) b1 b2 /\
  second_within $"CONTAINER" (first_within $"CONTAINER" (first_within $"COLUMN" (fun x x' => corrected x x' [($"START_BYTE", PInt 1)]))) b2 b'.
Proof.
  intros P D V V1 V2 V3. set (R := fun x x' => corrected x x' [($"START_BYTE", PInt 1)]). set (st := set $"START_BYTE" (PInt 1)).
  assert (RS : forall x, R x (multi_set x $"START_BYTE" (PInt 1))) by (intros x; apply corrected_set).
  destruct (within_first $"COLUMN" st R d1 e r1 _ V1 eq_refl (RS _)) as (d1' & Ed1 & F1).
  destruct (within_first $"CONTAINER" _ (first_within $"COLUMN" R) b d1 (PMulti d2 :: rest) d1' V Ed1 F1) as (b1 & E1 & G1).
  assert (W : values b1 $"CONTAINER" = PMulti d1' :: PMulti d2 :: rest).
  { destruct (within_first $"CONTAINER" _ (fun _ x' => x' = d1') b d1 (PMulti d2 :: rest) d1' V Ed1 eq_refl) as (b1' & E1' & (x & x' & rr & Vx & Vx' & -> & _)).
    rewrite E1 in E1'. injection E1' as <-. rewrite V in Vx. injection Vx as _ <-. exact Vx'. }
  destruct (within_first $"CONTAINER" st R d2 d3 r2 _ V2 eq_refl (RS _)) as (d2' & Ed2 & F2).
  destruct (within_second $"CONTAINER" _ (first_within $"CONTAINER" R) b1 (PMulti d1') d2 rest d2' W Ed2 F2) as (b2 & E2 & G2).
  assert (W2 : exists r, values b2 $"CONTAINER" = PMulti d1' :: PMulti d2' :: r).
  { destruct (within_second $"CONTAINER" _ (fun _ x' => x' = d2') b1 (PMulti d1') d2 rest d2' W Ed2 eq_refl) as (b2' & E2' & (v & x & x' & rr & Vx & Vx' & -> & _)).
    rewrite E2 in E2'. injection E2' as <-. rewrite W in Vx. injection Vx as <- _ <-. eauto. }
  destruct W2 as (rr & W2).
  assert (W3 : exists r, values d2' $"CONTAINER" = PMulti (multi_set d3 $"START_BYTE" (PInt 1)) :: r).
  { destruct (within_first $"CONTAINER" st (fun _ x' => x' = multi_set d3 $"START_BYTE" (PInt 1)) d2 d3 r2 _ V2 eq_refl eq_refl) as (y & Ey & (x & x' & r & _ & Vx' & -> & _)).
    rewrite Ed2 in Ey. injection Ey as <-. eauto. }
  destruct W3 as (r4 & W3).
  assert (W4 : values (multi_set d3 $"START_BYTE" (PInt 1)) $"COLUMN" = PMulti e3 :: r3) by (rewrite values_set_other; [exact V3|now apply neq_by]).
  destruct (within_first $"COLUMN" st R _ e3 r3 _ W4 eq_refl (RS _)) as (d3' & Ed3 & F3).
  destruct (within_first $"CONTAINER" _ (first_within $"COLUMN" R) d2' _ r4 d3' W3 Ed3 F3) as (d2'' & Ed4 & F4).
  destruct (within_second $"CONTAINER" _ (first_within $"CONTAINER" (first_within $"COLUMN" R)) b2 (PMulti d1') d2' rr d2'' W2 Ed4 F4) as (b' & E3 & G3).
  exists b1, b2, b'. split; [|split; [exact G1|split; [exact G2|exact G3]]].
  unfold query, ulysses_special_block. rewrite P, D. cbv iota.
  match goal with |- match special ?m b with _ => _ end = _ => assert (EE : m b = (b', Ok tt)) end.
  { rewrite (bind_eq (within_nth 0 _ _) _ b b1 tt E1). rewrite (bind_eq _ _ b1 b2 tt E2). exact E3. }
  exact (query_special _ c _ _ EE).
Qed.
(** each of these functions is one that check_special_block calls (C83 says for which products) *)
Theorem C88_called m f h : In (m, f, h) handlers ->
  exists r, In r Checkers.check_special_block_rules /\ (Checkers.action_of r = Checkers.Always m f \/ Checkers.action_of r = Checkers.Maybe m f).
Proof.
  intros I. assert (A : forallb (fun x => existsb (fun r => match Checkers.action_of r with Checkers.Always m f | Checkers.Maybe m f => str_eqb m (fst (fst x)) && str_eqb f (snd (fst x)) | _ => false end) Checkers.check_special_block_rules) handlers = true) by (vm_compute; reflexivity).
  rewrite forallb_forall in A. specialize (A _ I). cbn [fst snd] in A. apply existsb_exists in A as (r & Ir & E). exists r. split; [exact Ir|].
  destruct (Checkers.action_of r) as [m' f'|m' f'| |]; try discriminate; apply andb_true_iff in E as [E1 E2]; apply str_eqb_eq in E1, E2; subst; auto.
Qed.

(** *** Refuted *)
Definition somewhere : context := mkContext $"PHX-M-MECA-2-NIEDR-V1.0" (fun k => if str_eqb k $"PRODUCT_ID" then PStr $"SEDAN2X2" else PNone) $"TABLE".
(** the metadata of a product is not what its label says any more, once an object was read *)
Theorem C88_label_kept_refuted :
  ~ (forall m f h c b b' x, In (m, f, h) handlers -> query h c b = (b', Ok x) -> b' = b).
Proof.
  intros H. specialize (H $"voyager" $"mag_special_block" mag_special_block somewhere [($"ROW_BYTES", PInt 144)] _ _ (or_introl eq_refl) eq_refl).
  apply (f_equal (fun b => match b with (_, PInt z) :: _ => z | _ => 0 end)) in H. cbn in H. discriminate H.
Qed.
Definition wchem : multidict :=
  [($"ROWS", PInt 3);
   ($"COLUMN", PMulti [($"NAME", PStr $"TIME"); ($"COLUMN_NUMBER", PInt 1); ($"START_BYTE", PInt 1)]);
   ($"COLUMN", PMulti [($"NAME", PStr $"PH"); ($"COLUMN_NUMBER", PInt 13); ($"START_BYTE", PInt 100)]);
   ($"COLUMN", PMulti [($"NAME", PStr $"PB"); ($"COLUMN_NUMBER", PInt 14); ($"START_BYTE", PInt 120)])].
Example wchem_meets : table_of_columns wchem.
Proof.
  repeat constructor; cbn [fst snd]; try discriminate; (eexists; eexists; eexists; split; [reflexivity|]; split; reflexivity).
Qed.
(** loading an object again does not always find it where it was *)
Theorem C88_reload_refuted :
  ~ (forall m f h c b b' x, In (m, f, h) handlers -> query h c b = (b', Ok x) -> exists b'', query h c b' = (b'', Ok x)).
Proof.
  intros H. destruct (H $"phoenix" $"wcl_edr_special_block" wcl_edr_special_block somewhere wchem _ _ ltac:(unfold handlers; repeat (first [left; reflexivity|right])) ltac:(vm_compute; reflexivity)) as (b'' & E).
  vm_compute in E. discriminate E.
Qed.
(** an image of as many lines as it has samples per line, and the other way round, is read in turns *)
Theorem C88_image_reload_refuted :
  ~ (forall c b b' x, query wff_atm_special_block c b = (b', Ok x) -> exists b'', query wff_atm_special_block c b' = (b'', Ok x)).
Proof.
  intros H. destruct (H somewhere [($"LINES", PInt 10); ($"LINE_SAMPLES", PInt 20)] _ _ ltac:(vm_compute; reflexivity)) as (b'' & E).
  vm_compute in E. discriminate E.
Qed.
(** a reading that fails may leave behind corrections *)
Theorem C88_failure_refuted :
  ~ (forall m f h c b b' e, In (m, f, h) handlers -> query h c b = (b', Err e) -> b' = b).
Proof.
  intros H. specialize (H $"phoenix" $"wcl_edr_special_block" wcl_edr_special_block somewhere (wchem ++ [($"COLUMN", PMulti [])]) _ _
    ltac:(unfold handlers; repeat (first [left; reflexivity|right])) ltac:(vm_compute; reflexivity)).
  vm_compute in H. discriminate H.
Qed.

(** *** The hypotheses are met *)
Example C88_meets_fine : exists b' x, query pls_fine_special_block somewhere [($"ROWS", PInt 7); ($"ROW_BYTES", PInt 57); ($"ROW_BYTES", PInt 58)] = (b', Ok x)
  /\ b' = [($"ROWS", PInt 7); ($"ROW_BYTES", PInt 64)] /\ repeats ($"voyager", $"pls_fine_special_block") = false.
Proof. eexists. eexists. split; [vm_compute; reflexivity|]. split; vm_compute; reflexivity. Qed.
Example C88_meets_wcl : after wcl_edr_special_block somewhere 2 wchem =
  [($"ROWS", PInt 3);
   ($"COLUMN", PMulti [($"NAME", PStr $"TIME"); ($"COLUMN_NUMBER", PInt 1); ($"START_BYTE", PInt 1)]);
   ($"COLUMN", PMulti [($"NAME", PStr $"PH"); ($"COLUMN_NUMBER", PInt 13); ($"START_BYTE", PInt 98)]);
   ($"COLUMN", PMulti [($"NAME", PStr $"PB"); ($"COLUMN_NUMBER", PInt 14); ($"START_BYTE", PInt 116)])].
Proof. vm_compute. reflexivity. Qed.
Definition saturn : context := mkContext $"VG2-S-PRA-3-RDR-LOWBAND-6SEC-V1.0" (fun _ => PNone) $"TABLE".
Definition sweeps : multidict := [($"COLUMN", PMulti [($"NAME", PStr $"SWEEP1"); ($"BYTES", PInt 4)]); ($"COLUMN", PMulti [($"NAME", PStr $"DATE"); ($"BYTES", PInt 4)])].
Example C88_meets_pra : columns_are called sweeps /\ In (data_set saturn) [$"VG2-S-PRA-3-RDR-LOWBAND-6SEC-V1.0"; $"VG2-N-PRA-3-RDR-LOWBAND-6SEC-V1.0"; $"VG2-U-PRA-3-RDR-LOWBAND-6SEC-V1.0"] /\
  after pra_special_block saturn 2 sweeps = [($"COLUMN", PMulti [($"NAME", PStr $"SWEEP1"); ($"BYTES", PInt 284); ($"ITEM_BYTES", PInt 4); ($"ITEM_BYTES", PInt 4)]); ($"COLUMN", PMulti [($"NAME", PStr $"DATE"); ($"BYTES", PInt 4)])].
Proof.
  split; [|split; [now left|vm_compute; reflexivity]].
  repeat constructor; cbn [fst snd]; (eexists; split; [reflexivity|eexists; reflexivity]).
Qed.
Definition early_orbit : context := mkContext $"MEX-M-PFS-2-EDR-V1.0" (fun k => if str_eqb k $"ORBIT_NUMBER" then PInt 17 else PInt 12) $"TABLE".
Example C88_meets_pfs : columns_are called sweeps /\ metaget early_orbit $"FILE_RECORDS" = PInt 12 /\ (exists z, metaget early_orbit $"ORBIT_NUMBER" = PInt z /\ z < 8945) /\
  snd (query pfs_edr_special_block early_orbit [($"COLUMN", PMulti [($"NAME", PStr $"OBT OBSERVATION TIME")])]) =
  Ok [($"COLUMN", PMulti [($"NAME", PStr $"OBT OBSERVATION TIME"); ($"DATA_TYPE", PStr $"PC_REAL")]); ($"ROWS", PInt 12)].
Proof.
  split; [exact (proj1 C88_meets_pra)|]. split; [reflexivity|]. split; [exists 17; split; reflexivity|]. vm_compute. reflexivity.
Qed.
Example C88_meets_format_file : exists x y, values [($"^STRUCTURE", PStr $"../../label/tlmtab.fmt")] $"^STRUCTURE" = [PStr (x ++ $"/" ++ y)] /\ ~ In "/"%char y.
Proof. exists $"../../label", $"tlmtab.fmt". split; [vm_compute; reflexivity|]. vm_compute. intuition discriminate. Qed.
Example C88_meets_meteors : columns_are starting [($"COLUMN", PMulti [($"START_BYTE", PInt 17)]); ($"ROWS", PInt 3)] /\
  snd (query ihw_special_block somewhere [($"COLUMN", PMulti [($"START_BYTE", PInt 17)]); ($"ROWS", PInt 3)]) =
  Ok [($"COLUMN", PMulti [($"START_BYTE", PInt 17); ($"NAME", PStr $">=1SEC")]); ($"ROWS", PInt 3)].
Proof. split; [|vm_compute; reflexivity]. repeat constructor; cbn [fst snd]; [|discriminate]. eexists. split; [reflexivity|eexists; reflexivity]. Qed.
Example C88_meets_jupiter : snd (query pra_special_block (mkContext $"VG2-J-PRA-3-RDR-LOWBAND-6SEC-V1.0" (fun _ => PNone) $"TABLE")
    [($"CONTAINER", PMulti [($"COLUMN", PMulti [($"NAME", PStr $"STATUS_WORD"); ($"START_BYTE", PInt 25)]); ($"COLUMN", PMulti [($"NAME", PStr $"DATA_CHANNELS"); ($"START_BYTE", PInt 29)])])]) =
  Ok [($"CONTAINER", PMulti [($"COLUMN", PMulti [($"NAME", PStr $"STATUS_WORD"); ($"START_BYTE", PInt 1)]); ($"COLUMN", PMulti [($"NAME", PStr $"DATA_CHANNELS"); ($"START_BYTE", PInt 5)])])].
Proof. vm_compute. reflexivity. Qed.
Example C88_meets_all_channels : snd (query ulysses_special_block (mkContext $"ULY-J-EPAC-4-SUMM-ALL-CHAN-V1.0" (fun _ => PNone) $"TABLE")
    [($"CONTAINER", PMulti [($"COLUMN", PMulti [($"START_BYTE", PInt 30)])]);
     ($"CONTAINER", PMulti [($"CONTAINER", PMulti [($"START_BYTE", PInt 40); ($"COLUMN", PMulti [($"START_BYTE", PInt 50)])])])]) =
  Ok [($"CONTAINER", PMulti [($"COLUMN", PMulti [($"START_BYTE", PInt 1)])]);
     ($"CONTAINER", PMulti [($"CONTAINER", PMulti [($"START_BYTE", PInt 1); ($"COLUMN", PMulti [($"START_BYTE", PInt 1)])])])].
Proof. vm_compute. reflexivity. Qed.
Example C88_meets_epac : snd (query ulysses_special_block (mkContext $"ULY-J-EPAC-4-SUMM-PSTL-V1.0" (fun _ => PNone) $"TABLE")
    [($"CONTAINER", PMulti [($"COLUMN", PMulti [($"ITEM_BYTES", PInt 12); ($"START_BYTE", PInt 30)])])]) =
  Ok [($"CONTAINER", PMulti [($"COLUMN", PMulti [($"ITEM_BYTES", PInt 13); ($"START_BYTE", PInt 1)])])].
Proof. vm_compute. reflexivity. Qed.

Print Assumptions C88_same_block.
Print Assumptions C88_corrections.
Print Assumptions C88_pls_avg.
Print Assumptions C88_pls_fine.
Print Assumptions C88_pws.
Print Assumptions C88_no_prefix.
Print Assumptions C88_format_file.
Print Assumptions C88_mariner.
Print Assumptions C88_pfs.
Print Assumptions C88_later_orbits.
Print Assumptions C88_meteors.
Print Assumptions C88_epac.
Print Assumptions C88_supplement.
Print Assumptions C88_wcl.
Print Assumptions C88_wff.
Print Assumptions C88_pra.
Print Assumptions C88_called.
Print Assumptions C88_label_kept_refuted.
Print Assumptions C88_reload_refuted.
Print Assumptions C88_image_reload_refuted.
Print Assumptions C88_failure_refuted.
Print Assumptions C88_pra_jupiter.
Print Assumptions C88_all_channels.
