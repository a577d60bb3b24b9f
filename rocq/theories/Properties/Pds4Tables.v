(** C44, C45 and C63: the values of the fields of PDS4 tables. *)
From Coq Require Import ZArith Lia.
From Verif.Base Require Import Py PyFacts.
From Verif.Model Require Import Types Scaling Pds4Types Pds4Tables.
From Verif.Spec Require Import Pds4Types Pds4Tables.
From Verif.Proofs Require Import Scaling Pds4Types Pds4Manifest Pds4Tables.
Open Scope nat_scope.

(** ** C44: delimited tables *)
(** Every field of every record gets the text of its column, without the quotes; what
    follows the last record does not matter, nor does what memory holds. *)
Theorem C44_values f d rd recs rest junk : delimiter d -> record_end rd -> plain_fields f -> recs <> [] ->
  Forall (good_record d rd) recs -> Forall (fun cols => length cols = length f) recs ->
  read_delimited 0 f d rd (length recs) junk (table_text d rd recs rest)
  = Ok (map (fun k => map (fun cols => value (nth k cols (Plain []))) recs) (seq 0 (length f))).
Proof.
  intros D E P Ne F L. apply delimiter_quote in D. pose proof (fun j => plain_safe f P j) as Sf.
  assert (Lo : length (owners f) = length f) by (unfold owners; now rewrite (owners_plain f P), seq_length).
  rewrite (read_effs 0 f d rd recs rest junk (map (map value) recs) D E (plain_repeated f P) (fun j _ => Sf j) Ne F).
  - change (ahead 0 f) with f. rewrite plain_columns; [|exact P|].
    + f_equal. apply map_ext_in. intros k _. rewrite map_map. apply map_ext. intros cols. change (@nil ascii) with (value (Plain [])). apply map_nth.
    + apply Forall_map. eapply Forall_impl; [|exact L]. intros cols H. cbn. now rewrite map_length.
  - change (ahead 0 f) with f. rewrite Lo. clear -L. induction L as [|c recs Hc L IH]; cbn [map]; constructor; [now apply reads_exact|exact IH].
Qed.
Print Assumptions C44_values.
Example C44_meets : let recs := [[Plain $"1"; Quoted $"a,b"]; [Plain $"x""y"; Plain []]] in
  Forall (good_record ","%char [CR; NL]) recs /\
  table_text ","%char [CR; NL] recs [] = $"1,""a,b""" ++ [CR; NL] ++ $"x""y," ++ [CR; NL] /\
  read_delimited 0 [Fld 1 1; Fld 2 1] ","%char [CR; NL] 2 (fun _ _ => 0%Z) (table_text ","%char [CR; NL] recs []) = Ok [[$"1"; $"x""y"]; [$"a,b"; []]].
Proof.
  cbv zeta. split; [|split; vm_compute; reflexivity].
  assert (H : forall s, contains [CR; NL] s = false -> ~ occurs_in [CR; NL] s).
  { intros s H (a & b & ->). rewrite <- not_true_iff_false in H. apply H. apply contains_iff. now exists a, b. }
  repeat constructor; try discriminate; try (intros (x & Hx); discriminate); try (apply H; reflexivity);
    cbn; intros X; repeat (destruct X as [X|X]; [discriminate|]); destruct X.
Qed.

(** A record with one column too many: the last field gets both columns, with the
    delimiter between them. *)
Theorem C44_extra_refuted f d rd recs rest junk : delimiter d -> record_end rd -> plain_fields f -> f <> [] -> recs <> [] ->
  Forall (good_record d rd) recs -> Forall (fun cols => length cols = S (length f)) recs ->
  read_delimited 0 f d rd (length recs) junk (table_text d rd recs rest)
  = Ok (map (fun k => map (fun cols =>
          if S k =? length f then value (nth k cols (Plain [])) ++ [d] ++ value (nth (S k) cols (Plain []))
          else value (nth k cols (Plain []))) recs) (seq 0 (length f))).
Proof.
  intros D E P Nf Ne F L. apply delimiter_quote in D. pose proof (fun j => plain_safe f P j) as Sf.
  assert (Lf : 1 <= length f) by (destruct f; [contradiction|cbn; lia]).
  assert (Lo : length (owners f) = length f) by (unfold owners; now rewrite (owners_plain f P), seq_length).
  rewrite (read_effs 0 f d rd recs rest junk (map (fun cols => merged d (length f) (map value cols)) recs) D E (plain_repeated f P) (fun j _ => Sf j) Ne F).
  - change (ahead 0 f) with f. rewrite plain_columns; [|exact P|].
    + f_equal. apply map_ext_in. intros k Hk. apply in_seq in Hk. rewrite map_map. apply map_ext_in. intros cols Ic. rewrite Forall_forall in L. pose proof (L _ Ic) as Lc.
      assert (Lv : length (map value cols) = S (length f)) by (now rewrite map_length). assert (V : forall i, nth i (map value cols) [] = value (nth i cols (Plain []))) by (intros i; exact (map_nth value cols (Plain []) i)).
      unfold merged. destruct (Nat.eqb_spec (S k) (length f)) as [Ek|Nk].
      * rewrite app_nth2 by (rewrite firstn_length; lia). rewrite firstn_length. replace (k - Nat.min (length f - 1) (length (map value cols))) with 0 by lia. cbn [nth].
        rewrite <- !V. replace (length f - 1) with k by lia.
        rewrite (skipn_nth _ k (nth k (map value cols) [])) by (apply nth_error_nth'; lia). rewrite (skipn_nth _ (S k) (nth (S k) (map value cols) [])) by (apply nth_error_nth'; lia).
        rewrite skipn_all2 by lia. reflexivity.
      * rewrite app_nth1 by (rewrite firstn_length; lia). rewrite <- V. rewrite <- (firstn_skipn (length f - 1) (map value cols)) at 2. rewrite app_nth1; [reflexivity|rewrite firstn_length; lia].
    + apply Forall_map. eapply Forall_impl; [|exact L]. intros cols H. cbn in H |- *. unfold merged. rewrite app_length, firstn_length, map_length. cbn [length]. lia.
  - change (ahead 0 f) with f. rewrite Lo. clear -L Lf. induction L as [|c recs Hc L IH]; cbn [map]; constructor; [now apply reads_merged|exact IH].
Qed.
Print Assumptions C44_extra_refuted.
Example C44_extra_meets : let recs := [[Plain $"1"; Plain $"2"; Plain $"3"]] in
  read_delimited 0 [Fld 1 1; Fld 2 1] ","%char [NL] 1 (fun _ _ => 0%Z) (table_text ","%char [NL] recs []) = Ok [[$"1"]; [$"2,3"]].
Proof. vm_compute. reflexivity. Qed.

(** Two columns too many in some record: the table cannot be read. *)
Theorem C44_two_extra_refuted f d rd recs rest junk : delimiter d -> record_end rd -> plain_fields f -> recs <> [] ->
  Forall (good_record d rd) recs -> Exists (fun cols => length f + 2 <= length cols) recs ->
  read_delimited 0 f d rd (length recs) junk (table_text d rd recs rest) = Err IndexError.
Proof.
  intros D E P Ne F X. apply delimiter_quote in D. unfold read_delimited. cbv zeta. rewrite (firstn_records d rd recs rest E F).
  destruct (map (record_text d) recs) as [|r0 l0] eqn:Er; [apply map_eq_nil in Er; contradiction|]. rewrite <- Er.
  destruct (min_type1 (longest (map (record_text d) recs) + 1)) as (t & -> & _). cbn [rbind]. rewrite (values_recs d rd recs D F).
  assert (Nc : num_columns (manifest 0 f) = length f).
  { rewrite manifest_ahead, num_columns_ok by (apply ahead_repeated, plain_repeated, P). change (ahead 0 f) with f. unfold owners. now rewrite (owners_plain f P), seq_length. }
  rewrite Nc. match goal with |- (do rows <- ?q; _) = _ => assert (Q : q = Err IndexError); [|now rewrite Q] end.
  clear -X. unfold enum. generalize 0 as k. induction X as [cols recs H|cols recs X IH]; intros k; cbn [map length seq combine rmap fst snd].
  - unfold record_starts. rewrite (proj2 (Nat.leb_gt _ _)) by (rewrite map_length; lia). reflexivity.
  - unfold record_starts at 1. destruct (_ <=? _); [|reflexivity]. cbn [rbind]. rewrite IH. reflexivity.
Qed.
Print Assumptions C44_two_extra_refuted.
Example C44_two_extra_meets : read_delimited 0 [Fld 1 1] ","%char [NL] 1 (fun _ _ => 0%Z) (table_text ","%char [NL] [[Plain $"1"; Plain $"2"; Plain $"3"]] []) = Err IndexError.
Proof. vm_compute. reflexivity. Qed.

(** A record with missing columns: what its last field gets depends on what memory
    holds; any part of the text is possible. *)
Theorem C44_short_refuted f d rd cols rest p : delimiter d -> record_end rd -> plain_fields f -> good_record d rd cols -> length cols < length f ->
  let v := value (nth (length cols - 1) cols (Plain [])) in p <= length v ->
  exists junk, (forall c r, 0 <= junk c r <= Z.of_nat (length (record_text d cols)) + 1)%Z /\
    exists res, read_delimited 0 f d rd 1 junk (table_text d rd [cols] rest) = Ok res /\ nth_error res (length cols - 1) = Some [firstn p v].
Proof.
  intros D E P G L v Lp. apply delimiter_quote in D. pose proof (fun j => plain_safe f P j) as Sf. pose proof G as (Nc & _).
  assert (Lo : length (owners f) = length f) by (unfold owners; now rewrite (owners_plain f P), seq_length).
  set (vals := map value cols). set (k := length cols - 1). assert (Lc : length cols = S k) by (destruct cols; [contradiction|unfold k; cbn; lia]).
  assert (Lv : length vals = S k) by (unfold vals; now rewrite map_length).
  assert (V : nth k vals [] = v) by exact (map_nth value cols (Plain []) k). assert (Ev : nth_error vals k = Some v) by (rewrite <- V; apply nth_error_nth'; lia).
  pose proof (values_len d cols) as Vl. fold vals in Vl. assert (Nv : vals <> []) by (intros X; rewrite X in Lv; discriminate). pose proof (pos_join d vals Nv) as Pj. rewrite Lv in Pj.
  pose proof (pos_S vals k v Ev) as Ps.
  exists (fun _ _ => (Z.of_nat (pos vals k + p) + 1)%Z). split; [intros; lia|].
  destruct (read_short 0 f d rd [cols] rest (fun _ _ => (Z.of_nat (pos vals k + p) + 1)%Z) D E (plain_repeated f P) (fun j _ => Sf j) ltac:(discriminate) (Forall_cons _ G (Forall_nil _))) as (t & Et & Er).
  { change (ahead 0 f) with f. rewrite Lo. constructor; [lia|constructor]. }
  change (ahead 0 f) with f in Er. rewrite Lo, (fields_plain f P) in Er. eexists. split; [exact Er|].
  rewrite nth_error_map, (nth_error_nth' _ 0) by (rewrite seq_length; lia). rewrite seq_nth by lia. cbn [option_map]. f_equal. cbn [Nat.add].
  unfold field_cells. cbn [map length seq flat_map enum combine fst snd]. unfold owners. rewrite (owners_plain f P).
  assert (Oc : occ 0 k (seq 0 (length f)) = [k]).
  { replace (length f) with (k + S (length f - S k)) by lia. rewrite seq_app, occ_app, seq_length. cbn [seq occ Nat.add]. rewrite Nat.eqb_refl. rewrite !occ_notin; [reflexivity| |]; intros I; apply in_seq in I; lia. }
  rewrite Oc. cbn [map app]. f_equal. unfold cellval, start. cbn [nth]. fold vals. rewrite !short_nth by lia. destruct (Nat.eqb_spec k (length f)); [lia|].
  rewrite starts_nth by lia. rewrite Z.add_0_l.
  assert (Sk : (if S k =? length f then total vals else nth (S k) (starts_from 0 vals) (Z.of_nat (pos vals k + p) + 1)%Z) = (Z.of_nat (pos vals k + p) + 1)%Z).
  { destruct (Nat.eqb_spec (S k) (length f)); [lia|]. apply nth_overflow. rewrite starts_length. lia. }
  rewrite Sk. pose proof (record_inside d [cols] cols t Et ltac:(now left) Nc) as I. fold vals in I. rewrite Lv in I.
  rewrite (wrapped_below t _ _ (min_type1_int _ _ Et) I) by lia. replace (Z.of_nat (pos vals k + p) + 1 - 1)%Z with (Z.of_nat (pos vals k + p)) by lia.
  rewrite zslice_nat, join_skip by lia. replace (pos vals k + p - pos vals k) with p by lia. rewrite (skipn_nth _ _ _ Ev), skipn_all2 by lia. reflexivity.
Qed.
Print Assumptions C44_short_refuted.
Example C44_short_meets :
  read_delimited 0 [Fld 1 1; Fld 2 1; Fld 3 1] ","%char [NL] 1 (fun _ _ => 7%Z) (table_text ","%char [NL] [[Plain $"1"; Plain $"2345"]] []) = Ok [[$"1"]; [$"2345"]; [[]]] /\
  read_delimited 0 [Fld 1 1; Fld 2 1; Fld 3 1] ","%char [NL] 1 (fun _ _ => 5%Z) (table_text ","%char [NL] [[Plain $"1"; Plain $"2345"]] []) = Ok [[$"1"]; [$"23"]; [$"5"]].
Proof. vm_compute. split; reflexivity. Qed.

(** Fewer records than the label says, or none: the table cannot be read. *)
Lemma split_no rd s : ~ occurs_in rd s -> split_seq rd 0 s = [s].
Proof.
  induction s as [|c s IH]; intros N; [reflexivity|]. cbn [split_seq]. destruct (startswith rd (c :: s)) eqn:H.
  - exfalso. apply startswith_iff in H as [t Ht]. apply N. exists [], t. exact Ht.
  - rewrite IH; [reflexivity|]. intros (a & b & ->). apply N. now exists (c :: a), b.
Qed.
Theorem C44_records_refuted f d rd recs rest junk num : delimiter d -> record_end rd -> plain_fields f -> f <> [] -> Forall (good_record d rd) recs ->
  ~ occurs_in rd rest -> length recs + 2 <= num -> read_delimited 0 f d rd num junk (table_text d rd recs rest) = Err IndexError.
Proof.
  intros D E P Nf F Nr Ln. unfold read_delimited. cbv zeta. rewrite (split_table d rd recs rest E F), (split_no rd rest Nr).
  rewrite firstn_all2 by (rewrite app_length, map_length; cbn; lia). set (records := map (record_text d) recs ++ [rest]).
  assert (Lr : length records < num) by (unfold records; rewrite app_length, map_length; cbn; lia). assert (Nrec : records <> []) by (unfold records; intros X; now apply app_eq_nil in X as [_ X]).
  destruct records as [|r0 l0] eqn:Er; [contradiction|]. rewrite <- Er in *. clear Er r0 l0.
  destruct (min_type1 (longest records + 1)) as (t & -> & _). cbn [rbind].
  match goal with |- (do rows <- ?q; _) = _ => destruct q as [rows|e] eqn:Q end.
  2: { cbn [rbind]. assert (G : forall l, rmap (fun p : nat * list str => record_starts (num_columns (manifest 0 f)) (fun c => junk c (fst p)) (snd p)) l = Err e -> e = IndexError).
       { clear. induction l as [|x l IH]; cbn [rmap]; [discriminate|]. unfold record_starts at 1. destruct (_ <=? _); [|intros [= <-]; reflexivity]. cbn [rbind]. destruct (rmap _ l) as [|e']; [discriminate|]. exact IH. }
       now rewrite (G _ Q). }
  cbn [rbind]. assert (Lrow : length rows = length records).
  { apply rmap_spec in Q. apply F2_len in Q. rewrite <- Q. unfold enum. rewrite combine_length, seq_length, map_length. lia. }
  rewrite manifest_ahead, num_columns_ok by (apply ahead_repeated, plain_repeated, P). change (ahead 0 f) with f. cbn [skipn]. rewrite field_indices_ok.
  destruct f as [|i f]; [contradiction|]. destruct (P i (or_introl eq_refl)) as (l & n & ->). rewrite fidx_fld. cbn [extract_fields].
  assert (If : In 0 (fidx 0 (Fld l n :: f))) by (rewrite fidx_fld; now left). rewrite (field_offset_ok _ 0 (plain_repeated _ P) If), cidx_fld. cbn [first Nat.eqb].
  destruct (shape_ok (Fld l n :: f) 0 If) as [-> _]. rewrite path_fld by lia. cbn [Nat.eqb map]. unfold extract_delimited. cbn [length Nat.eqb orb].
  match goal with |- (do r <- (do l <- rmap ?h ?q; _); _) = _ => assert (K : rmap h q = Err IndexError) end.
  { set (ST := (map (fun c => Some (map (fun row => nth c row 0%Z) rows)) (seq 0 (length (owners (Fld l n :: f)) + 1)) : store)). set (R := map (join [d]) (map (record_values d) records)).
    assert (Z0 : @zindex (option column) ST (Z.of_nat 0) = Ok (Some (map (fun row => nth 0 row 0%Z) rows))).
    { apply zindex_nat. unfold ST, owners. rewrite owners_fld. reflexivity. }
    assert (Z1 : @zindex (option column) ST (Z.of_nat 0 + 1) = Ok (Some (map (fun row => nth 1 row 0%Z) rows))).
    { change (Z.of_nat 0 + 1)%Z with (Z.of_nat 1). apply zindex_nat. unfold ST, owners. rewrite owners_fld. cbn [length]. rewrite Nat.add_1_r. reflexivity. }
    assert (H1 : forall r, length rows <= r -> cell_at R t None ST (Z.of_nat 0) r = Err IndexError).
    { intros r Hr. unfold cell_at, start_at. rewrite Z0. cbn [rbind]. rewrite (proj2 (nth_error_None _ _)) by (now rewrite map_length). reflexivity. }
    assert (H2 : forall r e, cell_at R t None ST (Z.of_nat 0) r = Err e -> e = IndexError).
    { intros r e. unfold cell_at, start_at. rewrite Z0, Z1. cbn [rbind]. destruct (nth_error (map (fun row => nth 0 row 0%Z) rows) r); cbn [rbind]; [|congruence].
      destruct (nth_error (map (fun row => nth 1 row 0%Z) rows) r); cbn [rbind]; [|congruence]. unfold record_at. destruct (nth_error R r); cbn [rbind]; congruence. }
    assert (W : forall q, (exists r, In r q /\ length rows <= r) -> rmap (fun r => cell_at R t None ST (Z.of_nat 0) r) q = Err IndexError).
    { induction q as [|r q IH]; intros (x & Hx & Lx); [destruct Hx|]. cbn [rmap]. destruct (cell_at R t None ST (Z.of_nat 0) r) as [y|e] eqn:Ey; cbn [rbind]; [|rewrite (H2 r e Ey); reflexivity].
      destruct Hx as [<-|Hx]; [rewrite (H1 r Lx) in Ey; discriminate|]. rewrite IH; [reflexivity|]. now exists x. }
    apply W. exists (num - 1). split; [apply in_seq; lia|lia]. }
  rewrite K. reflexivity.
Qed.
Print Assumptions C44_records_refuted.
Theorem C44_no_records_refuted u f d rd junk data : read_delimited u f d rd 0 junk data = Err ValueError.
Proof. reflexivity. Qed.
Print Assumptions C44_no_records_refuted.
Example C44_records_meets : read_delimited 0 [Fld 1 1] ","%char [NL] 3 (fun _ _ => 0%Z) (table_text ","%char [NL] [[Plain $"1"]] []) = Err IndexError.
Proof. vm_compute. reflexivity. Qed.

(** ** C63: groups in delimited tables *)
(** A field in groups gets the texts of all its columns, repetition after repetition, for
    groups in groups at any depth. *)
Theorem C63_groups f d rd recs rest junk : delimiter d -> record_end rd -> all_repeated f -> safe_columns f -> recs <> [] ->
  Forall (good_record d rd) recs -> Forall (fun cols => length cols = length (owners f)) recs ->
  read_delimited 0 f d rd (length recs) junk (table_text d rd recs rest)
  = Ok (map (fun k => flat_map (fun cols => values_of k (owners f) (map value cols)) recs) (seq 0 (fields_of f))).
Proof.
  intros D E R Sc Ne F L. apply delimiter_quote in D.
  assert (Sf : forall j, safe_field f j).
  { intros j G mx I M. apply occ_in in I as [_ I]. rewrite Nat.sub_0_r in I. apply (Sc j mx G I). intros n' Hn. apply M. apply occ_in. rewrite Nat.sub_0_r. split; [lia|exact Hn]. }
  rewrite (read_effs 0 f d rd recs rest junk (map (map value) recs) D E R (fun j _ => Sf j) Ne F).
  - change (ahead 0 f) with f. f_equal. apply map_ext. intros k. rewrite !flat_map_concat_map, map_map. reflexivity.
  - change (ahead 0 f) with f. clear -L. induction L as [|c recs Hc L IH]; cbn [map]; constructor; [now apply reads_exact|exact IH].
Qed.
Print Assumptions C63_groups.
Definition nested : list item := [Fld 1 1; Grp 2 1 1 [Fld 1 1; Grp 2 1 1 [Fld 1 1]; Fld 1 1]; Fld 1 1].
Example C63_meets : owners nested = [0; 1; 2; 2; 3; 1; 2; 2; 3; 4] /\ all_repeated nested /\ safe_columns nested /\
  read_delimited 0 nested ";"%char [NL] 1 (fun _ _ => 0%Z) (table_text ";"%char [NL] [map (fun s => Plain [s]) $"0123456789"] [])
  = Ok [[$"0"]; [$"1"; $"5"]; [$"2"; $"3"; $"6"; $"7"]; [$"4"; $"8"]; [$"9"]].
Proof.
  split; [reflexivity|]. split; [repeat constructor|]. split; [|vm_compute; reflexivity].
  intros k n _ H _. assert (Hn : n < length (owners nested)) by (apply (proj1 (nth_error_Some (owners nested) n)); congruence). change (length (owners nested)) with 10 in Hn.
  unfold safe_last, signed_last. cbv zeta. split; [|intros _]; left; lia.
Qed.

(** The record number type: a group of 128 columns loses its last value... *)
Theorem C63_128_refuted l n l' n' d rd recs rest junk : delimiter d -> record_end rd -> recs <> [] -> Forall (good_record d rd) recs -> Forall (fun cols => length cols = 128) recs ->
  read_delimited 0 [Grp 128 l n [Fld l' n']] d rd (length recs) junk (table_text d rd recs rest)
  = Ok [flat_map (fun cols => firstn 127 (map value cols) ++ [[]]) recs].
Proof.
  intros D E Ne F L. apply delimiter_quote in D. set (g := [Grp 128 l n [Fld l' n']]). assert (Lo : 128 = length (owners g)) by reflexivity.
  destruct (first_read 128 l n l' n' [] ltac:(lia) (Forall_nil _) d rd recs rest junk D E Ne F) as (t & st & Et & S0 & Er); [exact L|]. fold g in Er, S0. rewrite Er. clear Er.
  change (min_type_list [Z.of_nat (128 - 1)]) with (Ok (TNum (DInt true 1))). cbn [rbind].
  change (length (owners g)) with 128 in S0.
  rewrite (rmap_ok _ (fun i => firstn 127 (map value (nth i recs [])) ++ [[]])).
  - cbn [rbind]. destruct (release_ok g (map (fun cols => posrow 128 (map value cols)) recs) (map (fun _ => []) recs) ltac:(now rewrite !map_length) (TNum (DInt true 1)) 0 (seq 0 128)) with (todo := seq 0 128) (st := st) as (st' & -> & _).
    + intros c. rewrite <- (first_columns 128 l n l' n' [] ltac:(lia)). fold g. rewrite occ_in, Nat.sub_0_r. split; [now intros [_ X]|intros X; split; [lia|exact X]].
    + intros c Hc Hc'. apply in_seq in Hc. apply wrapped_byte; lia.
    + intros _. now left.
    + auto.
    + apply (St_mono g _ (map (fun _ => []) recs)); [now rewrite !map_length|exact S0].
    + cbn [rbind]. change (skipn 1 (fidx 0 g)) with (@nil nat). cbn [extract_fields rbind]. f_equal. f_equal. rewrite flat_map_concat_map. f_equal.
      clear. induction recs as [|c recs IH]; [reflexivity|]. cbn [length seq map nth]. f_equal. rewrite <- seq_shift, map_map. exact IH.
  - intros i Hi. apply in_seq in Hi. destruct (nth_error recs i) as [cols|] eqn:Ei; [|apply nth_error_None in Ei; lia]. rewrite (nth_error_nth _ _ [] Ei).
    rewrite Forall_forall in F, L. pose proof (F _ (nth_error_In _ _ Ei)) as (Nc & _). pose proof (L _ (nth_error_In _ _ Ei)) as Lc. set (vals := map value cols).
    assert (Lv : length vals = 128) by (unfold vals; now rewrite map_length).
    rewrite (rmap_ok _ (fun c => if c =? 127 then [] else nth c vals [])).
    + f_equal. change 128 with (127 + 1). rewrite seq_app, map_app. f_equal.
      rewrite (map_ext_in _ (fun c => nth c vals [])) by (intros c Hc; apply in_seq in Hc; destruct (Nat.eqb_spec c 127); [lia|reflexivity]).
      apply map_nth_firstn. apply (Nat.le_trans _ 128); [lia|]. apply Nat.eq_le_incl, eq_sym. exact Lv.
    + intros c Hc. apply in_seq in Hc. destruct (Nat.eqb_spec c 127) as [->|N].
      * unfold cell_at. rewrite (St0_start g recs 128 st 127 i cols Lo S0 ltac:(lia) Ei). cbn [rbind]. change (wrapped (TNum (DInt true 1)) (Z.of_nat 127 + 1)) with (-128)%Z.
        assert (Ez : start_at st (-128) i = start_at st (Z.of_nat 1) i).
        { unfold start_at, zindex. cbv zeta. destruct S0 as [Ls _]. change (length (owners g)) with 128 in Ls. rewrite Ls. reflexivity. }
        rewrite Ez, (St0_start g recs 128 st 1 i cols Lo S0 ltac:(lia) Ei). cbn [rbind]. unfold record_at. rewrite !nth_error_map, Ei. cbn [option_map rbind]. f_equal. fold vals.
        pose proof (record_inside d recs cols t Et (nth_error_In _ _ Ei) Nc) as I. fold vals in I. pose proof (pos_le vals 1). pose proof (pos_ge vals 1 ltac:(lia)).
        rewrite (wrapped_below t _ _ (min_type1_int _ _ Et) I) by lia. replace (Z.of_nat (pos vals 1) - 1)%Z with (Z.of_nat (pos vals 1 - 1)) by lia. rewrite zslice_nat.
        pose proof (pos_mono vals 1 127 ltac:(lia)). replace (pos vals 1 - 1 - pos vals 127) with 0 by lia. reflexivity.
      * apply (cell0 g d recs t _ 128); try assumption; try lia. apply wrapped_byte; lia.
Qed.
Print Assumptions C63_128_refuted.

(** ... a group of 256 columns loses the last character of its last value (in records of
    fewer than 32767 characters)... *)
Theorem C63_256_refuted l n l' n' d rd recs rest junk : delimiter d -> record_end rd -> recs <> [] -> Forall (good_record d rd) recs -> Forall (fun cols => length cols = 256) recs ->
  Forall (fun cols => (Z.of_nat (length (record_text d cols)) < 32767)%Z) recs ->
  read_delimited 0 [Grp 256 l n [Fld l' n']] d rd (length recs) junk (table_text d rd recs rest)
  = Ok [flat_map (fun cols => firstn 255 (map value cols) ++ [removelast (value (nth 255 cols (Plain [])))]) recs].
Proof.
  intros D E Ne F L Sh. apply delimiter_quote in D. set (g := [Grp 256 l n [Fld l' n']]). assert (Lo : 256 = length (owners g)) by reflexivity.
  destruct (first_read 256 l n l' n' [] ltac:(lia) (Forall_nil _) d rd recs rest junk D E Ne F) as (t & st & Et & S0 & Er); [exact L|]. fold g in Er, S0. rewrite Er. clear Er.
  change (min_type_list [Z.of_nat (256 - 1)]) with (Ok (TNum (DInt false 1))). cbn [rbind].
  change (length (owners g)) with 256 in S0.
  assert (Tt : t = TNum (DInt true 2)).
  { assert (B : (255 <= longest (map (record_text d) recs) < 32767)%Z).
    { split.
      - destruct recs as [|c recs]; [contradiction|]. inversion L as [|? ? Lc _]; subst. inversion F as [|? ? (Nc & _) _]; subst.
        pose proof (longest_ge (map (record_text d) (c :: recs)) (record_text d c) (or_introl eq_refl)). pose proof (record_long d c Nc). lia.
      - clear -Sh. unfold longest. assert (G : forall q z, (z < 32767)%Z -> (forall cols, In cols q -> (Z.of_nat (length (record_text d cols)) < 32767)%Z) ->
           (fold_left (fun z r => Z.max z (Z.of_nat (length r))) (map (record_text d) q) z < 32767)%Z).
        { induction q as [|c q IH]; intros z Hz Hq; cbn [map fold_left]; [exact Hz|]. apply IH; [pose proof (Hq c (or_introl eq_refl)); lia|intros; apply Hq; now right]. }
        apply G; [lia|]. now apply Forall_forall. }
    injection Et as <-. unfold min_int_type. rewrite !Z.abs_eq, Z.max_id by lia.
    repeat match goal with |- context [if ?b then _ else _] => destruct b eqn:? end; try reflexivity; rewrite ?andb_true_iff, ?andb_false_iff, ?Z.leb_le, ?Z.leb_gt in *; exfalso; lia. }
  rewrite (rmap_ok _ (fun i => firstn 255 (map value (nth i recs [])) ++ [removelast (value (nth 255 (nth i recs []) (Plain [])))])).
  - cbn [rbind]. destruct (release_ok g (map (fun cols => posrow 256 (map value cols)) recs) (map (fun _ => []) recs) ltac:(now rewrite !map_length) (TNum (DInt false 1)) 0 (seq 0 256)) with (todo := seq 0 256) (st := st) as (st' & -> & _).
    + intros c. rewrite <- (first_columns 256 l n l' n' [] ltac:(lia)). fold g. rewrite occ_in, Nat.sub_0_r. split; [now intros [_ X]|intros X; split; [lia|exact X]].
    + intros c Hc Hc'. apply in_seq in Hc. apply wrapped_byte; lia.
    + intros _. right. exists 255. split; [apply in_seq; lia|reflexivity].
    + auto.
    + apply (St_mono g _ (map (fun _ => []) recs)); [now rewrite !map_length|exact S0].
    + cbn [rbind]. change (skipn 1 (fidx 0 g)) with (@nil nat). cbn [extract_fields rbind]. f_equal. f_equal. rewrite flat_map_concat_map. f_equal.
      clear. induction recs as [|c recs IH]; [reflexivity|]. cbn [length seq map nth]. f_equal. rewrite <- seq_shift, map_map. exact IH.
  - intros i Hi. apply in_seq in Hi. destruct (nth_error recs i) as [cols|] eqn:Ei; [|apply nth_error_None in Ei; lia]. rewrite (nth_error_nth _ _ [] Ei).
    rewrite Forall_forall in F, L. pose proof (F _ (nth_error_In _ _ Ei)) as (Nc & _). pose proof (L _ (nth_error_In _ _ Ei)) as Lc. set (vals := map value cols).
    assert (Lv : length vals = 256) by (unfold vals; now rewrite map_length).
    assert (V : nth 255 vals [] = value (nth 255 cols (Plain []))) by exact (map_nth value cols (Plain []) 255). rewrite <- V.
    rewrite (rmap_ok _ (fun c => if c =? 255 then removelast (nth 255 vals []) else nth c vals [])).
    + f_equal. change 256 with (255 + 1). rewrite seq_app, map_app. f_equal.
      rewrite (map_ext_in _ (fun c => nth c vals [])) by (intros c Hc; apply in_seq in Hc; destruct (Nat.eqb_spec c 255); [lia|reflexivity]).
      apply map_nth_firstn. apply (Nat.le_trans _ 256); [lia|]. apply Nat.eq_le_incl, eq_sym. exact Lv.
    + intros c Hc. apply in_seq in Hc. destruct (Nat.eqb_spec c 255) as [->|N].
      * unfold cell_at. rewrite (St0_start g recs 256 st 255 i cols Lo S0 ltac:(lia) Ei). cbn [rbind]. change (wrapped (TNum (DInt false 1)) (Z.of_nat 255 + 1)) with (Z.of_nat 0).
        rewrite (St0_start g recs 256 st 0 i cols Lo S0 ltac:(lia) Ei). cbn [rbind]. unfold record_at. rewrite !nth_error_map, Ei. cbn [option_map rbind]. f_equal. fold vals.
        rewrite Tt. change (wrapped (TNum (DInt true 2)) (Z.of_nat (pos vals 0) - 1)) with (-1)%Z.
        assert (Ev : nth_error vals 255 = Some (nth 255 vals [])) by (apply nth_error_nth'; lia). set (v := nth 255 vals []) in *.
        assert (Nv : vals <> []) by (intros X; rewrite X in Lv; discriminate). pose proof (pos_join d vals Nv) as Pj. rewrite Lv in Pj. pose proof (pos_S vals 255 v Ev) as Ps.
        unfold zslice. cbv zeta. unfold norm_index. destruct (Z.ltb_spec (Z.of_nat (pos vals 255)) 0); [lia|]. cbn [Z.ltb Z.compare].
        replace (Z.to_nat (Z.min (Z.of_nat (pos vals 255)) (Z.of_nat (length (join [d] vals))))) with (pos vals 255) by lia.
        rewrite join_skip by lia. rewrite (skipn_nth _ _ _ Ev), skipn_all2 by lia. cbn [join].
        replace (Z.to_nat (Z.max 0 (-1 + Z.of_nat (length (join [d] vals))) - Z.min (Z.of_nat (pos vals 255)) (Z.of_nat (length (join [d] vals))))) with (length v - 1) by lia.
        clear. generalize v as w. intros w. rewrite removelast_firstn_len, <- Nat.sub_1_r. reflexivity.
      * apply (cell0 g d recs t _ 256); try assumption; try lia. apply wrapped_byte; lia.
Qed.
Print Assumptions C63_256_refuted.

(** ... and a table that starts with a group of 129 to 254 repetitions of one field, in at
    most 254 columns, cannot be read. *)
Theorem C63_index_refuted r l n l' n' F d rd recs rest junk : 129 <= r -> all_repeated F -> let f := Grp r l n [Fld l' n'] :: F in length (owners f) <= 254 ->
  delimiter d -> record_end rd -> recs <> [] -> Forall (good_record d rd) recs -> Forall (fun cols => length cols = length (owners f)) recs ->
  read_delimited 0 f d rd (length recs) junk (table_text d rd recs rest) = Err IndexError.
Proof.
  intros Hr RF f Hf D E Ne G L. apply delimiter_quote in D. destruct (first_read r l n l' n' F ltac:(lia) RF d rd recs rest junk D E Ne G L) as (t & st & Et & S0 & Er). fold f in Er, S0. rewrite Er. clear Er.
  assert (Lr : r <= length (owners f)) by (unfold f; rewrite first_owners, app_length, repeat_length; lia).
  assert (Tc : min_type_list [Z.of_nat (r - 1)] = Ok (TNum (DInt false 1))).
  { unfold min_type_list. cbn [fold1 fold_left rbind]. unfold min_int_type. rewrite !Z.abs_eq, Z.max_id by lia. rewrite (proj2 (Z.leb_gt _ 127)), (proj2 (Z.leb_le _ 255)), (proj2 (Z.leb_le 0 _)) by lia. reflexivity. }
  rewrite Tc. cbn [rbind]. rewrite (rmap_ok _ (fun i => map (fun c => nth c (map value (nth i recs [])) []) (seq 0 r))).
  - cbn [rbind]. replace (release (TNum (DInt false 1)) (seq 0 r) (seq 0 r) st) with (@Err store IndexError); [reflexivity|].
    destruct r as [|r']; [lia|]. assert (Er : seq 0 (S r') = 0 :: seq 1 r') by reflexivity. rewrite Er at 2. cbn [release]. cbv zeta. change (wrapped (TNum (DInt false 1)) (Z.of_nat 0 - 1)) with (255)%Z.
    replace (existsb (fun k => (Z.of_nat k =? 255)%Z) (seq 0 (S r'))) with false.
    + cbn [orb Z.ltb Z.compare]. unfold zindex. cbv zeta. cbn [Z.ltb Z.compare]. rewrite (proj2 (nth_error_None _ _)); [reflexivity|]. destruct S0 as [-> _]. change (Z.to_nat 255) with 255. lia.
    + symmetry. apply not_true_iff_false. intros X. apply existsb_exists in X as (x & Ix & Ex). apply in_seq in Ix. apply Z.eqb_eq in Ex. lia.
  - intros i Hi. apply in_seq in Hi. destruct (nth_error recs i) as [cols|] eqn:Ei; [|apply nth_error_None in Ei; lia]. rewrite (nth_error_nth _ _ [] Ei).
    rewrite Forall_forall in G, L. pose proof (G _ (nth_error_In _ _ Ei)) as (Nc & _). pose proof (L _ (nth_error_In _ _ Ei)) as Lc.
    apply rmap_ok. intros c Hc. apply in_seq in Hc. apply (cell0 f d recs t _ (length (owners f))); try assumption; try lia. apply wrapped_byte; lia.
Qed.
Print Assumptions C63_index_refuted.
Example C63_128_meets : let recs := [repeat (Plain $"x") 128] in
  Forall (good_record ","%char [NL]) recs /\ Forall (fun cols => length cols = 128) recs /\
  read_delimited 0 [Grp 128 1 1 [Fld 1 1]] ","%char [NL] 1 (fun _ _ => 0%Z) (table_text ","%char [NL] recs []) = Ok [repeat $"x" 127 ++ [[]]].
Proof.
  cbv zeta. assert (G : forall k, good_record ","%char [NL] (repeat (Plain $"x") (S k))).
  { intros k. split; [discriminate|]. split.
    - apply Forall_forall. intros c I. apply repeat_spec in I. subst c. split; [intros [X|[]]; discriminate|intros (r & X); discriminate].
    - intros (a & b & X). assert (I : In NL (record_text ","%char (repeat (Plain $"x") (S k)))) by (rewrite X, !in_app_iff; right; left; now left). clear X.
      unfold record_text in I. induction k as [|k IH]; [destruct I as [I|[]]; discriminate|]. destruct I as [I|[I|I]]; [discriminate|discriminate|]. apply IH. exact I. }
  split; [constructor; [apply G|constructor]|]. split; [constructor; [reflexivity|constructor]|]. vm_compute. reflexivity.
Qed.
Example C63_256_meets : let recs := [map (fun _ => Plain $"xy") (seq 0 256)] in
  read_delimited 0 [Grp 256 1 1 [Fld 1 1]] ","%char [NL] 1 (fun _ _ => 0%Z) (table_text ","%char [NL] recs []) = Ok [repeat $"xy" 255 ++ [$"x"]].
Proof. vm_compute. reflexivity. Qed.
Example C63_index_meets : let recs := [map (fun _ => Plain $"x") (seq 0 129)] in
  read_delimited 0 [Grp 129 1 1 [Fld 1 1]] ","%char [NL] 1 (fun _ _ => 0%Z) (table_text ","%char [NL] recs []) = Err IndexError.
Proof. vm_compute. reflexivity. Qed.

(** Uniformly sampled fields have no column in the file, but they are counted: each field
    gets the column so many places too far. *)
Theorem C63_uniform_refuted u f d rd recs rest junk k : delimiter d -> record_end rd -> plain_fields f -> recs <> [] ->
  Forall (good_record d rd) recs -> Forall (fun cols => length cols = length f) recs -> k + u + 1 < length f ->
  exists res, read_delimited u f d rd (length recs) junk (table_text d rd recs rest) = Ok res /\ length res = length f /\
    nth_error res k = Some (map (fun cols => value (nth (k + u) cols (Plain []))) recs).
Proof.
  intros D E P Ne G L Hk. apply delimiter_quote in D. set (g := ahead u f).
  assert (Pg : plain_fields g). { intros i Hi. apply in_app_or in Hi as [Hi|Hi]; [apply repeat_spec in Hi; subst i; now exists 0%Z, 0%Z|now apply P]. }
  assert (Lg : length g = u + length f) by (unfold g, ahead; now rewrite app_length, repeat_length).
  assert (Lo : length (owners g) = length g) by (unfold owners; now rewrite (owners_plain g Pg), seq_length).
  destruct (read_short u f d rd recs rest junk D E (plain_repeated f P) (fun j _ => plain_safe g Pg j) Ne G) as (t & Et & Er).
  { fold g. rewrite Lo. eapply Forall_impl; [|exact L]. intros cols Hc. cbn in Hc. lia. }
  fold g in Er. rewrite Lo, (fields_plain f P) in Er. eexists. split; [exact Er|]. split; [now rewrite map_length, seq_length|].
  rewrite nth_error_map, (nth_error_nth' _ 0) by (rewrite seq_length; lia). rewrite seq_nth by lia. cbn [option_map]. f_equal.
  unfold field_cells. unfold owners. rewrite (owners_plain g Pg).
  assert (Oc : occ 0 (u + k) (seq 0 (length g)) = [u + k]).
  { replace (length g) with ((u + k) + S (length g - S (u + k))) by lia. rewrite seq_app, occ_app, seq_length. cbn [seq occ Nat.add]. rewrite Nat.eqb_refl. rewrite !occ_notin; [reflexivity| |]; intros I; apply in_seq in I; lia. }
  rewrite Oc. rewrite !map_length. cbn [map].
  transitivity (map (fun r => value (nth (k + u) (nth r recs []) (Plain []))) (seq 0 (length recs))).
  - assert (Q : forall l, (forall r, In r l -> r < length recs) -> flat_map (fun r : nat => [cellval (map (fun p : nat * list str => short_row (length g) (fun c : nat => junk c (fst p)) (snd p)) (enum (map (map value) recs))) (map (join [d]) (map (map value) recs)) t (u + k) r]) l
       = map (fun r => value (nth (k + u) (nth r recs []) (Plain []))) l); [|apply Q; intros r Hr; apply in_seq in Hr; lia].
    induction l as [|r l IH]; intros Hl; [reflexivity|]. cbn [flat_map map app]. f_equal; [|apply IH; intros; apply Hl; now right].
    pose proof (Hl r (or_introl eq_refl)) as Hr. destruct (nth_error recs r) as [cols|] eqn:Ei; [|apply nth_error_None in Ei; lia]. rewrite (nth_error_nth _ _ [] Ei).
    rewrite Forall_forall in G, L. pose proof (G _ (nth_error_In _ _ Ei)) as (Nc & _). pose proof (L _ (nth_error_In _ _ Ei)) as Lc. set (vals := map value cols).
    assert (Lv : length vals = length f) by (unfold vals; now rewrite map_length).
    rewrite (cellval_short d vals (length g) t _ _ (u + k) r (fun c => junk c r)).
    + unfold vals. rewrite (Nat.add_comm u k). exact (map_nth value cols (Plain []) (k + u)).
    + lia.
    + lia.
    + rewrite !map_map. apply nth_error_nth. rewrite nth_error_map, Ei. reflexivity.
    + apply nth_error_nth. rewrite nth_error_map. unfold enum.
      assert (Ec : forall (A : Type) (l : list A) s i x, nth_error l i = Some x -> nth_error (combine (seq s (length l)) l) i = Some (s + i, x)).
      { clear. induction l as [|y l IH]; intros s [|i] x H; try discriminate; cbn [length seq combine nth_error] in *; [injection H as ->; now rewrite Nat.add_0_r|]. rewrite (IH _ _ _ H). now rewrite Nat.add_succ_comm. }
      rewrite (Ec _ (map (map value) recs) 0 r vals) by (rewrite nth_error_map, Ei; reflexivity). reflexivity.
    + exact (min_type1_int _ _ Et).
    + exact (record_inside d recs cols t Et (nth_error_In _ _ Ei) Nc).
  - clear. induction recs as [|c recs IH]; [reflexivity|]. cbn [length seq map nth]. f_equal. rewrite <- seq_shift, map_map. exact IH.
Qed.
Print Assumptions C63_uniform_refuted.
Example C63_uniform_meets : read_delimited 1 [Fld 1 1; Fld 2 1; Fld 3 1] ","%char [NL] 1 (fun _ _ => 0%Z) (table_text ","%char [NL] [[Plain $"1"; Plain $"2"; Plain $"3"]] [])
  = Ok [[$"2"]; [[]]; [$"1,2,3"]].
Proof. vm_compute. reflexivity. Qed.
