(** C45: the values of the fields of fixed-width PDS4 tables. *)
From Coq Require Import ZArith Lia.
From Verif.Base Require Import Py PyFacts.
From Verif.Model Require Import Pds4Tables.
From Verif.Spec Require Import Pds4Tables.
From Verif.Properties Require Image.
From Verif.Proofs Require Import Pds4Manifest Pds4Tables Pds4Fixed.
Open Scope nat_scope.

Lemma check_app a b : check_groups (a ++ b) = (do _ <- check_groups a; check_groups b).
Proof. induction a as [|e a IH]; [cbn [app check_groups rbind]; reflexivity|]. cbn [app check_groups]. destruct (group e) as [[|r]|]; [reflexivity| |exact IH]. destruct (_ =? _)%Z; [exact IH|reflexivity]. Qed.
Lemma even_grp r l n cs F : even_groups (Grp r l n cs :: F) <-> 1 <= r /\ (exists q, n = q * Z.of_nat r)%Z /\ even_groups cs /\ even_groups F.
Proof.
  assert (H : (fix all (cs : list item) : Prop := match cs with [] => True | c :: cs => even_item c /\ all cs end) cs <-> even_groups cs).
  { induction cs as [|c cs IH]; [split; [constructor|easy]|]. split; [intros [A B]; constructor; [exact A|now apply IH]|intros A; inversion A; subst; split; [assumption|now apply IH]]. }
  split.
  - intros E. inversion E as [|? ? Q D]; subst. cbn [even_item] in Q. destruct Q as (A & B & C). split; [exact A|]. split; [exact B|]. split; [now apply H|exact D].
  - intros (A & B & C & D). constructor; [|exact D]. split; [exact A|]. split; [exact B|now apply H].
Qed.
Lemma even_check F : forall lvl, even_groups F <-> check_groups (flatten lvl F) = Ok tt.
Proof.
  induction F as [|l n F IH|r l n cs F IHc IH] using forest_ind; intros lvl.
  - split; [reflexivity|constructor].
  - rewrite flatten_fld. cbn [check_groups group]. rewrite <- IH. split; [intros E; now inversion E|intros E; constructor; [exact I|exact E]].
  - rewrite even_grp, flatten_grp. cbn [check_groups group]. rewrite check_app. destruct r as [|r]; [split; [lia|discriminate]|]. cbn [len_].
    assert (D : (exists q, n = q * Z.of_nat (S r))%Z <-> (n mod Z.of_nat (S r) =? 0)%Z = true).
    { rewrite Z.eqb_eq. split; [intros [q ->]; apply Z.mod_mul; lia|]. intros E. exists (n / Z.of_nat (S r))%Z. pose proof (Z.div_mod n (Z.of_nat (S r)) ltac:(lia)). lia. }
    rewrite D, (IHc (S lvl)), (IH lvl). destruct (_ =? 0)%Z; [|split; [intros (_ & X & _); discriminate|discriminate]].
    destruct (check_groups (flatten (S lvl) cs)) as [[]|e]; cbn [rbind]; [|split; [intros (_ & _ & X & _); discriminate|discriminate]]. split; [now intros (_ & _ & _ & X)|]. intros X. repeat split; [lia|exact X].
Qed.
Lemma check_manifest u f : check_groups (manifest u f) = check_groups (flatten 0 f).
Proof. unfold manifest. rewrite check_app. assert (E : check_groups (repeat (mkE 0 None 0 0) u) = Ok tt) by (induction u as [|u IH]; [reflexivity|exact IH]). now rewrite E. Qed.
Lemma bytes_read file o N s n : s + n <= N -> bytes_at (firstn N (skipn o file)) s n = bytes_at file (o + s) n.
Proof. intros L. unfold bytes_at. rewrite skipn_firstn_comm, firstn_firstn, Nat.min_l by lia. f_equal. now rewrite Image.skipn_skipn. Qed.

(** Every value of every field is at its place: record number, group repetitions and field,
    whatever groups are nested in groups; the uniformly sampled fields do not matter. *)
Theorem C45_values u f record_length num_records offset file : even_groups f -> fits_record (Z.of_nat record_length) f ->
  read_fixed_file u f (Z.of_nat record_length) num_records offset file
  = Ok (map (field_values f record_length num_records offset file) (seq 0 (fields_of f))).
Proof.
  intros Ev Fi. unfold read_fixed_file. rewrite read_fixed_places by (rewrite check_manifest; now apply even_check). f_equal. apply map_ext. intros k.
  unfold field_values. rewrite !flat_map_concat_map. f_equal. apply map_ext_in. intros r Hr. apply in_seq in Hr. unfold of_field. rewrite map_map. apply map_ext_in. intros p Hp. apply filter_In in Hp as [Hp _].
  destruct (Fi p Hp) as (A & B & C). destruct p as [k' [s n]]. cbn [fst snd] in *. clear Hp.
  assert (Hd : exists N, read_byte_data file offset (Z.of_nat offset + Z.of_nat num_records * Z.of_nat record_length) = firstn N (skipn offset file) /\ num_records * record_length <= N).
  { unfold read_byte_data. cbv zeta. destruct (Z.ltb_spec 0 (Z.of_nat offset + Z.of_nat num_records * Z.of_nat record_length)); [destruct (Z.ltb_spec (Z.of_nat offset + Z.of_nat num_records * Z.of_nat record_length - Z.of_nat offset) 0); [lia|]|].
    - eexists. split; [reflexivity|lia].
    - exists (length (skipn offset file)). rewrite firstn_all. split; [reflexivity|]. assert (num_records * record_length = 0) by lia. lia. }
  destruct Hd as (N & -> & HN). unfold cut. replace (Z.of_nat r * Z.of_nat record_length + s)%Z with (Z.of_nat (r * record_length + Z.to_nat s)) by lia.
  replace (Z.of_nat (r * record_length + Z.to_nat s) + n)%Z with (Z.of_nat (r * record_length + Z.to_nat s + Z.to_nat n)) by lia. rewrite zslice_nat.
  replace (r * record_length + Z.to_nat s + Z.to_nat n - (r * record_length + Z.to_nat s)) with (Z.to_nat n) by lia.
  assert (Hr' : (r + 1) * record_length <= num_records * record_length) by (apply Nat.mul_le_mono_r; lia).
  rewrite <- Nat.add_assoc. apply bytes_read. lia.
Qed.
Print Assumptions C45_values.
(** two groups, one in the other, with filler bytes *)
Definition grid : list item := [Fld 1 2; Grp 2 4 10 [Grp 2 1 4 [Fld 1 1; Fld 2 1]; Fld 5 1]].
Example C45_meets : even_groups grid /\ fits_record 14 grid /\
  read_fixed_file 1 grid 14 2 1 $"_ab-AxBycCzDwd.01-2345678901.rest" = Ok
    [[$"ab"; $"01"]; [$"A"; $"B"; $"C"; $"D"; $"2"; $"4"; $"7"; $"9"]; [$"x"; $"y"; $"z"; $"w"; $"3"; $"5"; $"8"; $"0"]; [$"c"; $"d"; $"6"; $"1"]].
Proof.
  split; [|split; [|vm_compute; reflexivity]].
  - apply (proj2 (even_check grid 0)). reflexivity.
  - intros p Hp. vm_compute in Hp. repeat (destruct Hp as [<-|Hp]; [cbn [fst snd]; lia|]). destruct Hp.
Qed.

(** The table can be read exactly when every group is repeated and its length is that of
    its repetitions; otherwise it is refused. *)
Theorem C45_checked u f record_length num_records offset file :
  (even_groups f -> exists values, read_fixed_file u f record_length num_records offset file = Ok values) /\
  (~ even_groups f -> exists e, read_fixed_file u f record_length num_records offset file = Err e /\ (e = StandardsError \/ e = ZeroDivisionError)).
Proof.
  unfold read_fixed_file, read_fixed. rewrite check_manifest. split; intros E.
  - rewrite (proj1 (even_check f 0) E). cbn [rbind]. eauto.
  - rewrite (even_check f 0) in E. assert (G : forall m, check_groups m = Ok tt \/ exists e, check_groups m = Err e /\ (e = StandardsError \/ e = ZeroDivisionError)).
    { clear. induction m as [|e m IH]; [now left|]. cbn [check_groups]. destruct (group e) as [[|r]|]; [right; eauto| |exact IH]. destruct (_ =? 0)%Z; [exact IH|right; eauto]. }
    destruct (G (flatten 0 f)) as [X|(e & X & D)]; [contradiction|]. rewrite X. cbn [rbind]. eauto.
Qed.
Print Assumptions C45_checked.
Example C45_checked_meets : ~ even_groups [Grp 3 1 10 [Fld 1 3]] /\ read_fixed_file 0 [Grp 3 1 10 [Fld 1 3]] 10 1 0 $"0123456789" = Err StandardsError.
Proof. split; [|reflexivity]. intros H. apply (even_check _ 0) in H. discriminate. Qed.

(** A group that the label repeats 0 times is not refused as such. *)
Theorem C45_zero_refuted u l n cs f record_length num_records offset file :
  read_fixed_file u (Grp 0 l n cs :: f) record_length num_records offset file = Err ZeroDivisionError.
Proof. unfold read_fixed_file, read_fixed. rewrite check_manifest. reflexivity. Qed.
Print Assumptions C45_zero_refuted.

(** A file that ends before the table is not refused: the values are empty. *)
Theorem C45_missing_refuted u f record_length num_records offset file : even_groups f -> fits_record (Z.of_nat record_length) f -> length file <= offset ->
  exists values, read_fixed_file u f (Z.of_nat record_length) num_records offset file = Ok values /\ length values = fields_of f /\
    forall v x, In v values -> In x v -> x = [].
Proof.
  intros E F L. rewrite (C45_values u f _ _ _ _ E F). eexists. split; [reflexivity|]. split; [now rewrite map_length, seq_length|]. intros v x Hv Hx. apply in_map_iff in Hv as (k & <- & _).
  unfold field_values in Hx. apply in_flat_map in Hx as (r & _ & Hx). apply in_map_iff in Hx as (p & <- & _). unfold bytes_at. rewrite skipn_all2 by lia. apply firstn_nil.
Qed.
Print Assumptions C45_missing_refuted.
Example C45_missing_meets : read_fixed_file 0 [Fld 1 2] 2 2 3 $"abc" = Ok [[[]; []]].
Proof. reflexivity. Qed.

(** ** Delimited tables in a file (C44 and C63 from the file): what is before and after the
    table does not matter *)
Theorem C44_file u f d rd recs before after junk object_length maximum_record_length :
  let table := table_text d rd recs [] in
  (forall o, object_length = Some o -> o = Z.of_nat (length table)) ->
  (forall l, object_length = None -> maximum_record_length = Some l -> Forall (fun cols => Z.of_nat (length (record_text d cols ++ rd)) <= l)%Z recs) ->
  recs <> [] -> rd <> [] ->
  exists rest, read_delimited_file u f d rd (length recs) object_length maximum_record_length junk (length before) (before ++ table ++ after)
  = read_delimited u f d rd (length recs) junk (table_text d rd recs rest).
Proof.
  intros table Ho Hm Ne Nr. unfold read_delimited_file. cbv zeta.
  assert (T : forall rest, table_text d rd recs rest = table ++ rest) by (intros rest; unfold table, table_text; now rewrite <- app_assoc).
  assert (Lt : 0 < length table). { unfold table, table_text. rewrite app_nil_r. destruct recs as [|c recs]; [contradiction|]. cbn [map concat]. rewrite !app_length. destruct rd; [contradiction|]. cbn [length]. lia. }
  assert (G : forall stop, (stop <= 0 \/ Z.of_nat (length before) + Z.of_nat (length table) <= stop)%Z -> exists rest, read_byte_data (before ++ table ++ after) (length before) stop = table ++ rest).
  { intros stop Hs. unfold read_byte_data. cbv zeta. rewrite skipn_app, skipn_all, Nat.sub_diag. cbn [skipn app]. destruct (Z.ltb_spec 0 stop); [|now exists after].
    destruct (Z.ltb_spec (stop - Z.of_nat (length before)) 0); [lia|]. rewrite firstn_app, firstn_all2 by lia. eexists. reflexivity. }
  match goal with |- context [read_byte_data _ _ ?st] => destruct (G st) as (rest & ->) end; [|exists rest; now rewrite T].
  destruct object_length as [o|]; [rewrite (Ho o eq_refl); lia|]. destruct maximum_record_length as [l|]; [|left; lia]. right. specialize (Hm l eq_refl eq_refl). apply Zplus_le_compat_l.
  unfold table, table_text. rewrite app_nil_r. clear -Hm. induction Hm as [|c recs Hc Hm IH]; [cbn; lia|]. cbn [map concat length]. rewrite app_length. lia.
Qed.
Print Assumptions C44_file.
Example C44_file_meets : read_delimited_file 0 [Fld 1 1; Fld 2 1] ","%char [NL] 1 None (Some 4%Z) (fun _ _ => 0%Z) 2 ($"ab" ++ $"1,2" ++ [NL] ++ $"x,y") = Ok [[$"1"]; [$"2"]].
Proof. reflexivity. Qed.
