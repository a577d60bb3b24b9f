(** Property C09: trimming an attached label.  [csize] is the number of bytes
    read at a time (50 KiB in the code): every theorem holds for every value. *)
From Verif.Base Require Import Py PyFacts.
From Verif.Model Require Import Trim.
From Verif.Spec Require Import Trim.
From Verif.Proofs Require Import Trim.

(** Whatever is returned is a prefix of the file. *)
Theorem C09_prefix : forall csize max strict raise_ file t,
  trim_bytes csize max strict raise_ file = Ok t -> exists rest, file = t ++ rest.
Proof.
  intros csize max strict raise_ file t H. unfold trim_bytes in H.
  destruct (strict && _); [discriminate|].
  apply scan_prefix in H as (u & v & -> & E). exists v.
  rewrite <- app_assoc, <- E. symmetry. apply firstn_skipn.
Qed.
Print Assumptions C09_prefix.

(** The 20-byte head, full reads without any ending, then a read [a ++ m ++ b]
    whose first end marker is [m]: the text returned ends exactly with [m]. *)
Theorem C09_ends_at_first_marker : forall csize max strict raise_ head chunks a m b rest,
  (0 < csize)%nat -> length head = 20%nat ->
  (strict = true -> forallb is_ascii_byte head = true) ->
  Forall (fun c => length c = csize /\ no_ending c) chunks ->
  (csize * length chunks < max)%nat ->
  (length (a ++ m ++ b) = csize \/ (length (a ++ m ++ b) < csize)%nat /\ rest = []) ->
  first_marker a m b ->
  trim_bytes csize max strict raise_ (head ++ concat chunks ++ a ++ m ++ b ++ rest) =
  Ok (head ++ concat chunks ++ a ++ m).
Proof.
  intros csize max strict raise_ head chunks a m b rest Hc Hh Hs Hf Hmax Hlast Hm.
  pose proof (trim_found csize max strict raise_ head chunks (a ++ m) b (length (a ++ m)) rest) as H.
  rewrite <- !app_assoc in H. apply H; auto.
  - intros E. apply app_eq_nil in E as [_ E]. apply app_eq_nil in E as [E _].
    destruct Hm as (Hm & _). destruct Hm; discriminate.
  - now apply first_ending_marker.
Qed.
Print Assumptions C09_ends_at_first_marker.
(** Labels ended by a bare END line, if the same read holds no other ending. *)
Theorem C09_ends_at_unix_end : forall csize max strict raise_ head chunks a b rest,
  (0 < csize)%nat -> length head = 20%nat ->
  (strict = true -> forallb is_ascii_byte head = true) ->
  Forall (fun c => length c = csize /\ no_ending c) chunks ->
  (csize * length chunks < max)%nat ->
  (length (a ++ unix_end ++ b) = csize \/ (length (a ++ unix_end ++ b) < csize)%nat /\ rest = []) ->
  no_end_marker (a ++ unix_end ++ b) -> ~ occurs three_nulls (a ++ unix_end ++ b) ->
  first_occurrence a unix_end b ->
  trim_bytes csize max strict raise_ (head ++ concat chunks ++ a ++ unix_end ++ b ++ rest) =
  Ok (head ++ concat chunks ++ a ++ unix_end).
Proof.
  intros csize max strict raise_ head chunks a b rest Hc Hh Hs Hf Hmax Hlast H1 H2 H3.
  pose proof (trim_found csize max strict raise_ head chunks (a ++ unix_end) b (length (a ++ unix_end)) rest) as H.
  rewrite <- !app_assoc in H. apply H; auto.
  - intros E. apply app_eq_nil in E as [_ E]. discriminate.
  - now apply first_ending_unix.
Qed.
Print Assumptions C09_ends_at_unix_end.

(** No ending before the size limit or the end of the file: everything read so
    far is returned, or an error if one was asked for. *)
Theorem C09_no_ending : forall csize max strict raise_ head chunks last rest,
  (0 < csize)%nat -> length head = 20%nat ->
  (strict = true -> forallb is_ascii_byte head = true) ->
  Forall (fun c => length c = csize /\ no_ending c) chunks ->
  ((max <= csize * length chunks < max + csize)%nat /\ last = [] \/
   (csize * length chunks < max)%nat /\ (length last < csize)%nat /\ rest = [] /\ no_ending last) ->
  trim_bytes csize max strict raise_ (head ++ concat chunks ++ last ++ rest) =
  if raise_ then Err ValueError else Ok (head ++ concat chunks ++ last).
Proof. exact trim_not_found. Qed.
Print Assumptions C09_no_ending.

(** A binary head is rejected in strict mode. *)
Theorem C09_binary_head_rejected : forall csize max raise_ file c,
  In c (firstn 20 file) -> (128 <= N_of_ascii c)%N ->
  trim_bytes csize max true raise_ file = Err ValueError.
Proof.
  intros csize max raise_ file c Hin Hc. unfold trim_bytes.
  assert (E : forallb is_ascii_byte (firstn 20 file) = false).
  { apply not_true_iff_false. intros H. rewrite forallb_forall in H. apply H in Hin.
    unfold is_ascii_byte in Hin. apply N.ltb_lt in Hin. lia. }
  now rewrite E.
Qed.
Print Assumptions C09_binary_head_rejected.

Definition c09_head : str := $"PDS_VERSION_ID = PDS".
Definition c09_a : str := $"3" ++ [CR; NL] ++ $"LINES = 4" ++ [CR].
Definition c09_m : str := END_line ++ [CR].
Example C09_meets :
  length c09_head = 20%nat /\ forallb is_ascii_byte c09_head = true /\
  first_marker c09_a c09_m (NL :: $"data") /\
  Forall (fun c => length c = 3%nat /\ no_ending c) [$"abc"; $"def"].
Proof.
  split; [reflexivity|]. split; [reflexivity|]. split.
  - pose proof (search_pvl (c09_a ++ c09_m ++ NL :: $"data")) as H.
    assert (E : search_end ending_pvl (c09_a ++ c09_m ++ NL :: $"data") = Some (length (c09_a ++ c09_m)))
      by (vm_compute; reflexivity).
    rewrite E in H. destruct H as (a & m & b & Es & Hf & Hl).
    destruct Hf as (Hm & H1 & H2).
    assert (Hma : end_marker c09_m) by (apply (EM_cr 0); lia).
    pose proof (H2 c09_a c09_m (NL :: $"data") Hma (eq_sym Es)) as Hle.
    (* nothing matches earlier: check each shorter prefix *)
    split; [exact Hma|]. split.
    + intros m' b' Hm' E'. destruct Hm' as [k Hk|k Hk].
      * destruct k as [|k]; [cbn; lia|]. exfalso. cbn in E'. discriminate.
      * destruct k as [|k]; [lia|]. exfalso. cbn in E'. discriminate.
    + intros a' m' b' Hm' E'.
      apply marker_starts in Hm' as [u ->].
      assert (Hs : forall i, (i < length c09_a)%nat ->
        startswith END_line (skipn i (c09_a ++ c09_m ++ NL :: $"data")) = false).
      { intros i Hi. change (length c09_a) with 13%nat in Hi.
        do 13 (destruct i as [|i]; [vm_compute; reflexivity|]). lia. }
      apply Nat.nlt_ge. intros Hlt. specialize (Hs (length a') Hlt).
      rewrite E' in Hs. rewrite skipn_app, skipn_all, Nat.sub_diag in Hs. cbn [app skipn] in Hs.
      rewrite <- app_assoc in Hs.
      assert (startswith END_line (END_line ++ u ++ b') = true) by (apply startswith_iff; eauto).
      congruence.
  - assert (Hno : forall s, forallb (fun c => negb (Ascii.eqb c NL)) s = true ->
                 forallb (fun c => negb (Ascii.eqb c "000"%char)) s = true -> no_ending s).
    { intros s Hs Hz. rewrite forallb_forall in Hs, Hz.
      assert (Hnl : ~ In NL s) by (intros Hin; apply Hs in Hin; rewrite Ascii.eqb_refl in Hin; discriminate).
      split; [|split].
      - intros m Hm (x & y & ->). apply marker_starts in Hm as [u ->]. apply Hnl.
        apply in_or_app; right. apply in_or_app; left. now left.
      - intros (x & y & ->). specialize (Hz "000"%char). cbn in Hz.
        assert (false = true) by (apply Hz; apply in_or_app; right; now left). discriminate.
      - intros (x & y & ->). apply Hnl. apply in_or_app; right. now left. }
    repeat constructor; apply Hno; reflexivity.
Qed.

(** An end marker that straddles two reads is not seen, whatever the read size:
    the label text then runs on to the end of the file (or of the size limit). *)
Theorem C09_straddling_marker_refuted : forall csize max,
  (20 <= csize < max)%nat ->
  exists file a b, file = a ++ c09_m ++ NL :: b /\ end_marker c09_m /\ b <> [] /\
    trim_bytes csize max true true file = Err ValueError /\
    trim_bytes csize max true false file = Ok file.
Proof.
  intros csize max Hc.
  set (chunk := repeat "A"%char (csize - 2) ++ [NL; "E"%char]).
  set (last := $"ND" ++ CR :: NL :: $"binary data").
  exists (repeat " "%char 20 ++ concat [chunk] ++ last ++ []),
         (repeat " "%char 20 ++ repeat "A"%char (csize - 2)), $"binary data".
  split; [unfold chunk, last, c09_m; cbn [concat]; rewrite !app_nil_r, <- !app_assoc; reflexivity|].
  split; [apply (EM_cr 0); lia|]. split; [discriminate|].
  assert (H1 : Forall (fun c => length c = csize /\ no_ending c) [chunk]).
  { constructor; [|constructor]. split.
    - unfold chunk. rewrite app_length, repeat_length. cbn. lia.
    - apply (no_ending_without "D"%char); [cbn; tauto| |].
      + unfold chunk. intros Hin. apply in_app_or in Hin as [Hin|Hin];
          [apply repeat_spec in Hin; discriminate|]. destruct Hin as [E|[E|[]]]; discriminate.
      + unfold chunk. intros Hin. apply in_app_or in Hin as [Hin|Hin];
          [apply repeat_spec in Hin; discriminate|]. destruct Hin as [E|[E|[]]]; discriminate. }
  assert (H2 : no_ending last).
  { apply (no_ending_without "E"%char); [cbn; tauto| |];
      intros Hin; vm_compute in Hin; repeat (destruct Hin as [Hin|Hin]; [discriminate|]); contradiction. }
  assert (H3 : (csize * length [chunk] < max)%nat /\ (length last < csize)%nat /\ (@nil ascii) = [] /\ no_ending last).
  { cbn [length]. split; [lia|]. split; [|auto]. change (length last) with 15%nat. lia. }
  split.
  - rewrite (trim_not_found csize max true true); auto; lia.
  - rewrite (trim_not_found csize max true false); auto; rewrite ?app_nil_r; auto; lia.
Qed.
Print Assumptions C09_straddling_marker_refuted.
(** A bare END line is overlooked if a carriage-return END follows it in the data
    of the same read. *)
Theorem C09_earlier_unix_end_refuted : forall csize max, (100 <= csize)%nat -> (0 < max)%nat ->
  exists label data t, (exists a, label = a ++ unix_end) /\
    trim_bytes csize max true false (label ++ data) = Ok t /\ (length label < length t)%nat.
Proof.
  intros csize max Hc Hm.
  exists (c09_head ++ $"3" ++ unix_end), ($"data" ++ c09_m ++ $"more").
  eexists. split; [now exists (c09_head ++ $"3")|]. split.
  - rewrite trim_one_read; [vm_compute; reflexivity|exact Hm|cbn; lia|cbn; lia|reflexivity].
  - cbn. lia.
Qed.
Print Assumptions C09_earlier_unix_end_refuted.
(** An end marker that touches the first twenty bytes is not seen. *)
Theorem C09_marker_in_head_refuted : forall csize max, (100 <= csize)%nat -> (0 < max)%nat ->
  exists file a b, file = a ++ c09_m ++ b /\ b <> [] /\
    trim_bytes csize max true false file = Ok file.
Proof.
  intros csize max Hc Hm.
  exists ($"A = 1" ++ c09_m ++ $"binary data that follows"), $"A = 1", $"binary data that follows".
  split; [reflexivity|]. split; [discriminate|].
  rewrite trim_one_read; [vm_compute; reflexivity|exact Hm|cbn; lia|cbn; lia|reflexivity].
Qed.
Print Assumptions C09_marker_in_head_refuted.
