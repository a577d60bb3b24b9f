(** C41: the loader for the files of the MSL rover's cameras returns the image the camera
    wrote.  C42 (MSL part): its bit reader. *)
From Coq Require Import ZArith Lia List.
From Verif.Base Require Import Py Numpy.
From Verif.Model Require Import Msl.
From Verif.Spec Require Import Msl.
From Verif.Proofs Require Import Msl.
Open Scope nat_scope.

(** ** C42: bits come in order, each once, the highest of a byte first; then nothing *)
Lemma after_good file : forall n s k, good file s k -> good file (after_bits n file s) (Nat.min (k + n) (8 * List.length file)).
Proof.
  induction n as [|n IH]; intros s k Hg; cbn [after_bits].
  - rewrite Nat.add_0_r, Nat.min_l by (now apply good_le with s). exact Hg.
  - destruct (Nat.eq_dec k (8 * List.length file)) as [->|Hne].
    + destruct (next_bit_end _ _ Hg) as [E _]. rewrite E. cbn [snd]. specialize (IH s _ Hg). rewrite Nat.min_r in * by lia. exact IH.
    + pose proof (good_le _ _ _ Hg). destruct (next_bit_ok _ _ _ Hg) as (s' & E & Hg'); [lia|]. rewrite E. cbn [snd]. rewrite Nat.add_succ_r. exact (IH _ _ Hg').
Qed.
Lemma read_good file : forall n s k, good file s k -> bits_read n file s = map (fun b => Some (Z.b2z b)) (firstn n (skipn k (stream file))) ++ repeat None (n - (8 * List.length file - k)).
Proof.
  induction n as [|n IH]; intros s k Hg; cbn [bits_read]; [reflexivity|]. pose proof (good_le _ _ _ Hg) as Hle.
  destruct (Nat.eq_dec k (8 * List.length file)) as [->|Hne].
  - destruct (next_bit_end _ _ Hg) as [E _]. rewrite E. cbn [fst snd]. rewrite (IH s _ Hg), !skipn_all2 by (rewrite stream_len; lia). rewrite !firstn_nil, Nat.sub_diag, !Nat.sub_0_r. reflexivity.
  - destruct (next_bit_ok _ _ _ Hg) as (s' & E & Hg'); [lia|]. rewrite E. cbn [fst snd]. rewrite (IH s' _ Hg').
    assert (Hs : skipn k (stream file) = nth k (stream file) false :: skipn (S k) (stream file)).
    { assert (Hk : k < List.length (stream file)) by (rewrite stream_len; lia). clear - Hk. revert k Hk. induction (stream file) as [|x l IHl]; intros k Hk; cbn in Hk; [lia|]. destruct k; [reflexivity|]. cbn [skipn nth]. apply IHl. lia. }
    rewrite Hs. cbn [firstn map app]. do 3 f_equal. lia.
Qed.
Theorem C42_msl_bits file n : bits_read n file (open_bits file) = map (fun b => Some (Z.b2z b)) (firstn n (stream file)) ++ repeat None (n - 8 * List.length file).
Proof. rewrite (read_good file n _ 0 (open_good file)), Nat.sub_0_r. reflexivity. Qed.
Print Assumptions C42_msl_bits.
(** going back by some bytes begins at a byte again *)
Theorem C42_msl_rewind file n back m :
  bits_read m file (rewind_bytes file (after_bits n file (open_bits file)) back) =
  let q := Nat.min n (8 * List.length file) / 8 - back in
  map (fun b => Some (Z.b2z b)) (firstn m (stream (skipn q file))) ++ repeat None (m - 8 * (List.length file - q)).
Proof.
  cbv zeta. pose proof (after_good file n _ 0 (open_good file)) as Hg. rewrite Nat.add_0_l in Hg. set (s := after_bits n file (open_bits file)) in *.
  assert (Hp : p s = Nat.min n (8 * List.length file) / 8).
  { destruct Hg as (-> & Hb & _). rewrite Nat.mul_comm, Nat.div_add_l, (Nat.div_small (bit s)) by lia. lia. }
  rewrite <- Hp. set (q := p s - back). assert (Hq : q <= List.length file) by (destruct Hg as (_ & _ & H & _); unfold q; lia).
  unfold rewind_bytes. fold q. rewrite (read_good file m _ _ (refill_good file q Hq)), skipn_stream. do 2 f_equal. lia.
Qed.
Print Assumptions C42_msl_rewind.
Example C42_msl_meets : bits_read 3 [160; 1]%Z (open_bits [160; 1]%Z) = [Some 1; Some 0; Some 1]%Z /\ bits_read 2 [160]%Z (after_bits 7 [160]%Z (open_bits [160]%Z)) = [Some 0%Z; None].
Proof. now split. Qed.

(** ** The code *)
(** no code word begins another *)
Theorem C41_prefix_free c v c' v' r : codeword c v -> codeword c' v' -> c' = c ++ r -> r = [] /\ v = v'.
Proof.
  unfold codeword. generalize 0. intros n H. revert c' v' r.
  induction H as [n Hf|n c v Hf H IH|n Hf|n c v Hf H IH]; intros c' v' r H' E; cbn [app] in E; inversion H' as [m F Ec Ev|m d w F K Ec Ev|m F Ec Ev|m d w F K Ec Ev]; subst; try congruence.
  - injection Ev as <-. auto.
  - injection Ev as Ev. exact (IH _ _ _ K Ev).
  - injection Ev as <-. auto.
  - injection Ev as Ev. exact (IH _ _ _ K Ev).
Qed.
Print Assumptions C41_prefix_free.
(** every value below a node, with its code word *)
Fixpoint all_codes (fuel : nat) (n : nat) : option (list (list bool * Z)) :=
  match fuel with
  | O => None
  | S fuel =>
      let side b flag l := if Z.testbit (entry flags n) flag then option_map (map (fun cv => (b :: fst cv, snd cv))) (all_codes fuel (Z.to_nat (entry l n)))
                           else Some [([b], entry l n)] in
      match side false 0%Z left_, side true 1%Z right_ with Some a, Some b => Some (a ++ b) | _, _ => None end
  end.
Lemma all_codes_spec : forall fuel n l, all_codes fuel n = Some l -> forall c v, codes n c v <-> In (c, v) l.
Proof.
  induction fuel as [|fuel IH]; intros n l H; [discriminate|]. cbn [all_codes] in H.
  assert (Side : forall b flag t a, (if Z.testbit (entry flags n) flag then option_map (map (fun cv => (b :: fst cv, snd cv))) (all_codes fuel (Z.to_nat (entry t n))) else Some [([b], entry t n)]) = Some a ->
    forall c v, In (c, v) a <-> (Z.testbit (entry flags n) flag = false /\ c = [b] /\ v = entry t n) \/ (Z.testbit (entry flags n) flag = true /\ exists d, c = b :: d /\ codes (Z.to_nat (entry t n)) d v)).
  { intros b flag t a Ha c v. destruct (Z.testbit (entry flags n) flag).
    - destruct (all_codes fuel (Z.to_nat (entry t n))) as [l'|] eqn:E; [|discriminate]. cbn [option_map] in Ha. injection Ha as <-. rewrite in_map_iff. split.
      + intros ([d w] & [= <- <-] & Hi). right. split; [reflexivity|]. exists d. split; [reflexivity|]. now apply (IH _ _ E).
      + intros [(Hd & _)|(_ & d & -> & Hd)]; [discriminate|]. exists (d, v). split; [reflexivity|]. now apply (IH _ _ E).
    - injection Ha as <-. cbn [In]. split; [intros [[= <- <-]|[]]; auto|]. intros [(_ & -> & ->)|(Hd & _)]; [now left|discriminate]. }
  destruct (if Z.testbit (entry flags n) 0 then _ else _) as [a|] eqn:Ea; [|discriminate]. destruct (if Z.testbit (entry flags n) 1 then _ else _) as [b|] eqn:Eb; [|discriminate]. injection H as <-.
  intros c v. rewrite in_app_iff, (Side _ _ _ _ Ea), (Side _ _ _ _ Eb). split.
  - inversion 1; subst; eauto 9.
  - intros [[(F & -> & ->)|(F & d & -> & Hd)]|[(F & -> & ->)|(F & d & -> & Hd)]]; now constructor.
Qed.
Definition words : list (list bool * Z) := match all_codes 15 0 with Some l => l | None => [] end.
Lemma words_all : all_codes 15 0 = Some words. Proof. vm_compute. reflexivity. Qed.
Fixpoint nodup_z (l : list Z) : bool := match l with [] => true | x :: l => negb (existsb (Z.eqb x) l) && nodup_z l end.
Lemma nodup_z_ok l : nodup_z l = true -> NoDup l.
Proof.
  induction l as [|x l IH]; intros H; [constructor|]. cbn [nodup_z] in H. apply andb_true_iff in H as [H1 H2]. constructor; [|now apply IH].
  intros Hi. apply negb_true_iff in H1. assert (existsb (Z.eqb x) l = true) by (apply existsb_exists; exists x; split; [assumption|apply Z.eqb_refl]). congruence.
Qed.
Lemma words_fine : (let l := words in let vs := map snd l in forallb (fun v => (0 <=? v)%Z && (v <? 256)%Z) vs && nodup_z vs && forallb (fun v => existsb (Z.eqb v) vs) (map Z.of_nat (seq 0 256)) && forallb (fun cv => List.length (fst cv) <=? 15) l)%bool = true.
Proof. vm_compute. reflexivity. Qed.
Lemma nodup_snd (l : list (list bool * Z)) c c' v : NoDup (map snd l) -> In (c, v) l -> In (c', v) l -> c = c'.
Proof.
  induction l as [|[d w] l IH]; intros N H H'; [destruct H|]. cbn [map snd] in N. inversion N as [|? ? Hn N']; subst.
  destruct H as [[= -> ->]|H]; destruct H' as [[= ->]|H']; try subst; auto.
  - exfalso. apply Hn. exact (in_map snd _ _ H').
  - exfalso. apply Hn. exact (in_map snd _ _ H).
Qed.
(** every byte has exactly one code word, and there are no others *)
Theorem C41_code v : is_byte v <-> exists c, codeword c v /\ (forall c', codeword c' v -> c' = c) /\ List.length c <= 15.
Proof.
  pose proof (all_codes_spec 15 0 _ words_all) as S. pose proof words_fine as F. cbv zeta in F. revert S F. generalize words. intros l S F.
  rewrite !andb_true_iff in F. destruct F as [[[F1 F2] F3] F4]. apply nodup_z_ok in F2. rewrite forallb_forall in F1, F3, F4. unfold codeword. split.
  - intros Hb. unfold is_byte in Hb. assert (Hi : In v (map Z.of_nat (seq 0 256))) by (apply in_map_iff; exists (Z.to_nat v); split; [lia|apply in_seq; lia]).
    specialize (F3 _ Hi). apply existsb_exists in F3 as (w & Hw & E). apply Z.eqb_eq in E. subst w. apply in_map_iff in Hw as ([c w] & E & Hw). cbn [snd] in E. subst w.
    exists c. split; [now apply S|]. split; [|apply Nat.leb_le; exact (F4 _ Hw)]. intros c' Hc'. apply S in Hc'. now apply (nodup_snd l c' c v).
  - intros (c & Hc & _). apply S in Hc. specialize (F1 v (in_map snd _ _ Hc)). apply andb_true_iff in F1 as [A B]. apply Z.leb_le in A. apply Z.ltb_lt in B. unfold is_byte. lia.
Qed.
Print Assumptions C41_code.

(** ** Predicted images *)
Lemma Forall_part {A} (P : A -> Prop) l n m : Forall P l -> Forall P (firstn n (skipn m l)).
Proof. intros H. rewrite <- (firstn_skipn m l) in H. apply Forall_app in H as [_ H]. rewrite <- (firstn_skipn n (skipn m l)) in H. now apply Forall_app in H as [H _]. Qed.
Lemma header_bytes file o h : Forall is_byte file -> header_is file o h -> Forall is_byte h.
Proof. intros Hb (_ & (<- & _) & _). now apply Forall_part. Qed.
Lemma file_pred pillow fuel file o h height width : Forall is_byte file -> header_is file o h -> coded_as h PRED -> ~ sixteen_bits h -> image_size h height width ->
  msl_loader pillow fuel file =
  rbind (groups fuel (height / 8) width file (open_bits file)) (fun out =>
  let buf := out ++ skipn (List.length out) (repeat 0%Z (width * height)) in
  reshape [height; width] (mkArr [List.length buf] (fun idx => nth (hd 0 idx) buf 0%Z))).
Proof.
  intros Hb Hh Hc H16 Hs. unfold msl_loader. rewrite (header_found file o h Hb Hh).
  pose proof (header_bytes file o h Hb Hh) as Hbh.
  destruct (header_ok h height width PRED Hbh Hs Hc) as (Hw & Hht & Ht). destruct Hh as (_ & (_ & Hl & _) & _). destruct (depth_ok h PRED Hbh Hl Hc ltac:(discriminate)) as (_ & Hd & Hbn).
  rewrite Ht, Hw, Hht, Hbn, (Hd H16). unfold pdecom. destruct (groups fuel (height / 8) width file (open_bits file)) as [out|e]; cbn [rbind]; [|reflexivity].
  cbn [frombuffer Nat.eqb rbind]. rewrite Nat.mul_1_r. reflexivity.
Qed.
Lemma size_eights h height width : Forall is_byte h -> image_size h height width -> 0 < height /\ 0 < width /\ height mod 8 = 0 /\ Nat.even width = true.
Proof.
  intros Hb (a & b & Ea & Eb & Da & Db). assert (Ba : is_byte a) by (rewrite <- (byte_at_error _ _ _ Ea); now apply byte_at_byte). assert (Bb : is_byte b) by (rewrite <- (byte_at_error _ _ _ Eb); now apply byte_at_byte).
  unfold is_byte in *. assert (Ha : height = 8 * 150 \/ height = 8 * Z.to_nat a /\ 0 < height) by (destruct Da as [[_ ->]|[Hn Hs]]; [now left|right; lia]).
  assert (Hw : width = 2 * 824 \/ width = 2 * (4 * Z.to_nat b) /\ 0 < width) by (destruct Db as [[_ ->]|[Hn Hs]]; [now left|right; lia]).
  split; [lia|]. split; [lia|]. split.
  - assert (E : exists x, height = x * 8) by (destruct Ha as [->|[-> _]]; [now exists 150|exists (Z.to_nat a); lia]). destruct E as [x ->]. apply Nat.mod_mul. lia.
  - apply Nat.even_spec. destruct Hw as [->|[-> _]]; [now exists 824|now exists (4 * Z.to_nat b)].
Qed.
Lemma image_of height width buf : List.length buf = height * width ->
  exists a, reshape [height; width] (mkArr [List.length buf] (fun idx => nth (hd 0 idx) buf 0%Z)) = Ok a /\ shape a = [height; width] /\
    forall r c, r < height -> c < width -> at_ a [r; c] = nth (r * width + c) buf 0%Z.
Proof.
  intros Hl. destruct (reshape_ok [height; width] (mkArr [List.length buf] (fun idx => nth (hd 0 idx) buf 0%Z))) as (a & E & Hs & Ha).
  { unfold size. cbn [shape prod fold_right]. rewrite Hl. lia. }
  exists a. split; [exact E|]. split; [exact Hs|]. intros r c Hr Hc. rewrite Ha. cbn [shape at_ unlin lin prod fold_right hd]. f_equal. rewrite Nat.div_1_r. lia.
Qed.
Lemma rows_nth (pixel : nat -> nat -> Z) w n r c rest : r < n -> c < w -> nth (r * w + c) (flat_map (fun r => map (pixel r) (seq 0 w)) (seq 0 n) ++ rest) 0%Z = pixel r c.
Proof.
  intros Hr Hc. rewrite (flat_map_seq pixel w n) by lia. set (h := fun k => _). rewrite app_nth1 by (rewrite map_length, seq_length; nia).
  rewrite (nth_indep _ 0%Z (h 0)) by (rewrite map_length, seq_length; nia). rewrite map_nth, seq_nth by nia. unfold h.
  rewrite Nat.add_0_l, Nat.div_add_l, (Nat.div_small c), Nat.add_0_r by lia.
  replace ((r * w + c) mod w) with c by (now rewrite Nat.add_comm, Nat.mod_add, Nat.mod_small by lia). reflexivity.
Qed.
Lemma rows_len (pixel : nat -> nat -> Z) w n : List.length (flat_map (fun r => map (pixel r) (seq 0 w)) (seq 0 n)) = n * w.
Proof. rewrite (flat_map_const w); [now rewrite seq_length|]. intros. now rewrite map_length, seq_length. Qed.
Lemma nth_zeros n k : nth k (repeat 0%Z n) 0%Z = 0%Z.
Proof. apply nth_repeat. Qed.
Lemma skipn_zeros m n : skipn m (repeat 0%Z n) = repeat 0%Z (n - m).
Proof. revert m. induction n as [|n IH]; intros [|m]; cbn [repeat skipn Nat.sub]; try reflexivity. apply IH. Qed.
(** A file that holds the first [n] groups of eight rows (and then no more than one byte):
    those rows are right and the others are zero. *)
Theorem C41_truncated pillow file o h height width pixel n data tail fuel :
  Forall is_byte file -> header_is file o h -> coded_as h PRED -> ~ sixteen_bits h -> image_size h height width ->
  n <= height / 8 -> sections_of (planes pixel width 0 n) data -> file = data ++ tail -> n = height / 8 \/ List.length tail <= 1 ->
  8 * List.length file + 32 <= fuel ->
  exists a, msl_loader pillow fuel file = Ok a /\ shape a = [height; width] /\
    forall r c, r < height -> c < width -> at_ a [r; c] = if r <? 8 * n then pixel r c else 0%Z.
Proof.
  intros Hb Hh Hc H16 Hs Hn Hsec Ef Ht Hfu. destruct (size_eights h height width (header_bytes _ _ _ Hb Hh) Hs) as (Hh0 & Hw0 & Hh8 & Hev).
  rewrite (file_pred pillow fuel file o h height width Hb Hh Hc H16 Hs).
  assert (G : groups fuel (height / 8) width file (open_bits file) = Ok (flat_map (fun r => map (pixel r) (seq 0 width)) (seq 0 (8 * n)))).
  { replace (height / 8) with (n + (height / 8 - n)) by lia. pose proof (open_good file) as Hg. rewrite Ef in *.
    destruct (groups_ok pixel width Hev Hw0 n 0 [] data tail Hb eq_refl Hsec fuel (open_bits (data ++ tail)) (height / 8 - n) Hfu Hg) as (s' & Hg' & E). cbn [app] in E, Hg'. rewrite E.
    replace (groups fuel (height / 8 - n) width (data ++ tail) s') with (Ok [] : res (list Z)); [cbn [rbind]; rewrite app_nil_r; reflexivity|].
    destruct (height / 8 - n) as [|m] eqn:Em; [reflexivity|]. cbn [groups]. rewrite (proj2 (Nat.leb_le _ _)); [reflexivity|].
    destruct Ht as [Ht|Ht]; [lia|]. pose proof (good_bit0 _ _ _ Hg') as Ep. destruct Hg' as (_ & _ & Hp & H1 & H2). rewrite app_length in *. rewrite Ep in *.
    destruct (Nat.eq_dec (List.length data) (List.length data + List.length tail)) as [He|He]; [destruct (H2 He)|destruct H1]; lia. }
  rewrite G. cbn [rbind]. cbv zeta. rewrite rows_len, skipn_zeros.
  pose proof (Nat.div_mod_eq height 8) as D.
  match goal with |- context [reshape _ (mkArr [List.length ?b] _)] => set (buf := b) end.
  destruct (image_of height width buf) as (a & E & Hsh & Ha).
  { unfold buf. rewrite app_length, rows_len, repeat_length. nia. }
  exists a. split; [exact E|]. split; [exact Hsh|]. intros r c Hr Hc'. rewrite (Ha r c Hr Hc'). unfold buf. destruct (Nat.ltb_spec r (8 * n)) as [H|H]; [now apply rows_nth|].
  rewrite app_nth2 by (rewrite rows_len; nia). apply nth_zeros.
Qed.
Print Assumptions C41_truncated.
(** A complete file: the image, whatever follows. *)
Theorem C41_file pillow file o h height width pixel data tail fuel :
  Forall is_byte file -> header_is file o h -> coded_as h PRED -> ~ sixteen_bits h -> image_size h height width ->
  sections_of (planes pixel width 0 (height / 8)) data -> file = data ++ tail ->
  8 * List.length file + 32 <= fuel ->
  exists a, msl_loader pillow fuel file = Ok a /\ shape a = [height; width] /\
    forall r c, r < height -> c < width -> at_ a [r; c] = pixel r c.
Proof.
  intros Hb Hh Hc H16 Hs Hsec Ef Hfu. destruct (C41_truncated pillow file o h height width pixel (height / 8) data tail fuel Hb Hh Hc H16 Hs (le_n _) Hsec Ef (or_introl eq_refl) Hfu) as (a & E & Hsh & Ha).
  exists a. split; [exact E|]. split; [exact Hsh|]. intros r c Hr Hc'. rewrite (Ha r c Hr Hc').
  destruct (size_eights h height width (header_bytes _ _ _ Hb Hh) Hs) as (_ & _ & Hh8 & _). pose proof (Nat.div_mod_eq height 8) as D.
  now rewrite (proj2 (Nat.ltb_lt _ _)) by lia.
Qed.
Print Assumptions C41_file.

(** ** Every image can be written so *)
Lemma pack_byte b0 b1 b2 b3 b4 b5 b6 b7 : exists x, is_byte x /\ byte_bits x = [b0; b1; b2; b3; b4; b5; b6; b7].
Proof.
  exists (Z.b2z b7 + 2 * (Z.b2z b6 + 2 * (Z.b2z b5 + 2 * (Z.b2z b4 + 2 * (Z.b2z b3 + 2 * (Z.b2z b2 + 2 * (Z.b2z b1 + 2 * Z.b2z b0)))))))%Z.
  destruct b0, b1, b2, b3, b4, b5, b6, b7; (split; [unfold is_byte; cbn; lia|reflexivity]).
Qed.
Lemma pack n : forall bs, List.length bs = 8 * n -> exists data, Forall is_byte data /\ List.length data = n /\ stream data = bs.
Proof.
  induction n as [|n IH]; intros bs Hl; [exists []; destruct bs; [auto|discriminate]|].
  do 8 (destruct bs as [|? bs]; [cbn in Hl; lia|]). destruct (IH bs) as (data & Hb & Hn & Hs); [cbn [List.length] in Hl; lia|].
  destruct (pack_byte b b0 b1 b2 b3 b4 b5 b6) as (x & Hx & Hxb). exists (x :: data). split; [now constructor|]. split; [cbn [List.length]; now rewrite Hn|].
  change (stream (x :: data)) with (byte_bits x ++ stream data). now rewrite Hxb, Hs.
Qed.
Lemma plane_exists : forall vs prev, Forall is_byte vs -> exists bs, plane_coded prev vs bs.
Proof.
  induction vs as [|v vs IH]; intros prev H; [exists []; constructor|]. inversion H as [|? ? Hv Hvs]; subst. destruct (IH v Hvs) as [bs Hbs].
  assert (Hd : is_byte ((v - prev) mod 256)) by (apply Z.mod_pos_bound; lia). apply C41_code in Hd as (c & Hc & _). exists (c ++ bs). now constructor.
Qed.
Lemma section_exists vs gap : Forall is_byte vs -> Forall is_byte gap -> List.length gap mod 4 = 0 -> clear gap -> exists rest, Forall is_byte rest /\ section_of vs (gap ++ rest).
Proof.
  intros Hv Hg Hm Hcl. destruct (plane_exists vs 0%Z Hv) as [bs Hbs]. pose proof (Nat.div_mod_eq (List.length bs + 31) 32) as D. pose proof (Nat.mod_upper_bound (List.length bs + 31) 32 ltac:(lia)) as M.
  set (q := (List.length bs + 31) / 32) in *. set (pad := repeat false (32 * q - List.length bs)).
  destruct (pack (4 * q) (bs ++ pad)) as (body & Hb & Hl & Hst); [unfold pad; rewrite app_length, repeat_length; lia|].
  exists (marker ++ body). split; [apply Forall_app; split; [repeat constructor; unfold is_byte; lia|assumption]|].
  exists gap, body, bs, pad. split; [reflexivity|]. split; [assumption|]. split; [assumption|]. split; [assumption|]. split; [assumption|].
  split; [unfold pad; rewrite repeat_length; lia|]. rewrite Hl, Nat.mul_comm. apply Nat.mod_mul. lia.
Qed.
Lemma sections_exist : forall ps, Forall (Forall is_byte) ps -> exists data, Forall is_byte data /\ sections_of ps data.
Proof.
  induction ps as [|vs ps IH]; intros H; [exists []; split; constructor|]. inversion H as [|? ? Hv Hps]; subst. destruct (IH Hps) as (data & Hb & Hs).
  destruct (section_exists vs [] Hv (Forall_nil _) eq_refl) as (d & Hd & Hsec); [intros q Hq; cbn in Hq; lia|]. exists (d ++ data). split; [now apply Forall_app|]. now constructor.
Qed.
Theorem C41_every_image h pixel height width : Forall is_byte h -> List.length h = 64 -> clear h -> 8 <= height -> (forall r c, is_byte (pixel r c)) ->
  exists data, Forall is_byte data /\ sections_of (planes pixel width 0 (height / 8)) (h ++ data).
Proof.
  intros Hb Hl Hcl Hh Hp. assert (Hpl : Forall (Forall is_byte) (planes pixel width 0 (height / 8))).
  { apply Forall_forall. intros vs Hi. unfold planes in Hi. apply in_flat_map in Hi as (g & _ & Hi). apply Forall_forall. intros x Hx.
    cbn [In] in Hi. destruct Hi as [<-|[<-|[<-|[<-|[]]]]]; unfold plane in Hx; apply in_flat_map in Hx as (y & _ & Hx); apply in_map_iff in Hx as (z & <- & _); apply Hp. }
  destruct (planes pixel width 0 (height / 8)) as [|vs ps] eqn:E.
  - exfalso. assert (0 < height / 8) by (apply Nat.div_str_pos; lia). destruct (height / 8); [lia|]. discriminate.
  - inversion Hpl as [|? ? Hv Hps]; subst. destruct (section_exists vs h Hv Hb ltac:(now rewrite Hl) Hcl) as (d & Hd & Hsec). destruct (sections_exist ps Hps) as (data & Hdata & Hs).
    exists (d ++ data). split; [now apply Forall_app|]. rewrite app_assoc. now constructor.
Qed.
Print Assumptions C41_every_image.

(** ** Files that end too early *)
Lemma sections_split a : forall b data, sections_of (a ++ b) data -> exists d1 d2, data = d1 ++ d2 /\ sections_of a d1 /\ sections_of b d2.
Proof.
  induction a as [|vs a IH]; intros b data H; [exists [], data; repeat split; [constructor|assumption]|]. cbn [app] in H. inversion H as [|? ? d d' Hd Hs]; subst.
  destruct (IH _ _ Hs) as (d1 & d2 & -> & H1 & H2). exists (d ++ d1), d2. rewrite app_assoc. repeat split; [now constructor|assumption].
Qed.
Lemma sections_mod ps data : sections_of ps data -> List.length data mod 4 = 0.
Proof. induction 1 as [|vs ps d d' Hd Hs IH]; [reflexivity|]. destruct (section_mod _ _ Hd) as [M _]. now rewrite app_length, Nat.add_mod, M, IH by lia. Qed.
Definition group_planes (pixel : nat -> nat -> Z) width g := [plane pixel width g 0 0; plane pixel width g 0 1; plane pixel width g 1 0; plane pixel width g 1 1].
Lemma planes_S pixel width g n : planes pixel width g (S n) = group_planes pixel width g ++ planes pixel width (S g) n.
Proof. reflexivity. Qed.
Lemma planes_split pixel width : forall N g done vs rest, planes pixel width g N = done ++ vs :: rest ->
  exists n m ds rest', N = n + S m /\ done = planes pixel width g n ++ ds /\ group_planes pixel width (g + n) = ds ++ vs :: rest'.
Proof.
  induction N as [|N IH]; intros g done vs rest H; [destruct done; discriminate|]. rewrite planes_S in H.
  destruct (le_lt_dec 4 (List.length done)) as [Hle|Hlt].
  - symmetry in H. destruct (app_prefix done (vs :: rest) (group_planes pixel width g) (planes pixel width (S g) N) H Hle) as (done' & -> & E).
    destruct (IH _ _ _ _ E) as (n & m & ds & rest' & -> & -> & Eg). exists (S n), m, ds, rest'. split; [reflexivity|]. split; [rewrite planes_S, app_assoc; reflexivity|]. now rewrite Nat.add_succ_r.
  - assert (Hg : (done ++ [vs]) ++ rest = group_planes pixel width g ++ planes pixel width (S g) N) by (rewrite <- app_assoc; symmetry; exact H).
    destruct (app_prefix (group_planes pixel width g) (planes pixel width (S g) N) (done ++ [vs]) rest (eq_sym Hg)) as (r & E & _); [rewrite app_length; cbn; lia|].
    exists 0, N, done, r. split; [reflexivity|]. split; [reflexivity|]. rewrite Nat.add_0_r, E, <- app_assoc. reflexivity.
Qed.
(** decoding planes one after the other *)
Inductive chain (fuel : nat) (file : list Z) : list (list Z) -> input -> input -> Prop :=
| chain_nil s : chain fuel file [] s s
| chain_cons vs ps s s1 s' : decode_x fuel (List.length vs) file s = Ok (vs, s1) -> chain fuel file ps s1 s' -> chain fuel file (vs :: ps) s s'.
Lemma chain_ok ps data : sections_of ps data -> forall fuel pre post s, Forall is_byte (pre ++ data ++ post) -> List.length pre mod 4 = 0 -> 8 * List.length (pre ++ data ++ post) + 32 <= fuel ->
  good (pre ++ data ++ post) s (8 * List.length pre) -> exists s', chain fuel (pre ++ data ++ post) ps s s' /\ good (pre ++ data ++ post) s' (8 * List.length (pre ++ data)).
Proof.
  induction 1 as [|vs ps d d' Hd Hs IH]; intros fuel pre post s Hb Hm Hf Hg.
  - exists s. split; [constructor|]. now rewrite app_nil_r.
  - destruct (section_mod _ _ Hd) as [M _]. rewrite <- app_assoc in *. destruct (decode_ok pre vs d (d' ++ post) Hb Hm Hd fuel s Hf Hg) as (s1 & E & Hg1).
    assert (Ef : pre ++ d ++ d' ++ post = (pre ++ d) ++ d' ++ post) by now rewrite <- app_assoc. rewrite Ef in *.
    destruct (IH fuel (pre ++ d) post s1) as (s' & Hc & Hg'); [assumption|now rewrite app_length, Nat.add_mod, Hm, M by lia|assumption..|].
    exists s'. split; [econstructor; eassumption|]. now replace (pre ++ d ++ d') with ((pre ++ d) ++ d') by now rewrite <- app_assoc.
Qed.
Lemma group_fails pixel width g ds vs rest fuel m file s s' e : Nat.even width = true -> group_planes pixel width g = ds ++ vs :: rest -> chain fuel file ds s s' ->
  decode_x fuel (List.length vs) file s' = Err e -> pos s < List.length file -> groups fuel (S m) width file s = Err e.
Proof.
  intros Hev Hg Hch He Hp. assert (Hoff : forall i j, List.length (plane pixel width g i j) = 8 * width / 4).
  { intros i j. rewrite plane_len. apply Nat.even_spec in Hev as [h Hh]. rewrite Hh. rewrite (Nat.mul_comm 2 h), Nat.div_mul by lia. replace (8 * (h * 2)) with ((4 * h) * 4) by lia. now rewrite Nat.div_mul. }
  cbn [groups]. rewrite (proj2 (Nat.leb_gt _ _) Hp). unfold group_planes in Hg.
  destruct ds as [|a [|b [|c [|d ds]]]]; cbn [app] in Hg.
  - injection Hg as Ha _. inversion Hch; subst. rewrite Hoff in He. rewrite He. reflexivity.
  - injection Hg as Ha Hb _. inversion Hch as [|? ? ? s1 ? D1 C1]; subst. inversion C1; subst. rewrite Hoff in He, D1. rewrite D1. cbn [rbind fst snd]. rewrite He. reflexivity.
  - injection Hg as Ha Hb Hc _. inversion Hch as [|? ? ? s1 ? D1 C1]; subst. inversion C1 as [|? ? ? s2 ? D2 C2]; subst. inversion C2; subst. rewrite Hoff in He, D1, D2.
    rewrite D1. cbn [rbind fst snd]. rewrite D2. cbn [rbind fst snd]. rewrite He. reflexivity.
  - injection Hg as Ha Hb Hc Hd _. inversion Hch as [|? ? ? s1 ? D1 C1]; subst. inversion C1 as [|? ? ? s2 ? D2 C2]; subst. inversion C2 as [|? ? ? s3 ? D3 C3]; subst. inversion C3; subst. rewrite Hoff in He, D1, D2, D3.
    rewrite D1. cbn [rbind fst snd]. rewrite D2. cbn [rbind fst snd]. rewrite D3. cbn [rbind fst snd]. rewrite He. reflexivity.
  - injection Hg as _ _ _ _ Hg. destruct ds; discriminate.
Qed.
Lemma file_fails pillow file o h height width pixel done vs rest data part fuel e :
  Forall is_byte file -> header_is file o h -> coded_as h PRED -> ~ sixteen_bits h -> image_size h height width ->
  planes pixel width 0 (height / 8) = done ++ vs :: rest -> sections_of done data -> file = data ++ part ->
  List.length done mod 4 <> 0 \/ 2 <= List.length part -> 8 * List.length file + 32 <= fuel ->
  (forall s, good file s (8 * List.length data) -> decode_x fuel (List.length vs) file s = Err e) ->
  msl_loader pillow fuel file = Err e.
Proof.
  intros Hb Hh Hc H16 Hs Hall Hsec Ef Hpart Hfu Hfail. destruct (size_eights h height width (header_bytes _ _ _ Hb Hh) Hs) as (Hh0 & Hw0 & Hh8 & Hev).
  rewrite (file_pred pillow fuel file o h height width Hb Hh Hc H16 Hs).
  destruct (planes_split _ _ _ _ _ _ _ Hall) as (n & m & ds & rest' & En & Ed & Eg). rewrite En. cbn [Nat.add] in Eg. rewrite Ed in Hsec.
  destruct (sections_split _ _ _ Hsec) as (d1 & d2 & -> & H1 & H2).
  assert (E1 : file = [] ++ d1 ++ (d2 ++ part)) by (rewrite Ef, <- app_assoc; reflexivity).
  assert (R1 : exists s', good file s' (8 * List.length d1) /\ groups fuel (n + S m) width file (open_bits file) =
     rbind (groups fuel (S m) width file s') (fun rest => Ok (flat_map (fun r => map (pixel (8 * 0 + r)) (seq 0 width)) (seq 0 (8 * n)) ++ rest))).
  { pose proof (open_good file) as Hg. rewrite E1 in Hb, Hfu, Hg |- *. exact (groups_ok pixel width Hev Hw0 n 0 [] d1 (d2 ++ part) Hb eq_refl H1 fuel _ (S m) Hfu Hg). }
  destruct R1 as (s1 & G1 & R1). rewrite R1.
  assert (R2 : exists s', chain fuel file ds s1 s' /\ good file s' (8 * List.length (d1 ++ d2))).
  { pose proof (sections_mod _ _ H1). rewrite Ef, <- app_assoc in *. now apply chain_ok. }
  destruct R2 as (s2 & C2 & G2).
  assert (Hp : pos s1 < List.length file).
  { pose proof (good_bit0 _ _ _ G1) as Ep. destruct G1 as (_ & _ & _ & Hin & _).
    assert (Hl : List.length d1 + 2 <= List.length file).
    { rewrite Ef, !app_length. destruct Hpart as [Hd|Hd]; [|lia]. destruct ds as [|v ds]; [exfalso; apply Hd; rewrite Ed, app_nil_r; clear; assert (L : exists x, List.length (planes pixel width 0 n) = x * 4)|].
      - exists n. unfold planes. rewrite (flat_map_const 4); [now rewrite seq_length|reflexivity].
      - destruct L as [x ->]. apply Nat.mod_mul. lia.
      - inversion H2 as [|? ? x x' Hx Hx']; subst. destruct (section_mod _ _ Hx) as [_ L]. rewrite app_length. lia. }
    destruct Hin as [_ ->]; lia. }
  rewrite (group_fails pixel width n ds vs rest' fuel m file s1 s2 e Hev Eg C2 (Hfail _ G2) Hp). reflexivity.
Qed.
(** A file that ends inside a plane, at a multiple of four bytes, is an error; so is one
    that ends between the planes of a group. *)
Theorem C41_cut pillow file o h height width pixel done vs rest data part lost fuel :
  Forall is_byte file -> header_is file o h -> coded_as h PRED -> ~ sixteen_bits h -> image_size h height width ->
  planes pixel width 0 (height / 8) = done ++ vs :: rest -> sections_of done data -> section_of vs (part ++ lost) -> lost <> [] -> file = data ++ part ->
  List.length done mod 4 <> 0 \/ 2 <= List.length part -> List.length file mod 4 = 0 -> 8 * List.length (file ++ lost) + 32 <= fuel ->
  msl_loader pillow fuel file = Err OSError.
Proof.
  intros Hb Hh Hc H16 Hs Hall Hsec Hvs Hlost Ef Hpart Hmod Hfu. eapply file_fails; try eassumption; [rewrite app_length in Hfu; lia|].
  intros s Hg. rewrite Ef in *. apply (decode_cut data vs part lost); try assumption. exact (sections_mod _ _ Hsec).
Qed.
Print Assumptions C41_cut.
(** A file that ends with the last byte of a plane's code, but not at a multiple of four
    bytes: loading never ends. *)
Theorem C41_hang_refuted pillow file o h height width pixel done vs rest data gap body bs pad fuel :
  Forall is_byte file -> header_is file o h -> coded_as h PRED -> ~ sixteen_bits h -> image_size h height width ->
  planes pixel width 0 (height / 8) = done ++ vs :: rest -> sections_of done data ->
  file = data ++ gap ++ marker ++ body -> clear gap -> plane_coded 0 vs bs -> stream body = bs ++ pad -> List.length pad < 8 -> List.length file mod 4 <> 0 ->
  msl_loader pillow fuel file = Err OutOfFuel.
Proof.
  intros Hb Hh Hc H16 Hs Hall Hsec Ef Hcl Hpl Hst Hpad Hmod.
  assert (Big : forall fuel, 8 * List.length file + 32 <= fuel -> msl_loader pillow fuel file = Err OutOfFuel).
  { clear fuel. intros fuel Hfu. eapply file_fails; try eassumption; [right; rewrite !app_length; change (List.length marker) with 4; lia|].
    intros s Hg. set (m := List.length data + List.length gap).
    assert (Hlen : List.length file = m + 4 + List.length body) by (rewrite Ef, !app_length; change (List.length marker) with 4; unfold m; lia).
    assert (Hm : firstn 4 (skipn m file) = marker).
    { rewrite Ef, app_assoc, skipn_app, (skipn_all2 (data ++ gap)) by (rewrite app_length; lia). rewrite app_length. unfold m. rewrite Nat.sub_diag. reflexivity. }
    destruct (find_sync_ok file m Hb Hm fuel s (List.length data)) as (s1 & E1 & Hg1); [unfold m in *; lia..|exact Hg| |].
    { intros i Hi. rewrite Ef. now apply clear_file. }
    assert (Hs1 : skipn (8 * (m + 4)) (stream file) = bs ++ pad).
    { rewrite skipn_stream, Ef, !app_assoc, skipn_app.
      rewrite (skipn_all2 ((data ++ gap) ++ marker)) by (rewrite !app_length; change (List.length marker) with 4; unfold m; lia).
      rewrite !app_length. change (List.length marker) with 4. unfold m. rewrite Nat.sub_diag. exact Hst. }
    assert (Hbl : List.length bs + List.length pad = 8 * List.length body) by (rewrite <- app_length, <- Hst; apply stream_len).
    destruct (plane_ok file _ _ _ Hpl ltac:(unfold is_byte; lia) fuel s1 (8 * (m + 4)) pad) as (s2 & E2 & Hg2 & Hs2); [lia|assumption..|].
    destruct (skip_bits file fuel s2 _ (List.length file) Hg2) as (s3 & E3 & Hg3); [lia..|].
    unfold decode_x. rewrite E1. cbn [rbind fst snd negb]. rewrite E2. cbn [rbind fst snd]. rewrite E3. cbn [rbind].
    pose proof (good_bit0 _ _ _ Hg3) as Ep. rewrite (skip_stuck file _ eq_refl Hmod fuel s3 _ Hg3); [reflexivity|now rewrite Ep|now rewrite Ep]. }
  rewrite (file_pred pillow fuel file o h height width Hb Hh Hc H16 Hs). specialize (Big (fuel + (8 * List.length file + 32)) ltac:(lia)).
  rewrite (file_pred pillow _ file o h height width Hb Hh Hc H16 Hs) in Big.
  destruct (groups fuel (height / 8) width file (open_bits file)) as [out|e] eqn:E; [|destruct e; try reflexivity];
    exfalso; rewrite (groups_mono file width (height / 8) fuel) in Big by (try lia; congruence); rewrite E in Big; cbn [rbind] in Big; try discriminate.
  cbv zeta in Big. unfold reshape in Big. destruct (_ =? _) in Big; discriminate.
Qed.
Print Assumptions C41_hang_refuted.

(** ** Any other predicted file of bytes whose length is a multiple of four gives an image of
    the right size or an error *)
Theorem C41_any pillow file o h height width fuel :
  Forall is_byte file -> header_is file o h -> coded_as h PRED -> ~ sixteen_bits h -> image_size h height width ->
  List.length file mod 4 = 0 -> 8 * List.length file + 32 <= fuel ->
  msl_loader pillow fuel file = Err OSError \/ exists a, msl_loader pillow fuel file = Ok a /\ shape a = [height; width].
Proof.
  intros Hb Hh Hc H16 Hs Hm Hfu. destruct (size_eights h height width (header_bytes _ _ _ Hb Hh) Hs) as (Hh0 & Hw0 & Hh8 & Hev).
  rewrite (file_pred pillow fuel file o h height width Hb Hh Hc H16 Hs). pose proof (Nat.div_mod_eq height 8) as D.
  destruct (groups_total file width Hb Hm (height / 8) fuel (open_bits file) 0 (open_good file) Hfu) as [E|[out E]]; rewrite E; cbn [rbind]; [now left|right].
  cbv zeta. rewrite skipn_zeros. destruct (groups_len file width Hev _ _ _ _ E) as (m & Hmn & Hl).
  match goal with |- context [reshape _ (mkArr [List.length ?b] _)] => set (buf := b) end.
  destruct (image_of height width buf) as (a & E2 & Hsh & _); [unfold buf; rewrite app_length, repeat_length, Hl; nia|]. eauto.
Qed.
Print Assumptions C41_any.
(** the steps allowed make no difference, once they are enough *)
Theorem C41_fuel pillow file fuel fuel' : fuel <= fuel' -> msl_loader pillow fuel file <> Err OutOfFuel -> msl_loader pillow fuel' file = msl_loader pillow fuel file.
Proof.
  intros Hl H. unfold msl_loader in *. destruct (read_header file) as [raw|]; [|reflexivity]. cbv zeta in *. destruct (image_type (decode_header raw)); try reflexivity.
  unfold pdecom in *. rewrite (groups_mono file _ _ fuel fuel'); [reflexivity|assumption|]. intros E. rewrite E in H. now cbn in H.
Qed.
Print Assumptions C41_fuel.
(** 16 bits per pixel: the decoder knows bytes only, and there is never an image *)
Theorem C41_16bit_refuted pillow file o h height width fuel :
  Forall is_byte file -> header_is file o h -> coded_as h PRED -> sixteen_bits h -> image_size h height width ->
  forall a, msl_loader pillow fuel file <> Ok a.
Proof.
  intros Hb Hh Hc H16 Hs a. pose proof (header_bytes _ _ _ Hb Hh) as Hbh. destruct (size_eights h height width Hbh Hs) as (Hh0 & Hw0 & Hh8 & Hev).
  unfold msl_loader. rewrite (header_found file o h Hb Hh).
  destruct (header_ok h height width PRED Hbh Hs Hc) as (Hw & Hht & Ht). destruct Hh as (_ & (_ & Hl & _) & _). destruct (depth_ok h PRED Hbh Hl Hc ltac:(discriminate)) as (Hd & _ & Hbn).
  cbv zeta. rewrite Ht, Hw, Hht, Hbn, (Hd H16). unfold pdecom. pose proof (Nat.div_mod_eq height 8) as D.
  destruct (groups fuel (height / 8) width file (open_bits file)) as [out|e] eqn:E; cbn [rbind]; [|discriminate]. destruct (groups_len file width Hev _ _ _ _ E) as (m & Hm & Hlo).
  rewrite skipn_zeros. set (buf := out ++ _). assert (Hbl : List.length buf = height * width) by (unfold buf; rewrite app_length, repeat_length, Hlo; nia).
  unfold frombuffer. cbn [Nat.eqb]. destruct (Nat.even (List.length buf)); cbn [rbind]; [|discriminate]. unfold reshape, size. cbn [shape prod fold_right].
  destruct (Nat.eqb_spec (height * (width * 1)) (List.length buf / 2 * 1)) as [K|K]; [|discriminate]. exfalso. rewrite Hbl in K.
  pose proof (Nat.div_lt (height * width) 2 ltac:(nia) ltac:(lia)). lia.
Qed.
Print Assumptions C41_16bit_refuted.

(** ** Images that are not compressed *)
Lemma file_raw pillow fuel file o h height width : Forall is_byte file -> header_is file o h -> coded_as h RAW -> image_size h height width ->
  exists d, msl_loader pillow fuel file = rbind (read_raw_image file d (if thumbnail d then (width + 7) * (height + 7) * depth d else width * height * depth d)) (fun a => Ok (finish a)) /\
    Msl.width d = width /\ Msl.height d = height /\ bands d = 1 /\ (sixteen_bits h -> depth d = 2) /\ (~ sixteen_bits h -> depth d = 1) /\ (is_thumbnail h <-> thumbnail d = true).
Proof.
  intros Hb Hh Hc Hs. pose proof (header_bytes _ _ _ Hb Hh) as Hbh. exists (decode_header h). unfold msl_loader. rewrite (header_found file o h Hb Hh).
  destruct (header_ok h height width RAW Hbh Hs Hc) as (Hw & Hht & Ht). destruct Hh as (_ & (_ & Hl & _) & _). destruct (depth_ok h RAW Hbh Hl Hc ltac:(discriminate)) as (Hd2 & Hd1 & Hbn).
  pose proof (thumb_ok h Hbh Hl) as Hth. cbv zeta. rewrite Ht, Hw, Hht, Hbn, !Nat.mul_1_r. repeat split; auto; apply Hth.
Qed.
Lemma finish_one height width (a : arr Z) : shape a = [height; width; 1] -> shape (finish a) = [height; width] /\ forall r c, at_ (finish a) [r; c] = at_ a [r; c; 0].
Proof. intros H. unfold finish, moveaxis_2_0. rewrite H. cbn [nth shape tl]. rewrite Nat.eqb_refl. cbn [shape at_]. auto. Qed.
Lemma image_of_3 height width buf : List.length buf = height * width ->
  exists a, reshape [height; width; 1] (mkArr [List.length buf] (fun idx => nth (hd 0 idx) buf 0%Z)) = Ok a /\ shape a = [height; width; 1] /\
    forall r c, r < height -> c < width -> at_ a [r; c; 0] = nth (r * width + c) buf 0%Z.
Proof.
  intros Hl. destruct (reshape_ok [height; width; 1] (mkArr [List.length buf] (fun idx => nth (hd 0 idx) buf 0%Z))) as (a & E & Hs & Ha).
  { unfold size. cbn [shape prod fold_right]. rewrite Hl. lia. }
  exists a. split; [exact E|]. split; [exact Hs|]. intros r c Hr Hc. rewrite Ha. cbn [shape at_ unlin lin prod fold_right hd]. f_equal. rewrite Nat.div_1_r. lia.
Qed.
Lemma nth_firstn_in {A} (l : list A) n k d : k < n -> nth k (firstn n l) d = nth k l d.
Proof. revert n k. induction l as [|x l IH]; intros n k H; [rewrite firstn_nil; reflexivity|]. destruct n; [lia|]. destruct k; [reflexivity|]. cbn [firstn nth]. apply IH. lia. Qed.
Lemma nth_skipn_in {A} (l : list A) n k d : nth k (skipn n l) d = nth (n + k) l d.
Proof. revert l. induction n as [|n IH]; intros l; [reflexivity|]. destruct l; [destruct k; reflexivity|]. cbn [skipn Nat.add nth]. apply IH. Qed.
Lemma swap_len : forall l, List.length (swap_pairs l) = List.length l.
Proof. fix IH 1. intros [|a [|b l]]; [reflexivity..|]. cbn [swap_pairs List.length]. now rewrite IH. Qed.
Lemma swap_nth : forall l k, 2 * k + 1 < List.length l -> nth (2 * k) (swap_pairs l) 0%Z = nth (2 * k + 1) l 0%Z /\ nth (2 * k + 1) (swap_pairs l) 0%Z = nth (2 * k) l 0%Z.
Proof.
  fix IH 1. intros [|a [|b l]] k H; [cbn in H; lia..|]. cbn [List.length] in H. destruct k as [|k]; [split; reflexivity|].
  replace (2 * S k + 1) with (S (S (2 * k + 1))) by lia. replace (2 * S k) with (S (S (2 * k))) by lia. cbn [swap_pairs nth]. apply IH. lia.
Qed.
Lemma pairs_nth : forall l k, 2 * k + 1 < List.length l -> nth k (pairs l) 0%Z = (nth (2 * k) l 0 + 256 * nth (2 * k + 1) l 0)%Z.
Proof.
  fix IH 1. intros [|a [|b l]] k H; [cbn in H; lia..|]. cbn [List.length] in H. destruct k as [|k]; [reflexivity|].
  replace (2 * S k + 1) with (S (S (2 * k + 1))) by lia. replace (2 * S k) with (S (S (2 * k))) by lia. cbn [pairs nth]. apply IH. lia.
Qed.
Lemma pairs_len : forall l, List.length (pairs l) = List.length l / 2.
Proof. fix IH 1. intros [|a [|b l]]; [reflexivity..|]. cbn [pairs List.length]. rewrite IH. replace (S (S (List.length l))) with (List.length l + 1 * 2) by lia. rewrite Nat.div_add by lia. lia. Qed.
Lemma image_of_16 height width buf : List.length buf = height * width * 2 ->
  exists a, rbind (frombuffer 2 buf) (reshape [height; width; 1]) = Ok a /\ shape a = [height; width; 1] /\
    forall r c, r < height -> c < width -> at_ a [r; c; 0] = nth (r * width + c) (pairs buf) 0%Z.
Proof.
  intros Hl. unfold frombuffer. cbn [Nat.eqb]. replace (Nat.even (List.length buf)) with true by (symmetry; apply Nat.even_spec; exists (height * width); lia). cbn [rbind].
  replace (List.length buf / 2) with (List.length (pairs buf)) by (apply pairs_len). apply image_of_3. rewrite pairs_len, Hl. now rewrite Nat.div_mul.
Qed.
(** the pixels, for the size chosen *)
Lemma raw_core file n height width mx : n = 1 \/ n = 2 -> height * width * n <= mx -> n = 1 \/ Nat.even (List.length (firstn mx (skipn 64 file))) = true \/ height * width * n <= List.length (firstn mx (skipn 64 file)) ->
  exists a, rbind (rbind (frombuffer n (firstn (height * width * n) ((if n =? 2 then swap_pairs (firstn mx (skipn 64 file)) else firstn mx (skipn 64 file)) ++ repeat 0%Z (height * width * n - List.length (firstn mx (skipn 64 file))))))
      (reshape [height; width; 1])) (fun a => Ok (finish a)) = Ok a /\
    shape a = [height; width] /\ forall r c, r < height -> c < width -> at_ a [r; c] = sample n file (r * width + c).
Proof.
  intros Hn Hmx Hev. set (raw := firstn mx (skipn 64 file)) in *. set (total := height * width * n) in *.
  assert (Hraw : forall k, k < total -> nth k raw 0%Z = nth (64 + k) file 0%Z) by (intros k Hk; unfold raw; rewrite nth_firstn_in by lia; apply nth_skipn_in).
  assert (Hlen : List.length (firstn total ((if n =? 2 then swap_pairs raw else raw) ++ repeat 0%Z (total - List.length raw))) = total).
  { rewrite firstn_length, app_length, repeat_length. destruct (n =? 2); rewrite ?swap_len; lia. }
  assert (Fin : forall a, shape a = [height; width; 1] -> (forall r c, r < height -> c < width -> at_ a [r; c; 0] = sample n file (r * width + c)) ->
    exists b, rbind (Ok a) (fun a => Ok (finish a)) = Ok b /\ shape b = [height; width] /\ forall r c, r < height -> c < width -> at_ b [r; c] = sample n file (r * width + c)).
  { intros a Hsh Ha. exists (finish a). split; [reflexivity|]. destruct (finish_one height width a Hsh) as [F1 F2]. split; [exact F1|]. intros r c Hr Hc. rewrite F2. now apply Ha. }
  destruct Hn as [-> | ->]; cbn [Nat.eqb] in Hlen |- *.
  - set (buf := firstn total _) in *. destruct (image_of_3 height width buf) as (a & E & Hsh & Ha); [unfold total in Hlen; lia|].
    cbn [frombuffer Nat.eqb]. cbn [rbind]. rewrite E. apply Fin; [exact Hsh|]. intros r c Hr Hc. rewrite (Ha r c Hr Hc). unfold sample. cbn [Nat.eqb].
    assert (Hk : r * width + c < total) by (unfold total; nia). unfold buf. rewrite nth_firstn_in by exact Hk.
    destruct (le_lt_dec (List.length raw) (r * width + c)) as [L|L]; [rewrite app_nth2, nth_zeros by exact L|rewrite app_nth1 by exact L; now apply Hraw].
    rewrite <- Hraw by exact Hk. symmetry. now apply nth_overflow.
  - set (buf := firstn total _) in *. destruct (image_of_16 height width buf) as (a & E & Hsh & Ha); [exact Hlen|]. rewrite E. apply Fin; [exact Hsh|].
    intros r c Hr Hc. rewrite (Ha r c Hr Hc). unfold sample. cbn [Nat.eqb]. set (k := r * width + c). assert (Hk : 2 * k + 1 < total) by (unfold total, k; nia).
    rewrite pairs_nth by (rewrite Hlen; exact Hk). unfold buf. rewrite !nth_firstn_in by lia.
    destruct (le_lt_dec (List.length raw) (2 * k + 1)) as [L|L].
    + assert (L2 : List.length raw <= 2 * k).
      { destruct Hev as [Hev|[Hev|Hev]]; [discriminate| |lia]. apply Nat.even_spec in Hev as [x Hx]. lia. }
      rewrite !app_nth2, !nth_zeros by (rewrite swap_len; lia). replace (64 + 2 * k + 1) with (64 + (2 * k + 1)) by lia. rewrite <- !Hraw by lia. rewrite !nth_overflow by lia. reflexivity.
    + destruct (swap_nth raw k L) as [S1 S2]. rewrite !app_nth1 by (rewrite swap_len; lia). rewrite S1, S2. replace (64 + 2 * k + 1) with (64 + (2 * k + 1)) by lia. rewrite !Hraw by lia. lia.
Qed.
Lemma pixel_size_ok h n d : pixel_size h n -> (sixteen_bits h -> depth d = 2) -> (~ sixteen_bits h -> depth d = 1) -> depth d = n /\ (n = 1 \/ n = 2).
Proof. intros [[H ->]|[H ->]] H2 H1; auto. Qed.
(** Images that are not thumbnails: row by row from byte 64 on; pixels that are missing are
    0.  The header may begin later in the file, which changes nothing. *)
Theorem C41_raw pillow fuel file o h height width n : Forall is_byte file -> header_is file o h -> coded_as h RAW -> image_size h height width -> pixel_size h n ->
  ~ is_thumbnail h \/ List.length file = 64 + height * width * n -> n = 1 \/ Nat.even (List.length file) = true \/ 64 + height * width * n <= List.length file ->
  exists a, msl_loader pillow fuel file = Ok a /\ shape a = [height; width] /\ forall r c, r < height -> c < width -> at_ a [r; c] = sample n file (r * width + c).
Proof.
  intros Hb Hh Hc Hs Hps Hth Hev. destruct (file_raw pillow fuel file o h height width Hb Hh Hc Hs) as (d & E & Hw & Hht & Hbn & Hd2 & Hd1 & Ht).
  destruct (pixel_size_ok h n d Hps Hd2 Hd1) as [Hd Hn]. rewrite E. unfold read_raw_image. rewrite Hw, Hht, Hbn, Hd. rewrite (Nat.mul_comm width height).
  assert (H64 : 64 <= List.length file) by (destruct Hh as (_ & (<- & Hl & _) & _); rewrite firstn_length, skipn_length in Hl; lia).
  set (mx := if thumbnail d then _ else _).
  assert (Hmx : (negb (List.length (firstn mx (skipn 64 file)) =? height * width * n) && thumbnail d)%bool = false /\ height * width * n <= mx).
  { unfold mx. destruct (thumbnail d) eqn:Et; [|split; [apply andb_false_r|lia]]. destruct Hth as [Hno|Hlen]; [exfalso; apply Hno; now apply Ht|].
    rewrite !firstn_all2 by (rewrite skipn_length; nia). split; [|nia]. rewrite skipn_length. replace (List.length file - 64) with (height * width * n) by lia. now rewrite Nat.eqb_refl. }
  destruct Hmx as [-> Hmx]. apply (raw_core file n height width mx Hn Hmx).
  rewrite firstn_length, skipn_length. destruct Hev as [Hev|[Hev|Hev]]; [now left|right|right; right; lia].
  destruct (le_lt_dec (height * width * n) (List.length file - 64)) as [L|L]; [right; lia|left].
  assert (Hm2 : mx = height * width * n \/ List.length file - 64 <= mx).
  { unfold mx in *. destruct (thumbnail d); [right; nia|now left]. }
  replace (Nat.min mx (List.length file - 64)) with (List.length file - 64) by lia. apply Nat.even_spec in Hev as [x Hx]. apply Nat.even_spec. exists (x - 32). lia.
Qed.
Print Assumptions C41_raw.
Lemma find_first {A} (f : A -> bool) l i x : nth_error l i = Some x -> f x = true -> (forall j y, j < i -> nth_error l j = Some y -> f y = false) -> find f l = Some x.
Proof.
  revert i. induction l as [|y l IH]; intros i Hi Hx Hj; [destruct i; discriminate|]. cbn [find]. destruct i as [|i].
  - injection Hi as ->. now rewrite Hx.
  - rewrite (Hj 0 y) by (try reflexivity; lia). apply (IH i); [exact Hi|exact Hx|]. intros j z Hl Hz. apply (Hj (S j) z); [lia|exact Hz].
Qed.
Lemma sizes_nth h w k : k < 64 -> nth_error (sizes h w) k = Some (h + k / 8, w + k mod 8).
Proof.
  intros Hk. unfold sizes. replace (seq h 8) with (map (Nat.add h) (seq 0 8)) by (rewrite <- seq_add; now rewrite Nat.add_0_r).
  rewrite flat_map_concat_map, map_map, <- flat_map_concat_map.
  rewrite (flat_map_ext_in _ (fun y => map (fun x => (h + y, w + x)) (seq 0 8))).
  2: { intros y _. replace (seq w 8) with (map (Nat.add w) (seq 0 8)) by (rewrite <- seq_add; now rewrite Nat.add_0_r). now rewrite map_map. }
  rewrite (flat_map_seq (fun y x => (h + y, w + x)) 8 8) by lia. rewrite nth_error_map. rewrite nth_error_nth' with (d := 0) by (rewrite seq_length; lia). rewrite seq_nth by lia. reflexivity.
Qed.
Lemma fits_ok file n i mx : 64 <= List.length file -> List.length file - 64 <= mx -> fits (List.length (firstn mx (skipn 64 file))) n i = true <-> thumbnail_fits file n i.
Proof.
  intros H64 Hmx. rewrite firstn_length, skipn_length, Nat.min_r by exact Hmx. unfold fits, thumbnail_fits. rewrite orb_true_iff, !Z.eqb_eq. lia.
Qed.
(** A thumbnail: the first of the 64 sizes that fits the length of the file. *)
Theorem C41_thumbnail pillow fuel file o h height width n size : Forall is_byte file -> header_is file o h -> coded_as h RAW -> image_size h height width -> pixel_size h n ->
  is_thumbnail h -> List.length file <> 64 + height * width * n -> List.length file <= 64 + (height + 7) * (width + 7) * n ->
  near height width size -> thumbnail_fits file n size -> (forall other, near height width other -> before other size -> ~ thumbnail_fits file n other) ->
  exists a, msl_loader pillow fuel file = Ok a /\ shape a = [fst size; snd size] /\ forall r c, r < fst size -> c < snd size -> at_ a [r; c] = sample n file (r * snd size + c).
Proof.
  intros Hb Hh Hc Hs Hps Hth Hne Hmx Hnear Hfit Hno. destruct (file_raw pillow fuel file o h height width Hb Hh Hc Hs) as (d & E & Hw & Hht & Hbn & Hd2 & Hd1 & Ht).
  destruct (pixel_size_ok h n d Hps Hd2 Hd1) as [Hd Hn]. rewrite E. unfold read_raw_image. rewrite Hw, Hht, Hbn, Hd, (proj1 Ht Hth). rewrite (Nat.mul_comm width height).
  assert (H64 : 64 <= List.length file) by (destruct Hh as (_ & (<- & Hl & _) & _); rewrite firstn_length, skipn_length in Hl; lia).
  set (mx := (width + 7) * (height + 7) * n). assert (Hmx' : List.length file - 64 <= mx) by (unfold mx; lia).
  assert (Hlen : List.length (firstn mx (skipn 64 file)) = List.length file - 64) by (rewrite firstn_length, skipn_length; lia).
  replace (List.length (firstn mx (skipn 64 file)) =? height * width * n) with false by (symmetry; apply Nat.eqb_neq; lia). cbn [negb andb].
  rewrite (find_first _ _ (8 * (fst size - height) + (snd size - width)) size).
  - destruct size as [h' w']. cbn [fst snd] in *.
    apply (raw_core file n h' w' mx Hn).
    + destruct Hfit as [Hfit|Hfit]; cbn [fst snd] in Hfit; lia.
    + rewrite Hlen. right. right. destruct Hfit as [Hfit|Hfit]; cbn [fst snd] in Hfit; lia.
  - destruct Hnear as [N1 N2]. rewrite sizes_nth by lia. rewrite (Nat.mul_comm 8), Nat.div_add_l, (Nat.div_small (snd size - width)) by lia.
    replace (((fst size - height) * 8 + (snd size - width)) mod 8) with (snd size - width) by (now rewrite Nat.add_comm, Nat.mod_add, Nat.mod_small by lia).
    destruct size as [h' w']. cbn [fst snd] in *. do 2 f_equal; lia.
  - now apply fits_ok.
  - intros j y Hj Hy. destruct Hnear as [N1 N2]. rewrite sizes_nth in Hy by lia. assert (y = (height + j / 8, width + j mod 8)) as -> by congruence. clear Hy. apply not_true_iff_false. rewrite fits_ok by assumption. pose proof (Nat.div_mod_eq j 8). pose proof (Nat.mod_upper_bound j 8).
    apply Hno; unfold near, before; cbn [fst snd]; [split; split; try lia; apply Nat.add_lt_mono_l; lia|lia].
Qed.
Print Assumptions C41_thumbnail.
Lemma filled_len N (A : list Z) : List.length (firstn N (A ++ repeat 0%Z (N - List.length A))) = N.
Proof. rewrite firstn_length, app_length, repeat_length. lia. Qed.
(** A thumbnail no size fits: 150 rows of 206 pixels, or an error if pixels have 16 bits.  No
    more than seven rows and columns more than the header tells are read, so that this is
    also what happens to the largest thumbnails. *)
Theorem C41_thumbnail_default pillow fuel file o h height width n : Forall is_byte file -> header_is file o h -> coded_as h RAW -> image_size h height width -> pixel_size h n ->
  is_thumbnail h -> let used := Nat.min (List.length file - 64) ((height + 7) * (width + 7) * n) in
  used <> height * width * n -> (forall size, near height width size -> fst size * snd size * n + 32 <> used /\ fst size * snd size * n + 56 <> used) ->
  if n =? 2 then msl_loader pillow fuel file = Err ValueError
  else exists a, msl_loader pillow fuel file = Ok a /\ shape a = [150; 206].
Proof.
  intros Hb Hh Hc Hs Hps Hth used Hne Hno. destruct (file_raw pillow fuel file o h height width Hb Hh Hc Hs) as (d & E & Hw & Hht & Hbn & Hd2 & Hd1 & Ht).
  destruct (pixel_size_ok h n d Hps Hd2 Hd1) as [Hd Hn]. rewrite E. unfold read_raw_image. rewrite Hw, Hht, Hbn, Hd, (proj1 Ht Hth). rewrite (Nat.mul_comm width height).
  set (mx := (width + 7) * (height + 7) * n). set (raw := firstn mx (skipn 64 file)).
  assert (Hlen : List.length raw = used) by (unfold raw, used, mx; rewrite firstn_length, skipn_length; lia).
  replace (List.length raw =? height * width * n) with false by (symmetry; apply Nat.eqb_neq; lia). cbn [negb andb].
  replace (find (fits (List.length raw) n) (sizes height width)) with (@None (nat * nat)).
  2: { symmetry. destruct (find (fits (List.length raw) n) (sizes height width)) as [i|] eqn:F; [exfalso|reflexivity]. apply find_some in F as [Fi Ff].
       assert (N : near height width i) by (unfold sizes in Fi; apply in_flat_map in Fi as (y & Hy & Fi); apply in_map_iff in Fi as (x & <- & Hx); apply in_seq in Hy, Hx; split; assumption).
       destruct (Hno i N) as [N1 N2]. unfold fits in Ff. rewrite orb_true_iff, !Z.eqb_eq in Ff. rewrite Hlen in Ff. lia. }
  assert (Hsw : List.length raw = List.length (if n =? 2 then swap_pairs raw else raw)) by (destruct (n =? 2); rewrite ?swap_len; reflexivity). rewrite Hsw.
  set (buf := firstn (150 * 206) _). assert (Hbuf : List.length buf = 150 * 206) by (apply filled_len). clearbody buf. clear Hsw Hno. revert Hbuf. generalize (eq_refl (150 * 206)). generalize (150 * 206) at 2 3. intros N HN Hbuf.
  destruct Hn as [-> | ->]; cbn [Nat.eqb].
  - destruct (image_of_3 150 206 buf) as (a & E2 & Hsh & _); [lia|]. unfold frombuffer. cbn [Nat.eqb rbind]. rewrite E2. cbn [rbind]. exists (finish a). split; [reflexivity|]. now apply finish_one.
  - unfold frombuffer. cbn [Nat.eqb]. replace (Nat.even (List.length buf)) with true by (symmetry; apply Nat.even_spec; exists (75 * 206); lia). cbn [rbind].
    unfold reshape. replace (prod [150; 206; 1] =? size _) with false; [reflexivity|]. symmetry. apply Nat.eqb_neq. unfold size. cbn [shape]. rewrite !prod_cons. change (prod []) with 1.
    rewrite Hbuf. replace N with (75 * 206 * 2) by lia. rewrite Nat.div_mul by lia. lia.
Qed.
Print Assumptions C41_thumbnail_default.
(** so that a thumbnail of 10 rows of 8 pixels is taken for one of 8 rows of 10 *)
Theorem C41_thumbnail_refuted pillow fuel file o h : Forall is_byte file -> header_is file o h -> coded_as h RAW -> image_size h 8 8 -> ~ sixteen_bits h -> is_thumbnail h ->
  List.length file = 64 + 10 * 8 + 32 -> exists a, msl_loader pillow fuel file = Ok a /\ shape a = [8; 10].
Proof.
  intros Hb Hh Hc Hs H16 Ht Hl. destruct (C41_thumbnail pillow fuel file o h 8 8 1 (8, 10) Hb Hh Hc Hs (or_intror (conj H16 eq_refl)) Ht) as (a & E & Hsh & _); [lia..|split; cbn [fst snd]; lia|left; cbn [fst snd]; lia| |eauto].
  intros [y x] [N1 N2] [B|[B1 B2]] [F|F]; cbn [fst snd] in *; try lia; subst y; lia.
Qed.
Print Assumptions C41_thumbnail_refuted.
(** A header that does not begin the file: the header's own bytes are taken for the first
    pixels. *)
Theorem C41_offset_refuted pillow fuel file o h height width junk pixels : Forall is_byte file -> header_is file o h -> coded_as h RAW -> image_size h height width -> ~ sixteen_bits h -> ~ is_thumbnail h ->
  file = junk ++ h ++ pixels -> List.length junk = o -> 0 < o < 64 ->
  exists a, msl_loader pillow fuel file = Ok a /\ at_ a [0; 0] = nth (64 - o) h 0%Z.
Proof.
  intros Hb Hh Hc Hs H16 Ht Ef Hj Ho. destruct (C41_raw pillow fuel file o h height width 1 Hb Hh Hc Hs (or_intror (conj H16 eq_refl)) (or_introl Ht) (or_introl eq_refl)) as (a & E & _ & Ha).
  destruct (size_eights h height width (header_bytes _ _ _ Hb Hh) Hs) as (Hh0 & Hw0 & _). exists a. split; [exact E|]. rewrite (Ha 0 0 Hh0 Hw0). unfold sample. cbn [Nat.eqb]. replace (64 + (0 * width + 0)) with 64 by lia.
  destruct Hh as (_ & (_ & Hl & _) & _). rewrite Ef, app_nth2, app_nth1 by lia. now rewrite Hj.
Qed.
Print Assumptions C41_offset_refuted.

(** ** JPEG images *)
Lemma find_soi_some : forall skipped jpeg data, begins_at data skipped jpeg -> find_soi data = Some jpeg.
Proof.
  induction skipped as [|x l IH]; intros jpeg data (-> & H & Hno); cbn [app] in *.
  - destruct jpeg as [|a [|b j]]; try discriminate. cbn [firstn] in H. unfold SOI in H. injection H as -> ->. reflexivity.
  - assert (Hr : find_soi (l ++ jpeg) = Some jpeg).
    { apply IH. repeat split; [exact H|]. intros q Hq. apply (Hno (S q)). cbn [List.length]. lia. }
    destruct (l ++ jpeg) as [|y l'] eqn:E; [destruct l; [cbn in E; subst jpeg; discriminate|discriminate]|].
    cbn [find_soi]. destruct (Z.eqb_spec x 255) as [->|]; [|exact Hr]. destruct (Z.eqb_spec y 216) as [->|]; [|exact Hr]. exfalso. apply (Hno 0); [cbn; lia|reflexivity].
Qed.
Lemma find_soi_none data : (forall q, firstn 2 (skipn q data) <> SOI) -> find_soi data = None.
Proof.
  induction data as [|x l IH]; intros H; [reflexivity|]. assert (Hr : find_soi l = None) by (apply IH; intros q; apply (H (S q))). cbn [find_soi]. destruct l as [|y l]; [reflexivity|].
  destruct (Z.eqb_spec x 255) as [->|]; [|exact Hr]. destruct (Z.eqb_spec y 216) as [->|]; [|exact Hr]. exfalso. now apply (H 0).
Qed.
Lemma size_exists h : Forall is_byte h -> List.length h = 64 -> exists height width, image_size h height width.
Proof.
  intros Hb Hl. assert (D : forall k def, k < 64 -> exists n size, nth_error h k = Some n /\ dimension n def size).
  { intros k def Hk. exists (nth k h 0%Z). destruct (Z.eq_dec (nth k h 0%Z) 0) as [E|E].
    - exists def. split; [apply nth_error_nth'; lia|now left].
    - exists (Z.to_nat (8 * nth k h 0%Z)). split; [apply nth_error_nth'; lia|right]. split; [exact E|]. assert (is_byte (nth k h 0%Z)) by (now apply byte_at_byte). unfold is_byte in *. lia. }
  destruct (D 23 1200) as (a & s & Ea & Da); [lia|]. destruct (D 22 1648) as (b & t & Eb & Db); [lia|]. exists s, t, a, b. auto.
Qed.
Lemma file_jpeg pillow fuel file o h : Forall is_byte file -> header_is file o h -> coded_as h JPEG -> msl_loader pillow fuel file = rbind (read_jpeg_image pillow file) (fun a => Ok (finish a)).
Proof.
  intros Hb Hh Hc. unfold msl_loader. rewrite (header_found file o h Hb Hh). pose proof (header_bytes _ _ _ Hb Hh) as Hbh. destruct (size_exists h Hbh) as (height & width & Hs); [now destruct Hh as (_ & (_ & Hl & _) & _)|].
  destruct (header_ok h height width JPEG Hbh Hs Hc) as (_ & _ & Ht). cbv zeta. now rewrite Ht.
Qed.
(** Pillow gets the bytes from the first JPEG image after byte 64 on; what it makes of them is
    returned, the bands first if there are three of them.  The header's own size does not
    matter. *)
Theorem C41_jpeg pillow fuel file o h skipped jpeg : Forall is_byte file -> header_is file o h -> coded_as h JPEG -> begins_at (skipn 64 file) skipped jpeg ->
  (forall e, pillow jpeg = Err e -> msl_loader pillow fuel file = Err e) /\
  (forall img height width, pillow jpeg = Ok img -> getbands img = 3 -> shape (rgb img) = [height; width; 3] ->
    exists a, msl_loader pillow fuel file = Ok a /\ shape a = [3; height; width] /\ forall b r c, at_ a [b; r; c] = at_ (rgb img) [r; c; b]) /\
  (forall img height width, pillow jpeg = Ok img -> getbands img <> 3 -> shape (gray img) = [height; width] ->
    exists a, msl_loader pillow fuel file = Ok a /\ shape a = [height; width] /\ forall r c, at_ a [r; c] = at_ (gray img) [r; c]).
Proof.
  intros Hb Hh Hc Hj. rewrite (file_jpeg pillow fuel file o h Hb Hh Hc). unfold read_jpeg_image. rewrite (find_soi_some _ _ _ Hj). split; [|split].
  - intros e E. now rewrite E.
  - intros img height width E Hn Hsh. rewrite E. cbn [rbind]. rewrite Hn. cbn [Nat.eqb]. eexists. split; [reflexivity|]. unfold finish, moveaxis_2_0. rewrite Hsh. cbn [nth shape Nat.eqb at_]. auto.
  - intros img height width E Hn Hsh. rewrite E. cbn [rbind]. rewrite (proj2 (Nat.eqb_neq _ _) Hn). eexists. split; [reflexivity|]. destruct (Nat.eqb_spec (getbands img) 1) as [H1|H1].
    + unfold finish, moveaxis_2_0, newaxis. cbn [shape at_]. rewrite Hsh. cbn [app nth shape tl Nat.eqb at_ removelast]. auto.
    + unfold finish. rewrite Hsh. auto.
Qed.
Print Assumptions C41_jpeg.
Theorem C41_jpeg_none pillow fuel file o h : Forall is_byte file -> header_is file o h -> coded_as h JPEG -> (forall q, firstn 2 (skipn q (skipn 64 file)) <> SOI) -> msl_loader pillow fuel file = Err ValueError.
Proof. intros Hb Hh Hc Hj. rewrite (file_jpeg pillow fuel file o h Hb Hh Hc). unfold read_jpeg_image. now rewrite (find_soi_none _ Hj). Qed.
Print Assumptions C41_jpeg_none.

(** ** Files without header *)
Theorem C41_no_header pillow fuel file : Forall is_byte file -> (forall o h, o < 1000 -> ~ header_at file o h) -> msl_loader pillow fuel file = Err OSError.
Proof.
  intros Hb Hno. unfold msl_loader. replace (read_header file) with (@None (list Z)); [reflexivity|]. symmetry. unfold read_header.
  assert (G : forall n o, o + n = 1000 -> read_header_from file o n = None); [|now apply G].
  induction n as [|n IH]; intros o Ho; [reflexivity|]. cbn [read_header_from]. destruct (Nat.ltb_spec (List.length (firstn 64 (skipn o file))) 64) as [L|L]; [reflexivity|].
  destruct (word (firstn 64 (skipn o file)) 15 =? HEADER_MAGIC1)%Z eqn:E; [exfalso|apply IH; lia].
  apply (Hno o (firstn 64 (skipn o file))); [lia|]. split; [reflexivity|]. rewrite firstn_length in *. split; [lia|].
  apply magic_ok; [now apply Forall_part|rewrite firstn_length; lia|exact E].
Qed.
Print Assumptions C41_no_header.

(** ** Cases *)
(** a header, with the bytes [x] at places 4 to 7 and [y] at 34 *)
Definition some_header (first : Z) (x : list Z) (y : Z) : list Z :=
  [first; 0; 0; 0]%Z ++ x ++ repeat 0%Z 14 ++ [1; 1; 0; 0; 0; 0; 0; 0; 0; 0; 0; 0; y]%Z ++ repeat 0%Z 25 ++ [16; 16; 204; 40]%Z.
(** 16 zeros; a one and then no change *)
Definition zeros_coded : list Z := marker ++ repeat 17%Z 8.
Definition ones_coded : list Z := marker ++ 49%Z :: repeat 17%Z 7.
Lemma code_0 : codeword [false; false; false; true] 0.
Proof. do 3 (apply left_node; [reflexivity|]). exact (right_value 3 eq_refl). Qed.
Lemma code_1 : codeword [false; false; true; true] 1.
Proof. do 2 (apply left_node; [reflexivity|]). apply right_node; [reflexivity|]. exact (right_value 23 eq_refl). Qed.
Lemma steady v : is_byte v -> forall n, plane_coded v (repeat v n) (flat_map (fun _ => [false; false; false; true]) (repeat v n)).
Proof.
  intros Hv. induction n as [|n IH]; [apply plane_nil|]. cbn [repeat flat_map]. apply plane_cons; [exact Hv| |exact IH]. rewrite Z.sub_diag. exact code_0.
Qed.
Lemma clear_nil : clear []. Proof. intros q Hq. cbn in Hq. lia. Qed.
Lemma zeros_section : section_of (repeat 0%Z 16) zeros_coded.
Proof.
  exists [], (repeat 17%Z 8), (flat_map (fun _ => [false; false; false; true]) (repeat 0%Z 16)), []. split; [reflexivity|]. split; [reflexivity|]. split; [apply clear_nil|]. split; [apply steady; unfold is_byte; lia|].
  split; [reflexivity|]. split; [cbn; lia|reflexivity].
Qed.
Lemma ones_section gap : List.length gap mod 4 = 0 -> clear gap -> section_of (repeat 1%Z 16) (gap ++ ones_coded).
Proof.
  intros Hm Hg. exists gap, (49%Z :: repeat 17%Z 7), ([false; false; true; true] ++ flat_map (fun _ => [false; false; false; true]) (repeat 1%Z 15)), []. split; [reflexivity|]. split; [exact Hm|]. split; [exact Hg|].
  split; [|split; [reflexivity|split; [cbn; lia|reflexivity]]]. change (repeat 1%Z 16) with (1%Z :: repeat 1%Z 15). apply plane_cons; [unfold is_byte; lia|exact code_1|apply steady; unfold is_byte; lia].
Qed.
Lemma bytes_ok l : forallb (fun b => (0 <=? b)%Z && (b <? 256)%Z) l = true -> Forall is_byte l.
Proof. intros H. apply Forall_forall. intros x Hx. apply (proj1 (forallb_forall _ _) H) in Hx. apply andb_prop in Hx as [H1 H2]. apply Z.leb_le in H1. apply Z.ltb_lt in H2. now split. Qed.
Lemma begins_file first x y rest : List.length x = 4 -> header_is (some_header first x y ++ rest) 0 (some_header first x y).
Proof. intros Hx. do 4 (destruct x as [|? x]; [discriminate|]). destruct x; [|discriminate]. split; [lia|]. split; [split; [reflexivity|split; reflexivity]|]. intros o h' Ho. lia. Qed.
Lemma some_size first x y : List.length x = 4 -> image_size (some_header first x y) 8 8.
Proof. intros Hx. do 4 (destruct x as [|? x]; [discriminate|]). destruct x; [|discriminate]. exists 1%Z, 1%Z. repeat split; right; lia. Qed.
Lemma some_depth first x y : List.length x = 4 -> ~ sixteen_bits (some_header first x y).
Proof. intros Hx. do 4 (destruct x as [|? x]; [discriminate|]). destruct x; [|discriminate]. discriminate. Qed.
Lemma some_coded first x : List.length x = 4 -> coded_as (some_header first x 1) PRED /\ coded_as (some_header first x 0) RAW.
Proof. intros Hx. do 4 (destruct x as [|? x]; [discriminate|]). destruct x; [|discriminate]. split; do 2 eexists; repeat split; lia. Qed.
Lemma clear_dec l : forallb (fun q => negb (if list_eq_dec Z.eq_dec (firstn 4 (skipn q (l ++ marker))) marker then true else false)) (seq 0 (List.length l)) = true -> clear l.
Proof. intros H q Hq E. assert (H' := proj1 (forallb_forall _ _) H q ltac:(apply in_seq; lia)). cbv beta in H'. destruct (list_eq_dec Z.eq_dec _ _); [discriminate|contradiction]. Qed.
(** The marker inside the header (here in its time of day): the header's own bytes are
    decoded, although the file is complete. *)
Theorem C41_header_marker_refuted pillow fuel : 928 <= fuel -> exists h data a,
  Forall is_byte (h ++ data) /\ header_is (h ++ data) 0 h /\ coded_as h PRED /\ ~ sixteen_bits h /\ image_size h 8 8 /\
  sections_of (planes (fun _ _ => 0%Z) 8 0 (8 / 8)) data /\ msl_loader pillow fuel (h ++ data) = Ok a /\ at_ a [0; 0] = 237%Z.
Proof.
  intros Hfu. set (h := some_header 0 marker 1). set (data := zeros_coded ++ zeros_coded ++ zeros_coded ++ zeros_coded ++ []).
  assert (E : match msl_loader pillow 928 (h ++ data) with Ok a => Z.eqb (at_ a [0; 0]) 237 | Err _ => false end = true) by (vm_compute; reflexivity).
  destruct (msl_loader pillow 928 (h ++ data)) as [a|e] eqn:R; [|discriminate]. exists h, data, a.
  split; [apply bytes_ok; vm_compute; reflexivity|]. split; [now apply begins_file|]. split; [now apply some_coded|]. split; [now apply some_depth|]. split; [now apply some_size|].
  split; [|split; [rewrite <- R; apply C41_fuel; [exact Hfu|rewrite R; discriminate]|now apply Z.eqb_eq]].
  change (planes (fun _ _ => 0%Z) 8 0 (8 / 8)) with [repeat 0%Z 16; repeat 0%Z 16; repeat 0%Z 16; repeat 0%Z 16]. unfold data. repeat (constructor; [exact zeros_section|]). constructor.
Qed.
Print Assumptions C41_header_marker_refuted.
(** the hypotheses of the theorems above, for an image of 8 rows of 8 ones *)
Example C41_meets : let h := some_header 0 [0; 0; 0; 0]%Z 1 in let data := (h ++ ones_coded) ++ ones_coded ++ ones_coded ++ ones_coded ++ [] in
  Forall is_byte data /\ header_is data 0 h /\ coded_as h PRED /\ ~ sixteen_bits h /\ image_size h 8 8 /\ clear h /\
  sections_of (planes (fun _ _ => 1%Z) 8 0 (8 / 8)) data /\ List.length data mod 4 = 0 /\ 8 * List.length data + 32 <= 928.
Proof.
  cbv zeta. split; [apply bytes_ok; vm_compute; reflexivity|]. split; [rewrite <- app_assoc; now apply begins_file|]. split; [now apply some_coded|]. split; [now apply some_depth|]. split; [now apply some_size|].
  assert (C : clear (some_header 0 [0; 0; 0; 0]%Z 1)) by (apply clear_dec; vm_compute; reflexivity). split; [exact C|].
  split; [|split; [reflexivity|vm_compute; lia]]. change (planes (fun _ _ => 1%Z) 8 0 (8 / 8)) with [repeat 1%Z 16; repeat 1%Z 16; repeat 1%Z 16; repeat 1%Z 16].
  constructor; [now apply ones_section|]. do 3 (constructor; [exact (ones_section [] eq_refl clear_nil)|]). constructor.
Qed.
(** one without its end, one with half a plane more *)
Example C41_cut_meets : planes (fun _ _ => 1%Z) 8 0 (8 / 8) = [repeat 1%Z 16; repeat 1%Z 16] ++ repeat 1%Z 16 :: [repeat 1%Z 16] /\ section_of (repeat 1%Z 16) (marker ++ 49%Z :: repeat 17%Z 7).
Proof. split; [reflexivity|exact (ones_section [] eq_refl clear_nil)]. Qed.
(** uncompressed ones, and a thumbnail *)
Example C41_raw_meets : let h := some_header 0 [0; 0; 0; 0]%Z 0 in let t := some_header 8 [0; 0; 0; 0]%Z 0 in
  (Forall is_byte (h ++ repeat 7%Z 64) /\ header_is (h ++ repeat 7%Z 64) 0 h /\ coded_as h RAW /\ image_size h 8 8 /\ pixel_size h 1 /\ ~ is_thumbnail h) /\
  (header_is (t ++ repeat 7%Z 112) 0 t /\ coded_as t RAW /\ image_size t 8 8 /\ ~ sixteen_bits t /\ is_thumbnail t /\ near 8 8 (8, 10) /\ thumbnail_fits (t ++ repeat 7%Z 112) 1 (8, 10)) /\
  (is_thumbnail t /\ let used := Nat.min (List.length (t ++ repeat 7%Z 65) - 64) ((8 + 7) * (8 + 7) * 1) in
   used <> 8 * 8 * 1 /\ forall size, near 8 8 size -> fst size * snd size * 1 + 32 <> used /\ fst size * snd size * 1 + 56 <> used).
Proof.
  cbv zeta. split; [|split].
  - split; [apply bytes_ok; vm_compute; reflexivity|]. split; [now apply begins_file|]. split; [now apply some_coded|]. split; [now apply some_size|]. split; [right; split; [now apply some_depth|reflexivity]|].
    intros (a & E & H). injection E as <-. discriminate.
  - split; [now apply begins_file|]. split; [now apply some_coded|]. split; [now apply some_size|]. split; [now apply some_depth|]. split; [now exists 8%Z|]. split; [split; cbn; lia|left; reflexivity].
  - split; [now exists 8%Z|]. split; [vm_compute; lia|]. intros [y x] [[N1 _] [N2 _]]. cbn [fst snd] in *. change (Nat.min _ _) with 65. split; nia.
Qed.
(** a header at byte 8, a JPEG image after three bytes *)
Example C41_other_meets : let h := some_header 0 [0; 0; 0; 0]%Z 0 in let file := repeat 0%Z 8 ++ h ++ repeat 7%Z 64 in
  header_is file 8 h /\ Forall is_byte file /\ begins_at [1; 255; 2; 255; 216; 0]%Z [1; 255; 2]%Z [255; 216; 0]%Z /\ (forall o h', o < 1000 -> ~ header_at [1; 2; 3]%Z o h').
Proof.
  cbv zeta. split; [split; [lia|split; [split; [reflexivity|split; reflexivity]|]]|split; [apply bytes_ok; vm_compute; reflexivity|split]].
  - intros o h' Ho (<- & _ & E). do 8 (destruct o as [|o]; [vm_compute in E; discriminate|]). lia.
  - split; [reflexivity|]. split; [reflexivity|]. intros q Hq. do 3 (destruct q as [|q]; [discriminate|]). cbn in Hq. lia.
  - intros o h' _ (<- & L & _). rewrite firstn_length, skipn_length in L. cbn [List.length] in L. lia.
Qed.
