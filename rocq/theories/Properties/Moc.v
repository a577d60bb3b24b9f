(** Properties C39 and C40: MGS MOC predictively compressed images. *)
From Coq Require Import ZArith Lia.
From Verif.Base Require Import Py.
From Verif.Model Require Import MocTables Moc.
From Verif.Spec Require Import Moc.
From Verif.Proofs Require Import Moc.
Open Scope nat_scope.

(** * C39: the code tables *)
(** No code word begins another one; two residuals have the same code word only if they mean
    the same. *)
Lemma walk_more t : forall fuel c index v r, walk fuel t c index = Some (v, []) -> walk fuel t (c ++ r) index = Some (v, r).
Proof.
  induction fuel as [|fuel IH]; intros c index v r W; [discriminate|]. destruct c as [|b c]; [discriminate|]. cbn [walk app] in *. cbv zeta in *.
  destruct (Z.land _ _ =? 0)%Z; [injection W as <- ->; reflexivity|]. now apply IH.
Qed.
Theorem C39_prefix_free k v w : k < 8 -> is_byte v -> is_byte w -> prefix_of (codeword k v) (codeword k w) ->
  codeword k v = codeword k w /\ means k v = means k w /\ (k <> 7 -> v = w).
Proof.
  intros Hk Hv Hw [r E]. destruct (codeword_walk k v Hk Hv) as [V _]. destruct (codeword_walk k w Hk Hw) as [W _].
  rewrite E in W. rewrite (walk_more _ _ _ _ _ r V) in W. injection W as M R. subst r. rewrite app_nil_r in E.
  split; [now symmetry|]. split; [exact M|]. intros N. unfold means in M. now rewrite (proj2 (Nat.eqb_neq _ _) N) in M.
Qed.
Print Assumptions C39_prefix_free.
(** Any residuals, coded one after the other from any bit of the data on, are read back, and
    nothing beyond their code words is used up. *)
Theorem C39_reads_back k t vs data s pos : k < 8 -> make_huffman_tree k = Ok t -> Forall is_byte vs -> at_pos data s pos ->
  stands data pos (flat_map (codeword k) vs) ->
  exists s', decomp_none (List.length vs) t data s = Ok (map (means k) vs, s') /\ at_pos data s' (pos + List.length (flat_map (codeword k) vs)).
Proof.
  intros Hk Et F. assert (Ht : t = table k) by (rewrite (table_ok k Hk) in Et; congruence). subst t. clear Et. revert s pos. induction F as [|v vs Hv F IH]; intros s pos A S.
  - exists s. split; [reflexivity|]. cbn. now rewrite Nat.add_0_r.
  - cbn [flat_map] in S. apply stands_app in S as [S1 S2]. destruct (next_value_ok k v data s pos Hk Hv A S1) as (s1 & E1 & A1).
    destruct (IH s1 _ A1 S2) as (s2 & E2 & A2). exists s2. cbn [List.length decomp_none map flat_map]. rewrite E1. cbn [rbind fst snd]. rewrite E2. split; [reflexivity|].
    rewrite app_length, Nat.add_assoc. exact A2.
Qed.
Print Assumptions C39_reads_back.
(** all paths through a table *)
Fixpoint leaves (fuel : nat) (t : tables) (index : nat) (path : list bool) : option (list (list bool * Z)) :=
  match fuel with
  | O => None
  | S fuel =>
      let side (b : bool) : option (list (list bool * Z)) := let f := if b then 2%Z else 1%Z in let x := byte_at (if b then right_ t else left_ t) index in
        if (Z.land (byte_at (flags t) index) f =? 0)%Z then Some [(rev (b :: path), x)] else leaves fuel t (Z.to_nat x) (b :: path) in
      match side false, side true with Some a, Some b => Some (a ++ b) | _, _ => None end
  end.
Definition bools_eqb (a b : list bool) : bool := if list_eq_dec Bool.bool_dec a b then true else false.
Definition table_complete (t : tables) (k : nat) : bool :=
  let words := map (fun v => (codeword k (Z.of_nat v), means k (Z.of_nat v))) (seq 0 256) in
  match leaves 256 t 0 [] with
  | None => false
  | Some l => forallb (fun pv => existsb (fun cw => bools_eqb (fst pv) (fst cw) && (snd pv =? snd cw)%Z) words) l
  end.
Lemma table_complete_spec t k : table_complete t k = true -> exists l, leaves 256 t 0 [] = Some l /\
  forall c v, In (c, v) l -> exists w, is_byte w /\ c = codeword k w /\ v = means k w.
Proof.
  unfold table_complete. cbv zeta. set (words := map _ _). assert (W : forall cw, In cw words -> exists w, is_byte w /\ cw = (codeword k w, means k w)).
  { intros cw I. apply in_map_iff in I as (n & <- & I). apply in_seq in I. exists (Z.of_nat n). split; [unfold is_byte; lia|reflexivity]. }
  clearbody words. destruct (leaves 256 t 0 []) as [l|]; [|discriminate]. intros C. exists l. split; [reflexivity|]. intros c v I. rewrite forallb_forall in C. specialize (C _ I).
  apply existsb_exists in C as (cw & Iw & Eq). destruct (W _ Iw) as (w & B & ->). apply andb_true_iff in Eq as [E1 E2]. cbn [fst snd] in *. apply Z.eqb_eq in E2.
  unfold bools_eqb in E1. destruct (list_eq_dec Bool.bool_dec c (codeword k w)) as [->|]; [|discriminate]. now exists w.
Qed.
Lemma tables_complete : forallb (fun k => table_complete (table k) k) (seq 0 8) = true.
Proof. vm_compute. reflexivity. Qed.
Lemma traverse_leaves t data : forall fuel index path l s pos, leaves fuel t index path = Some l -> at_pos data s pos ->
  exists c v s', traverse fuel t data s index = Ok (v, s') /\ In (rev path ++ c, v) l /\ stands data pos c /\ at_pos data s' (pos + List.length c).
Proof.
  induction fuel as [|fuel IH]; intros index path l s pos H A; [discriminate|]. cbn [leaves] in H. cbv zeta in H.
  destruct (if (Z.land (byte_at (flags t) index) 1 =? 0)%Z then _ else _) as [la|] eqn:Ea; [|discriminate].
  destruct (if (Z.land (byte_at (flags t) index) 2 =? 0)%Z then _ else _) as [lb|] eqn:Eb; [|discriminate]. injection H as <-.
  cbn [traverse]. rewrite (queue_bit _ _ _ A). destruct (nth pos (bits_of data) false) eqn:B; cbn [negb].
  - destruct (Z.land (byte_at (flags t) index) 2 =? 0)%Z.
    + injection Eb as <-. exists [true]. do 2 eexists. split; [reflexivity|]. split; [apply in_or_app; right; left; reflexivity|]. split.
      * intros i L. cbn in L. assert (i = 0) by lia. subst i. now rewrite Nat.add_0_r.
      * cbn [List.length]. replace (pos + 1) with (S pos) by lia. now apply advance_pos.
    + destruct (IH _ _ _ _ _ Eb (advance_pos _ _ _ A)) as (c & v & s' & E & I & St & A'). exists (true :: c), v, s'. split; [exact E|]. split.
      * apply in_or_app. right. cbn [rev] in I. now rewrite <- app_assoc in I.
      * split; [|cbn [List.length]; now replace (pos + S (List.length c)) with (S pos + List.length c) by lia].
        intros [|i] L; [now rewrite Nat.add_0_r|]. cbn [List.length] in L. cbn [nth]. rewrite St by lia. f_equal. lia.
  - destruct (Z.land (byte_at (flags t) index) 1 =? 0)%Z.
    + injection Ea as <-. exists [false]. do 2 eexists. split; [reflexivity|]. split; [apply in_or_app; left; left; reflexivity|]. split.
      * intros i L. cbn in L. assert (i = 0) by lia. subst i. now rewrite Nat.add_0_r.
      * cbn [List.length]. replace (pos + 1) with (S pos) by lia. now apply advance_pos.
    + destruct (IH _ _ _ _ _ Ea (advance_pos _ _ _ A)) as (c & v & s' & E & I & St & A'). exists (false :: c), v, s'. split; [exact E|]. split.
      * apply in_or_app. left. cbn [rev] in I. now rewrite <- app_assoc in I.
      * split; [|cbn [List.length]; now replace (pos + S (List.length c)) with (S pos + List.length c) by lia].
        intros [|i] L; [now rewrite Nat.add_0_r|]. cbn [List.length] in L. cbn [nth]. rewrite St by lia. f_equal. lia.
Qed.
(** Whatever the data, reading a value gives the meaning of a residual whose code word
    stands there (the data are continued with zeros); reading always ends. *)
Theorem C39_complete k t data s pos : k < 8 -> make_huffman_tree k = Ok t -> at_pos data s pos ->
  exists v s', is_byte v /\ next_value t data s = Ok (means k v, s') /\ stands data pos (codeword k v) /\ at_pos data s' (pos + List.length (codeword k v)).
Proof.
  intros Hk Et A. pose proof tables_complete as C. rewrite forallb_forall in C. specialize (C k ltac:(apply in_seq; lia)). cbv beta in C.
  assert (Ht : t = table k) by (rewrite (table_ok k Hk) in Et; congruence). rewrite <- Ht in C. clear Ht Et.
  destruct (table_complete_spec t k C) as (l & El & Hl). destruct (traverse_leaves t data _ _ _ _ _ _ El A) as (c & v & s' & E & I & St & A').
  cbn [rev app] in I. destruct (Hl _ _ I) as (w & B & -> & ->). exists w, s'. split; [exact B|]. split; [exact E|]. now split.
Qed.
Print Assumptions C39_complete.
(** Tables 8 to 15, which the header could name, do not exist. *)
Theorem C39_other_tables k : 8 <= k -> make_huffman_tree k = Err IndexError.
Proof. intros H. unfold make_huffman_tree. now rewrite (proj2 (Nat.ltb_lt 7 k)) by lia. Qed.
Print Assumptions C39_other_tables.
(** Non-vacuity: table 5 and the residuals 0 and 255 (-1), from the fourth bit on. *)
Example C39_meets : exists t s, make_huffman_tree 5 = Ok t /\ at_pos [64; 2]%Z s 3 /\ stands [64; 2]%Z 3 (flat_map (codeword 5) [0; 255]%Z) /\
  exists s', decomp_none 2 t [64; 2]%Z s = Ok ([0; 255]%Z, s') /\ at_pos [64; 2]%Z s' 11.
Proof.
  exists (table 5), (mkBits 8 3 0). split; [exact (table_ok 5 ltac:(lia))|]. split; [repeat split; cbn; lia|]. split.
  - intros i L. do 8 (destruct i as [|i]; [vm_compute; reflexivity|]). vm_compute in L. lia.
  - eexists. split; [vm_compute; reflexivity|]. repeat split; cbn; lia.
Qed.

(** * C40: images *)
(** A file with the fragments of a compressed image (or one that is only coded) gives the
    image: any label, any division into fragments, whatever follows the last one. *)
Theorem C40_file transform label init final tail k kind height width rows :
  List.length label = LABEL_SIZE -> Forall well_formed (init ++ [final]) -> Forall (fun f => method f kind) (init ++ [final]) ->
  Forall (fun f => is_last f false) init -> is_last final true ->
  code_table final k -> k < 8 -> image_size final height width -> 0 < height -> 0 < width ->
  List.length rows = height -> Forall (fun r => List.length r = width) rows ->
  image_coded k kind rows (flat_map content (init ++ [final])) ->
  moc_loader transform (file_of label (init ++ [final]) ++ tail) = Ok rows.
Proof.
  intros Ll Wf Mf Li Lf Ck Hk Sz Ph Pw Lr Fr C. apply Forall_app in Wf as [Wi Wl]. apply Forall_app in Mf as [Mi Ml]. inversion Wl; subst. inversion Ml; subst.
  unfold moc_loader. set (fuel := S _).
  assert (Fu : List.length init < fuel).
  { unfold fuel, file_of. rewrite flat_map_app, !app_length. assert (G : forall l, List.length l <= List.length (flat_map (fun f => head f ++ content f ++ [check f]) l)).
    { induction l as [|f l IHl]; [reflexivity|]. cbn [flat_map]. rewrite !app_length. cbn [List.length]. lia. } specialize (G init). lia. }
  clearbody fuel. rewrite flat_map_app in C. cbn [flat_map] in C. rewrite app_nil_r in C.
  enough (G : forall init done first acc fuel, List.length init < fuel -> Forall well_formed init -> Forall (fun f => method f kind) init -> Forall (fun f => is_last f false) init ->
    fragments transform fuel (label ++ done ++ flat_map frag_bytes (init ++ [final]) ++ tail) (List.length done) first acc [] =
    make_pred_image (parse_header (head final)) (acc ++ flat_map content init ++ content final)).
  { unfold file_of. rewrite <- app_assoc. change (fun f => head f ++ content f ++ [check f]) with frag_bytes.
    pose proof (G init [] None [] fuel Fu Wi Mi Li) as E. cbn [app List.length] in E. rewrite E. eapply image_ok; try eassumption; try reflexivity. }
  clear init Wi Mi Li Fu fuel C. intros init. induction init as [|f init IH]; intros done first acc fuel Fu Wi Mi Li; (destruct fuel as [|fuel]; [lia|]).
  - cbn [app flat_map]. rewrite app_nil_r. now apply (fragment_last transform fuel label done final tail first acc kind).
  - inversion Wi; subst. inversion Mi; subst. inversion Li; subst. cbn [app flat_map]. rewrite <- !app_assoc.
    rewrite (fragment_step transform fuel label done f (flat_map frag_bytes (init ++ [final]) ++ tail) first acc kind) by assumption.
    replace (label ++ done ++ frag_bytes f ++ flat_map frag_bytes (init ++ [final]) ++ tail) with (label ++ (done ++ frag_bytes f) ++ flat_map frag_bytes (init ++ [final]) ++ tail) by (now rewrite <- !app_assoc).
    rewrite IH by (assumption || (cbn in Fu; lia)). now rewrite <- app_assoc.
Qed.
Print Assumptions C40_file.
(** The same if no fragment says that it is the last: the first header is used. *)
Theorem C40_no_end transform label first more tail k kind height width rows :
  List.length label = LABEL_SIZE -> Forall well_formed (first :: more) -> Forall (fun f => method f kind) (first :: more) ->
  Forall (fun f => is_last f false) (first :: more) -> List.length tail < 62 ->
  code_table first k -> k < 8 -> image_size first height width -> 0 < height -> 0 < width ->
  List.length rows = height -> Forall (fun r => List.length r = width) rows ->
  image_coded k kind rows (flat_map content (first :: more)) ->
  moc_loader transform (file_of label (first :: more) ++ tail) = Ok rows.
Proof.
  intros Ll Wf Mf Li Lt Ck Hk Sz Ph Pw Lr Fr C. assert (W1 := Wf). inversion W1 as [|? ? Wfirst _]; subst. assert (M1 := Mf). inversion M1 as [|? ? Mfirst _]; subst.
  unfold moc_loader. set (fuel := S _).
  assert (Fu : List.length (first :: more) < fuel).
  { unfold fuel, file_of. rewrite !app_length. assert (G : forall l, List.length l <= List.length (flat_map (fun f => head f ++ content f ++ [check f]) l)).
    { induction l as [|f l IHl]; [reflexivity|]. cbn [flat_map]. rewrite !app_length. cbn [List.length]. lia. } specialize (G (first :: more)). lia. }
  clearbody fuel.
  assert (Fin : forall acc, make_pred_image (parse_header (head first)) acc = Ok rows -> finish (parse_header (head first)) acc [] = Ok rows).
  { intros acc E. destruct Mfirst as (c & Ec & Ex & _). unfold finish. rewrite (comp0 first c Ec), Ex. exact E. }
  enough (G : forall l done h acc fuel, List.length l < fuel -> Forall well_formed l -> Forall (fun f => method f kind) l -> Forall (fun f => is_last f false) l ->
    fragments transform fuel (label ++ done ++ flat_map frag_bytes l ++ tail) (List.length done) (Some h) acc [] = finish h (acc ++ flat_map content l) []).
  { unfold file_of. rewrite <- app_assoc. change (fun f => head f ++ content f ++ [check f]) with frag_bytes. destruct fuel as [|fuel]; [lia|].
    cbn [flat_map]. rewrite <- app_assoc. pose proof (fragment_step transform fuel label [] first (flat_map frag_bytes more ++ tail) None [] kind Ll Wfirst Mfirst) as E.
    cbv zeta in E. cbn [app List.length] in E. inversion Li; subst. rewrite E by assumption. inversion Wf; subst. inversion Mf; subst.
    pose proof (G more (frag_bytes first) (parse_header (head first)) (content first) fuel) as E2. rewrite E2; try assumption; [|cbn in Fu; lia]. apply Fin. cbn [flat_map] in C.
    eapply image_ok; try eassumption; try reflexivity. }
  clear - Ll Lt. intros l. induction l as [|f l IH]; intros done h acc fuel Fu Wi Mi Li; (destruct fuel as [|fuel]; [lia|]).
  - cbn [app flat_map]. rewrite app_nil_r. now apply fragment_none.
  - inversion Wi; subst. inversion Mi; subst. inversion Li; subst. cbn [flat_map]. rewrite <- !app_assoc.
    rewrite (fragment_step transform fuel label done f (flat_map frag_bytes l ++ tail) (Some h) acc kind) by assumption.
    replace (label ++ done ++ frag_bytes f ++ flat_map frag_bytes l ++ tail) with (label ++ (done ++ frag_bytes f) ++ flat_map frag_bytes l ++ tail) by (now rewrite <- !app_assoc).
    rewrite IH by (assumption || (cbn in Fu; lia)). now rewrite <- app_assoc.
Qed.
Print Assumptions C40_no_end.

(** Every image has compressed data, with every lossless table and every kind of prediction. *)
Lemma pack8 b0 b1 b2 b3 b4 b5 b6 b7 : exists b, is_byte b /\ byte_bits b = [b0; b1; b2; b3; b4; b5; b6; b7].
Proof.
  exists (Z.b2z b0 + 2 * (Z.b2z b1 + 2 * (Z.b2z b2 + 2 * (Z.b2z b3 + 2 * (Z.b2z b4 + 2 * (Z.b2z b5 + 2 * (Z.b2z b6 + 2 * Z.b2z b7)))))))%Z.
  split; [unfold is_byte; destruct b0, b1, b2, b3, b4, b5, b6, b7; cbn; lia|]. destruct b0, b1, b2, b3, b4, b5, b6, b7; reflexivity.
Qed.
Lemma pack n : forall bs, List.length bs = 8 * n -> exists data, Forall is_byte data /\ bits_of data = bs /\ List.length data = n.
Proof.
  induction n as [|n IH]; intros bs L.
  - destruct bs; [|cbn in L; lia]. exists []. repeat split. constructor.
  - do 8 (destruct bs as [|? bs]; [cbn in L; lia|]). destruct (IH bs) as (data & F & E & Ld); [cbn in L; lia|].
    destruct (pack8 b b0 b1 b2 b3 b4 b5 b6) as (x & Bx & Ex). exists (x :: data). split; [now constructor|]. split; [|cbn; now rewrite Ld].
    change (bits_of (x :: data)) with (byte_bits x ++ bits_of data). now rewrite Ex, E.
Qed.
Lemma pack_even bs : exists data pad, Forall is_byte data /\ bits_of data = bs ++ pad /\ List.length pad < 16 /\ Nat.even (List.length data) = true.
Proof.
  set (h := (List.length bs + 15) / 16). pose proof (Nat.div_mod (List.length bs + 15) 16 ltac:(lia)) as D. fold h in D. pose proof (Nat.mod_upper_bound (List.length bs + 15) 16 ltac:(lia)) as U.
  destruct (pack (2 * h) (bs ++ repeat false (16 * h - List.length bs))) as (data & F & E & L); [rewrite app_length, repeat_length; lia|].
  exists data, (repeat false (16 * h - List.length bs)). split; [exact F|]. split; [exact E|]. split; [rewrite repeat_length; lia|]. rewrite L. apply Nat.even_spec. now exists h.
Qed.
Lemma pixel_codable k q p : k < 7 -> is_byte p -> exists bs, pixel_coded k q p bs.
Proof.
  intros Hk Hp. exists (codeword k ((p - q) mod 256)), ((p - q) mod 256)%Z. unfold is_byte in *. pose proof (Z.mod_pos_bound (p - q) 256 ltac:(lia)). split; [lia|]. split; [|reflexivity].
  unfold means. rewrite (proj2 (Nat.eqb_neq k 7)) by lia. rewrite Z.add_mod_idemp_r by lia. replace (q + (p - q))%Z with p by lia. now rewrite Z.mod_small by lia.
Qed.
Lemma row_codable k kind row : k < 7 -> Forall is_byte row -> forall left above, exists bs, row_coded k kind left above row bs.
Proof.
  intros Hk F. induction F as [|p row Hp F IH]; intros left above; [eexists; constructor|].
  destruct (pixel_codable k (match kind with NoPrediction => 0%Z | FromLeft => left | FromAbove => hd 0%Z above end) p Hk Hp) as [bs B].
  destruct (IH p (tl above)) as [bs' B']. exists (bs ++ bs'). now constructor.
Qed.
Lemma rows_codable k kind rows : k < 7 -> Forall (Forall is_byte) rows -> forall above, exists bs, rows_coded k kind above rows bs.
Proof.
  intros Hk F. induction F as [|row rows Hr F IH]; intros above; [eexists; constructor|].
  destruct (row_codable k kind row Hk Hr 0%Z above) as [bs B]. destruct (IH row) as [bs' B']. exists (bs ++ bs'). now constructor.
Qed.
Theorem C40_every_image k kind rows : k < 7 -> Forall (Forall is_byte) rows -> rows <> [] -> exists data, Forall is_byte data /\ image_coded k kind rows data.
Proof.
  intros Hk. assert (M : is_byte 202%Z /\ is_byte 240%Z) by (unfold is_byte; lia). destruct M as [M1 M2].
  destruct (match kind with NoPrediction => true | _ => false end) eqn:K.
  - intros F _. destruct (rows_codable k kind rows Hk F []) as [bs B]. destruct (pack_even bs) as (data & pad & Fd & E & _). exists data. split; [exact Fd|].
    apply (coded_raw k kind rows data bs pad); [now destruct kind|exact B|exact E].
  - assert (NK : kind <> NoPrediction) by (intros ->; discriminate). remember (List.length rows) as n eqn:Ln. assert (Le : List.length rows <= n) by lia. clear Ln. revert rows Le.
    induction n as [|n IH]; intros rows Le F NE; [destruct rows; [congruence|cbn in Le; lia]|].
    destruct rows as [|first rows]; [congruence|]. inversion F as [|? ? Ff Fr]; subst. destruct (Nat.le_gt_cases (List.length rows) 127) as [L|L].
    + destruct (rows_codable k kind rows Hk Fr first) as [bs B]. destruct (pack_even bs) as (body & pad & Fd & E & _). exists (202%Z :: 240%Z :: first ++ body). split.
      * constructor; [exact M1|]. constructor; [exact M2|]. apply Forall_app. now split.
      * apply (coded_last k kind first rows body bs pad); (assumption || lia).
    + rewrite <- (firstn_skipn 127 rows). rewrite <- (firstn_skipn 127 rows) in Fr. apply Forall_app in Fr as [F1 F2].
      destruct (rows_codable k kind _ Hk F1 first) as [bs B]. destruct (pack_even bs) as (body & pad & Fd & E & Lp & Ev).
      destruct (IH (skipn 127 rows)) as (data & Fdd & Cd); [rewrite skipn_length; cbn in Le; lia|exact F2|intros E0; apply (f_equal (@List.length _)) in E0; rewrite skipn_length in E0; cbn in E0; lia|].
      exists (202%Z :: 240%Z :: first ++ body ++ data). split.
      * constructor; [exact M1|]. constructor; [exact M2|]. apply Forall_app. split; [exact Ff|]. apply Forall_app. now split.
      * apply (coded_more k kind first _ body bs pad); try assumption. rewrite firstn_length. lia.
Qed.
Print Assumptions C40_every_image.

(** Whatever the data: reading ends, and what comes out is an image: rows of the width the
    header gives, no more than it gives, all bytes. *)
Lemma traverse_total t data : forall fuel index path l s, leaves fuel t index path = Some l -> exists c v s', traverse fuel t data s index = Ok (v, s') /\ In (c, v) l.
Proof.
  induction fuel as [|fuel IH]; intros index path l s H; [discriminate|]. cbn [leaves] in H. cbv zeta in H.
  destruct (if (Z.land (byte_at (flags t) index) 1 =? 0)%Z then _ else _) as [la|] eqn:Ea; [|discriminate].
  destruct (if (Z.land (byte_at (flags t) index) 2 =? 0)%Z then _ else _) as [lb|] eqn:Eb; [|discriminate]. injection H as <-.
  cbn [traverse]. destruct (Z.land (bit_queue s) 1 =? 0)%Z.
  - destruct (Z.land (byte_at (flags t) index) 1 =? 0)%Z.
    + injection Ea as <-. do 3 eexists. split; [reflexivity|]. apply in_or_app. left. left. reflexivity.
    + destruct (IH _ _ _ (advance data s) Ea) as (c & v & s' & E & I). exists c, v, s'. split; [exact E|]. apply in_or_app. now left.
  - destruct (Z.land (byte_at (flags t) index) 2 =? 0)%Z.
    + injection Eb as <-. do 3 eexists. split; [reflexivity|]. apply in_or_app. right. left. reflexivity.
    + destruct (IH _ _ _ (advance data s) Eb) as (c & v & s' & E & I). exists c, v, s'. split; [exact E|]. apply in_or_app. now right.
Qed.
Lemma next_total k t data s : k < 8 -> t = table k -> exists v s', next_value t data s = Ok (v, s') /\ is_byte v.
Proof.
  intros Hk Ht. pose proof tables_complete as C. rewrite forallb_forall in C. specialize (C k ltac:(apply in_seq; lia)). cbv beta in C. rewrite <- Ht in C. clear Ht.
  destruct (table_complete_spec t k C) as (l & El & Hl). destruct (traverse_total t data _ _ _ _ s El) as (c & v & s' & E & I).
  destruct (Hl _ _ I) as (w & B & _ & ->). exists (means k w), s'. split; [exact E|]. exact (proj2 (codeword_walk k w Hk B)).
Qed.
Lemma land_byte x : is_byte (Z.land x 255).
Proof. rewrite land_255. unfold is_byte. apply Z.mod_pos_bound. lia. Qed.
Lemma line_total k t comp_type sync size above data s : k < 8 -> t = table k -> Forall is_byte data -> sync = true \/ (0 <= comp_type <= 2)%Z ->
  exists row s', pred_line comp_type sync size above t data s = Ok (row, s') /\ List.length row = size /\ Forall is_byte row.
Proof.
  intros Hk Ht Fd H. unfold pred_line. destruct sync.
  - do 2 eexists. split; [reflexivity|]. rewrite map_length, seq_length. split; [reflexivity|]. apply Forall_forall. intros x I. apply in_map_iff in I as (i & <- & _).
    destruct (Nat.ltb_spec (output s + 2 + i) (List.length data)) as [L|L]; [|unfold is_byte; lia]. rewrite Forall_forall in Fd. apply Fd. now apply nth_In.
  - destruct H as [H|H]; [discriminate|]. destruct (Z.eqb_spec comp_type 0); [|destruct (Z.eqb_spec comp_type 1); [|destruct (Z.eqb_spec comp_type 2); [|lia]]].
    + clear H. revert s. induction size as [|m IH]; intros s; [exists [], s; repeat split; constructor|]. destruct (next_total k t data s Hk Ht) as (v & s1 & E & B).
      destruct (IH s1) as (row & s2 & E2 & L & F). exists (v :: row), s2. cbn [decomp_none]. rewrite E. cbn [rbind fst snd]. rewrite E2. cbn. rewrite L. repeat split. now constructor.
    + clear H. generalize 0%Z as prev. revert s. induction size as [|m IH]; intros s prev; [exists [], s; repeat split; constructor|]. destruct (next_total k t data s Hk Ht) as (v & s1 & E & B).
      cbn [decomp_xpred]. rewrite E. cbn [rbind fst snd]. destruct (IH s1 (Z.land (prev + v) 255)) as (row & s2 & E2 & L & F). exists (Z.land (prev + v) 255 :: row), s2. rewrite E2. cbn [rbind fst snd List.length]. rewrite L.
      repeat split. constructor; [apply land_byte|exact F].
    + clear H. revert s above. induction size as [|m IH]; intros s above; [exists [], s; repeat split; constructor|]. destruct (next_total k t data s Hk Ht) as (v & s1 & E & B).
      cbn [decomp_ypred]. rewrite E. cbn [rbind fst snd]. destruct (IH s1 (tl above)) as (row & s2 & E2 & L & F). exists (Z.land (v + hd 0%Z above) 255 :: row), s2. rewrite E2. cbn [rbind fst snd List.length]. rewrite L.
      repeat split. constructor; [apply land_byte|exact F].
Qed.
Lemma rows_total k t comp_type width total data : k < 8 -> t = table k -> Forall is_byte data -> (0 <= comp_type <= 2)%Z -> forall n y s last above,
  exists rows, rows_loop n comp_type width total t data y s last above = Ok rows /\ List.length rows <= n /\ (comp_type = 0%Z -> List.length rows = n) /\
    Forall (fun r => List.length r = width /\ Forall is_byte r) rows.
Proof.
  intros Hk Ht Fd Hc. induction n as [|n IH]; intros y s last above; [exists []; repeat split; (lia || constructor)|]. cbn [rows_loop].
  destruct ((y mod 128 =? 0) && negb (comp_type =? 0)%Z) eqn:T.
  - assert (N0 : comp_type <> 0%Z). { apply andb_true_iff in T as [_ T]. intros ->. discriminate. }
    cbv zeta. set (o := if Nat.odd _ then _ else _). clearbody o.
    assert (None_ : exists rows, Ok [] = @Ok (list (list Z)) rows /\ List.length rows <= S n /\ (comp_type = 0%Z -> List.length rows = S n) /\ Forall (fun r => List.length r = width /\ Forall is_byte r) rows).
    { exists []. split; [reflexivity|]. split; [cbn; lia|]. split; [intros E; now elim N0|constructor]. }
    assert (Some_ : forall q o' l', exists rows,
        rbind (pred_line comp_type true width above t data (mkBits q 0 o')) (fun r => rbind (rows_loop n comp_type width total t data (S y) (snd r) l' (fst r)) (fun rest => Ok (fst r :: rest))) = Ok rows /\
        List.length rows <= S n /\ (comp_type = 0%Z -> List.length rows = S n) /\ Forall (fun r => List.length r = width /\ Forall is_byte r) rows).
    { intros q o' l'. destruct (line_total k t comp_type true width above data (mkBits q 0 o') Hk Ht Fd (or_introl eq_refl)) as (row & s1 & E & L & F). rewrite E. cbn [rbind fst snd].
      destruct (IH (S y) s1 l' row) as (rows & E2 & L2 & _ & F2). rewrite E2. cbn [rbind]. exists (row :: rows). split; [reflexivity|]. split; [cbn; lia|]. split; [intros E0; now elim N0|]. constructor; [now split|exact F2]. }
    destruct (List.length data <=? o + 1); [exact None_|]. destruct (word_at data o =? SYNC_WORD)%Z; cbn [rbind]; [apply Some_|].
    destruct (find_sync _ _); cbn [rbind]; [apply Some_|exact None_].
  - destruct (line_total k t comp_type false width above data s Hk Ht Fd (or_intror Hc)) as (row & s1 & E & L & F). rewrite E. cbn [rbind fst snd].
    destruct (IH (S y) s1 last row) as (rows & E2 & L2 & L3 & F2). rewrite E2. cbn [rbind]. exists (row :: rows). split; [reflexivity|]. split; [cbn; lia|]. split; [intros E0; cbn; now rewrite L3|]. constructor; [now split|exact F2].
Qed.
Theorem C40_damaged h data k : code_table_id h = k -> k < 8 -> Forall is_byte data -> (Z.land (byte_at (compression h) 0) 3 <> 3)%Z ->
  (exists rows, make_pred_image h data = Ok rows /\ rows <> [] /\ List.length rows <= down_total h * 16 /\
     Forall (fun r => List.length r = edit_length h * 16 /\ Forall is_byte r) rows) \/
  make_pred_image h data = Err OSError.
Proof.
  intros Ek Hk Fd Hc. unfold make_pred_image. unfold code_table_id in Ek. rewrite Ek, (table_ok k Hk). cbn [rbind]. unfold pred_decode. cbv zeta.
  assert (R : (0 <= Z.land (byte_at (compression h) 0) 3 <= 2)%Z).
  { change 3%Z with (Z.ones 2) in *. rewrite Z.land_ones in * by lia. pose proof (Z.mod_pos_bound (byte_at (compression h) 0) (2 ^ 2) ltac:(lia)) as B. change (2 ^ 2)%Z with 4%Z in *. change (Z.ones 2) with 3%Z in Hc. lia. }
  destruct (rows_total k (table k) _ (edit_length h * 16) (edit_length h * 16 * (down_total h * 16)) data Hk eq_refl Fd R (down_total h * 16) 0 (start data) 0 (repeat 0%Z (edit_length h * 16))) as (rows & E & L & _ & F).
  rewrite E. cbn [rbind]. destruct (Nat.eqb_spec (List.length (concat rows)) 0) as [Z0|Z0]; [now right|left]. exists rows. split; [reflexivity|]. split; [intros ->; now apply Z0|]. now split.
Qed.
Print Assumptions C40_damaged.

(** Where the marker of a group is not where the rows before it end, the decoder goes on at
    the first place from 2 bytes after the last marker that was in place where there is a
    marker followed by smooth data. *)
Lemma word_marker data p : Forall is_byte data -> S p < List.length data -> ((word_at data p =? SYNC_WORD)%Z = true <-> marker data p).
Proof.
  intros F L. assert (A : exists a, nth_error data p = Some a) by (destruct (nth_error data p) eqn:E; [eauto|apply nth_error_None in E; lia]).
  assert (B : exists b, nth_error data (S p) = Some b) by (destruct (nth_error data (S p)) eqn:E; [eauto|apply nth_error_None in E; lia]).
  destruct A as [a A]. destruct B as [b B]. unfold word_at, marker. rewrite (byte_at_error _ _ _ A), (byte_at_error _ _ _ B), A, B.
  rewrite Forall_forall in F. pose proof (F a (nth_error_In _ _ A)) as Ba. pose proof (F b (nth_error_In _ _ B)) as Bb. unfold is_byte in *.
  rewrite lor_shift by lia. change (2 ^ 8)%Z with 256%Z. unfold SYNC_WORD. split.
  - intros E. apply Z.eqb_eq in E. assert (a = 202 /\ b = 240)%Z as [-> ->] by lia. now split.
  - intros [E1 E2]. injection E1 as ->. injection E2 as ->. reflexivity.
Qed.
Lemma delta_smooth data p : delta_ok data (p + 2) = true <-> smooth data p.
Proof.
  unfold delta_ok, smooth. rewrite forallb_forall. split.
  - intros H i R. specialize (H (i - (p + 2)) ltac:(apply in_seq; lia)). cbv beta in H. replace (p + 2 + (i - (p + 2))) with i in H by lia.
    apply andb_true_iff in H as [L D]. apply Nat.ltb_lt in L. apply Z.leb_le in D. exists (byte_at data i), (byte_at data (i + 1)).
    rewrite Nat.add_1_r in *. split; [apply nth_error_nth'; lia|]. split; [apply nth_error_nth'; lia|exact D].
  - intros H i I. apply in_seq in I. destruct (H (p + 2 + i) ltac:(lia)) as (a & b & A & B & D). rewrite Nat.add_1_r. apply andb_true_iff. split.
    + apply Nat.ltb_lt. apply nth_error_Some. rewrite B. discriminate.
    + rewrite (byte_at_error _ _ _ A), (byte_at_error _ _ _ B). now apply Z.leb_le.
Qed.
Lemma smooth_len data p : smooth data p -> p + 34 < List.length data.
Proof. intros H. destruct (H (p + 33) ltac:(lia)) as (a & b & _ & B & _). apply nth_error_Some. replace (p + 34) with (S (p + 33)) by lia. rewrite B. discriminate. Qed.
Theorem C40_resync data n p : Forall is_byte data ->
  find_sync data n = Some p <->
  (2 <= p < n /\ marker data p /\ smooth data p /\ forall q, 2 <= q < p -> ~ (marker data q /\ smooth data q)).
Proof.
  intros F. unfold find_sync. destruct (Nat.ltb_spec n 2) as [L|L].
  - split; [discriminate|]. intros (R & _). lia.
  - enough (G : forall r o, sync_loop r data o = Some p <-> (o <= p < o + r /\ marker data p /\ smooth data p /\ forall q, o <= q < p -> ~ (marker data q /\ smooth data q))).
    { rewrite G. replace (2 + (n - 2)) with n by lia. reflexivity. }
    clear L. induction r as [|r IH]; intros o; cbn [sync_loop].
    + split; [discriminate|]. intros (R & _). lia.
    + destruct (Nat.leb_spec (List.length data) (o + 1)) as [L|L].
      { split; [discriminate|]. intros (R & _ & M & _). apply smooth_len in M. lia. }
      pose proof (word_marker data o F ltac:(lia)) as W. pose proof (delta_smooth data o) as D.
      destruct (word_at data o =? SYNC_WORD)%Z; [destruct (delta_ok data (o + 2))|]; cbn [andb].
      * split.
        -- intros E. injection E as <-. split; [lia|]. split; [now apply W|]. split; [now apply D|]. intros q Q. lia.
        -- intros (R & M & S & N). destruct (Nat.eq_dec o p) as [->|NE]; [reflexivity|]. exfalso. apply (N o ltac:(lia)). split; [now apply W|now apply D].
      * rewrite IH. split.
        -- intros (R & M & S & N). split; [lia|]. split; [exact M|]. split; [exact S|]. intros q Q. destruct (Nat.eq_dec q o) as [->|NE]; [|apply N; lia]. intros [_ S']. apply D in S'. discriminate.
        -- intros (R & M & S & N). assert (o <> p) by (intros ->; apply D in S; discriminate). split; [lia|]. split; [exact M|]. split; [exact S|]. intros q Q. apply N. lia.
      * rewrite IH. split.
        -- intros (R & M & S & N). split; [lia|]. split; [exact M|]. split; [exact S|]. intros q Q. destruct (Nat.eq_dec q o) as [->|NE]; [|apply N; lia]. intros [M' _]. apply W in M'. discriminate.
        -- intros (R & M & S & N). assert (o <> p) by (intros ->; apply W in M; discriminate). split; [lia|]. split; [exact M|]. split; [exact S|]. intros q Q. apply N. lia.
Qed.
Print Assumptions C40_resync.

(** Damage to the first 128 rows of an image does not spread to the rows after them: whatever
    stands where their compressed data should be, if the marker of the second group is the
    only one, its rows come out as they were taken, or, if the damaged data are read past
    the end, not at all. *)
Lemma traverse_forward t data : forall fuel s index v s', traverse fuel t data s index = Ok (v, s') -> output s <= output s'.
Proof.
  assert (A : forall s, output s <= output (advance data s)) by (intros s; unfold advance; destruct (7 <? S (bit_count s)); cbn; lia).
  induction fuel as [|fuel IH]; intros s index v s' H; [discriminate|]. cbn [traverse] in H. specialize (A s).
  destruct (Z.land (bit_queue s) 1 =? 0)%Z; [destruct (Z.land (byte_at (flags t) index) 1 =? 0)%Z|destruct (Z.land (byte_at (flags t) index) 2 =? 0)%Z];
    try (injection H as _ <-; exact A); (apply IH in H; lia).
Qed.
Lemma next_forward t data s v s' : next_value t data s = Ok (v, s') -> output s <= output s'.
Proof. unfold next_value. apply traverse_forward. Qed.
Lemma decomp_none_S m t data s : decomp_none (S m) t data s = (do v <- next_value t data s; do r <- decomp_none m t data (snd v); Ok (fst v :: fst r, snd r)).
Proof. reflexivity. Qed.
Lemma decomp_xpred_S m prev t data s : decomp_xpred (S m) prev t data s = (do v <- next_value t data s; do r <- decomp_xpred m (Z.land (prev + fst v) 255) t data (snd v); Ok (Z.land (prev + fst v) 255 :: fst r, snd r)).
Proof. reflexivity. Qed.
Lemma decomp_ypred_S m above t data s : decomp_ypred (S m) above t data s = (do v <- next_value t data s; do r <- decomp_ypred m (tl above) t data (snd v); Ok (Z.land (fst v + hd 0%Z above) 255 :: fst r, snd r)).
Proof. reflexivity. Qed.
Lemma line_forward comp_type size above t data s row s' : pred_line comp_type false size above t data s = Ok (row, s') -> output s <= output s'.
Proof.
  unfold pred_line. destruct (comp_type =? 0)%Z; [|destruct (comp_type =? 1)%Z; [generalize 0%Z as prev|destruct (comp_type =? 2)%Z; [|discriminate]]].
  - revert s row s'. induction size as [|m IH]; intros s row s' H; [injection H as _ <-; lia|]. rewrite decomp_none_S in H. destruct (next_value t data s) as [[v s1]|] eqn:E; [|discriminate]. cbn [rbind fst snd] in H.
    destruct (decomp_none m t data s1) as [[r s2]|] eqn:E2; [|discriminate]. cbn [rbind fst snd] in H. injection H as _ <-. apply next_forward in E. apply IH in E2. lia.
  - intros prev. revert prev s row s'. induction size as [|m IH]; intros prev s row s' H; [injection H as _ <-; lia|]. rewrite decomp_xpred_S in H. destruct (next_value t data s) as [[v s1]|] eqn:E; [|discriminate]. cbn [rbind fst snd] in H.
    destruct (decomp_xpred m _ t data s1) as [[r s2]|] eqn:E2; [|discriminate]. cbn [rbind fst snd] in H. injection H as _ <-. apply next_forward in E. apply IH in E2. lia.
  - revert above s row s'. induction size as [|m IH]; intros above s row s' H; [injection H as _ <-; lia|]. rewrite decomp_ypred_S in H. destruct (next_value t data s) as [[v s1]|] eqn:E; [|discriminate]. cbn [rbind fst snd] in H.
    destruct (decomp_ypred m _ t data s1) as [[r s2]|] eqn:E2; [|discriminate]. cbn [rbind fst snd] in H. injection H as _ <-. apply next_forward in E. apply IH in E2. lia.
Qed.
Lemma rows_any k kind width total data last : k < 8 -> kind <> NoPrediction -> Forall is_byte data -> forall m n y s above, (forall i, i < m -> (y + i) mod 128 <> 0) ->
  exists any s' above', List.length any = m /\ Forall (fun r => List.length r = width) any /\ output s <= output s' /\
    rows_loop (m + n) (method_code kind) width total (table k) data y s last above =
    rbind (rows_loop n (method_code kind) width total (table k) data (y + m) s' last above') (fun r => Ok (any ++ r)).
Proof.
  intros Hk NK Fd. induction m as [|m IH]; intros n y s above N.
  - exists [], s, above. rewrite Nat.add_0_r. repeat split; [constructor|lia|]. cbn [Nat.add app]. destruct (rows_loop _ _ _ _ _ _ _ _ _ _); reflexivity.
  - cbn [Nat.add rows_loop]. pose proof (N 0 ltac:(lia)) as N0. rewrite Nat.add_0_r in N0. apply Nat.eqb_neq in N0. rewrite N0. cbn [andb].
    destruct (line_total k (table k) (method_code kind) false width above data s Hk eq_refl Fd) as (row & s1 & E & L & F); [right; destruct kind; cbn; lia|].
    rewrite E. cbn [rbind fst snd]. apply line_forward in E.
    destruct (IH n (S y) s1 row) as (any & s' & above' & La & Fa & Fw & R). { intros i I. specialize (N (S i) ltac:(lia)). now rewrite <- Nat.add_succ_comm in N. }
    exists (row :: any), s', above'. rewrite R. cbn [List.length]. split; [now rewrite La|]. split; [now constructor|]. split; [lia|].
    replace (y + S m) with (S y + m) by lia. destruct (rows_loop n _ _ _ _ _ (S y + m) s' last above'); reflexivity.
Qed.
Lemma group_step_again k kind width total pre first rest s y n above last f : kind <> NoPrediction -> y mod 128 = 0 -> List.length first = width ->
  let data := pre ++ 202%Z :: 240%Z :: first ++ rest in
  let o := List.length pre + 2 + width in
  aligned s + 1 < List.length data -> (word_at data (aligned s) =? SYNC_WORD)%Z = false -> find_sync (skipn last data) (total - last) = Some f -> last + f = List.length pre ->
  rows_loop (S n) (method_code kind) width total (table k) data y s last above =
  rbind (rows_loop n (method_code kind) width total (table k) data (S y)
    (mkBits (if o <? List.length data then byte_at data o else bit_queue s) 0 o) last first)
    (fun r => Ok (first :: r)).
Proof.
  intros NK Hy Hw data o L W Fs Hl. cbn [rows_loop]. rewrite Hy. cbn [Nat.eqb].
  replace (negb (method_code kind =? 0)%Z) with true by (destruct kind; [congruence|reflexivity|reflexivity]). cbn [andb].
  change (if Nat.odd (if bit_count s =? 0 then output s else S (output s)) then S (if bit_count s =? 0 then output s else S (output s)) else if bit_count s =? 0 then output s else S (output s)) with (aligned s).
  destruct (Nat.leb_spec (List.length data) (aligned s + 1)) as [L'|_]; [lia|]. rewrite W, Fs, Hl. cbn [rbind].
  assert (Ld : List.length data = List.length pre + 2 + List.length first + List.length rest) by (unfold data; rewrite app_length; cbn [List.length]; rewrite app_length; lia).
  unfold pred_line. cbn [rbind]. unfold decomp_sync. cbn [output bit_queue fst snd]. unfold o. rewrite <- Hw. pose proof (sync_row pre first rest) as SR. fold data in SR. rewrite SR.
  replace (List.length pre + 2 + Nat.min (List.length first) (List.length data - (List.length pre + 2))) with (List.length pre + 2 + List.length first) by lia.
  reflexivity.
Qed.
Lemma rbind_map {A B C} (x : res A) (f : A -> B) (g : B -> C) : rbind (rbind x (fun r => Ok (f r))) (fun r => Ok (g r)) = rbind x (fun r => Ok (g (f r))).
Proof. destruct x; reflexivity. Qed.
Theorem C40_damage h k kind done good first junk second more body bs pad :
  code_table_id h = k -> k < 8 -> kind <> NoPrediction -> (Z.land (byte_at (compression h) 0) 3 = method_code kind)%Z ->
  let width := edit_length h * 16 in let height := down_total h * 16 in
  let before := good ++ 202%Z :: 240%Z :: first ++ junk in
  let data := before ++ 202%Z :: 240%Z :: second ++ body in
  Forall is_byte data -> 0 < width -> height = List.length done + 129 + List.length more -> List.length more < 128 ->
  Forall (fun r => List.length r = width) (done ++ first :: second :: more) ->
  groups_coded k kind done good ->
  rows_coded k kind second more bs -> bits_of body = bs ++ pad ->
  (forall p, marker data p -> p <= List.length good \/ p = List.length before) -> smooth data (List.length before) -> List.length before < width * height ->
  exists any, List.length any = 127 /\
    (make_pred_image h data = Ok (done ++ first :: any ++ second :: more) \/ make_pred_image h data = Ok (done ++ first :: any)).
Proof.
  intros Ek Hk NK Hc width height before data Fd W Hh Lm F G R Eb Only Sm Room. apply Forall_app in F as [Fdone F]. inversion F as [|? ? Ff F']; subst. inversion F' as [|? ? Fs Fm]; subst.
  unfold make_pred_image. unfold code_table_id in Hk, R, G. set (k := Z.to_nat _) in *. rewrite (table_ok k Hk). cbn [rbind]. unfold pred_decode. cbv zeta. fold width height. rewrite Hc.
  set (total := width * height) in *. rewrite Hh. replace (List.length done + 129 + List.length more) with (List.length done + S (127 + S (List.length more))) by lia.
  assert (M0 : List.length done mod 128 = 0). { clear - G. induction G as [|first more body bs pad rest data L _ _ _ _ _ IH]; [reflexivity|]. cbn [List.length]. rewrite app_length, L. replace (S (127 + List.length rest)) with (List.length rest + 1 * 128) by lia. now rewrite Nat.mod_add by lia. }
  assert (Ew : Nat.even width = true) by (unfold width; rewrite Nat.even_mul; apply Bool.orb_true_r).
  assert (Ed : data = good ++ 202%Z :: 240%Z :: first ++ junk ++ 202%Z :: 240%Z :: second ++ body) by (unfold data, before; rewrite <- app_assoc; cbn [app]; now rewrite <- app_assoc).
  assert (Lbef : List.length before = List.length good + 2 + width + List.length junk) by (unfold before; rewrite app_length; cbn [List.length]; rewrite app_length; lia).
  assert (Ldat : List.length data = List.length before + 2 + width + List.length body) by (unfold data; rewrite app_length; cbn [List.length]; rewrite app_length; lia).
  set (o := List.length good + 2 + width). set (s1 := mkBits (byte_at data o) 0 o).
  destruct (rows_any k kind width total data (List.length good) Hk NK Fd 127 (S (List.length more)) (S (List.length done)) s1 first) as (any & s' & above' & La & Fa & Fw & E).
  { intros i I. apply (mod_128 (List.length done) i); [exact M0|exact I]. }
  exists any. split; [exact La|].
  assert (Step : forall s0 last0 above0, aligned s0 = List.length good ->
    rows_loop (S (127 + S (List.length more))) (method_code kind) width total (table k) data (List.length done) s0 last0 above0 =
    rbind (rows_loop (S (List.length more)) (method_code kind) width total (table k) data (S (List.length done) + 127) s' (List.length good) above') (fun r => Ok (first :: any ++ r))).
  { intros s0 last0 above0 A0. pose proof (group_step k kind width total good first (junk ++ 202%Z :: 240%Z :: second ++ body) s0 (List.length done) (127 + S (List.length more)) last0 above0 NK M0 A0 Ff) as Gs.
    cbv zeta in Gs. rewrite <- Ed in Gs. fold o in Gs. rewrite Gs. replace (o <? List.length data) with true by (symmetry; apply Nat.ltb_lt; unfold o; lia). fold s1. rewrite E.
    exact (rbind_map _ (fun r => any ++ r) (fun r => first :: r)). }
  assert (Po : List.length good < aligned s').
  { assert (o <= output s') by (unfold s1 in Fw; cbn [output] in Fw; lia). unfold o in H. unfold aligned. cbv zeta. destruct (bit_count s' =? 0); [destruct (Nat.odd (output s'))|destruct (Nat.odd (S (output s')))]; lia. }
  assert (Cc : forall l : list (list Z), (List.length (concat (done ++ first :: l)) =? 0) = false).
  { intros l. apply Nat.eqb_neq. rewrite concat_app. cbn [concat]. rewrite !app_length. lia. }
  assert (M1 : (S (List.length done) + 127) mod 128 = 0) by (replace (S (List.length done) + 127) with (List.length done + 1 * 128) by lia; now rewrite Nat.mod_add by lia).
  set (y1 := S (List.length done) + 127) in *.
  assert (After : forall last, rows_loop (List.length more) (method_code kind) width total (table k) data (S y1)
     (mkBits (if List.length before + 2 + width <? List.length data then byte_at data (List.length before + 2 + width) else bit_queue s') 0 (List.length before + 2 + width)) last second = Ok more).
  { intros last. pose proof (after_sync k kind width total before second body [] more bs pad y1 s' 0 last [] Hk NK W Fs Fm Lm R Eb M1) as Ga.
    cbv zeta in Ga. rewrite app_nil_r, Nat.add_0_r, app_nil_r in Ga. fold data in Ga. apply Ga; [|reflexivity]. destruct more; [right; auto|left; discriminate]. }
  assert (Tail : rows_loop (S (List.length more)) (method_code kind) width total (table k) data y1 s' (List.length good) above' = Ok (second :: more) \/
                 rows_loop (S (List.length more)) (method_code kind) width total (table k) data y1 s' (List.length good) above' = Ok []).
  { destruct (Nat.le_gt_cases (List.length data) (aligned s' + 1)) as [L|L].
    - right. cbn [rows_loop]. rewrite M1. cbn [Nat.eqb]. replace (negb (method_code kind =? 0)%Z) with true by (destruct kind; [congruence|reflexivity|reflexivity]). cbn [andb].
      change (if Nat.odd (if bit_count s' =? 0 then output s' else S (output s')) then S (if bit_count s' =? 0 then output s' else S (output s')) else if bit_count s' =? 0 then output s' else S (output s')) with (aligned s').
      now rewrite (proj2 (Nat.leb_le _ _) L).
    - left. destruct (word_at data (aligned s') =? SYNC_WORD)%Z eqn:Ewd.
      + apply (word_marker data (aligned s') Fd ltac:(lia)) in Ewd. apply Only in Ewd as [Ewd|Ewd]; [lia|].
        pose proof (group_step k kind width total before second body s' y1 (List.length more) (List.length good) above' NK M1 Ewd Fs) as Gs. cbv zeta in Gs. fold data in Gs. rewrite Gs, After. reflexivity.
      + assert (Fsn : find_sync (skipn (List.length good) data) (total - List.length good) = Some (List.length before - List.length good)).
        { assert (Nt : forall i, nth_error (skipn (List.length good) data) i = nth_error data (List.length good + i)).
          { intros i. rewrite Ed, skipn_app, skipn_all, Nat.sub_diag. cbn [skipn app]. rewrite nth_error_app2 by lia. f_equal. lia. }
          apply C40_resync; [|split; [|split; [|split]]].
          - apply Forall_forall. intros x I. rewrite Forall_forall in Fd. apply Fd. rewrite <- (firstn_skipn (List.length good) data). apply in_or_app. now right.
          - unfold total. lia.
          - unfold marker. rewrite !Nt. replace (List.length good + (List.length before - List.length good)) with (List.length before) by lia. replace (List.length good + S (List.length before - List.length good)) with (S (List.length before)) by lia.
            unfold data. rewrite !nth_error_app2 by lia. rewrite Nat.sub_diag. replace (S (List.length before) - List.length before) with 1 by lia. now split.
          - intros i Hi. rewrite !Nt. destruct (Sm (List.length good + i) ltac:(lia)) as (a & b & Ea & Eb' & D). exists a, b. split; [exact Ea|]. split; [|exact D]. now replace (List.length good + S i) with (S (List.length good + i)) by lia.
          - intros q Q [M _]. unfold marker in M. rewrite !Nt in M. replace (List.length good + S q) with (S (List.length good + q)) in M by lia. apply Only in M. lia. }
        pose proof (group_step_again k kind width total before second body s' y1 (List.length more) above' (List.length good) (List.length before - List.length good) NK M1 Fs L Ewd Fsn ltac:(lia)) as Gs. cbv zeta in Gs. fold data in Gs. rewrite Gs, After. reflexivity. }
  assert (All : forall tail, rows_loop (S (List.length more)) (method_code kind) width total (table k) data y1 s' (List.length good) above' = Ok tail ->
    rows_loop (List.length done + S (127 + S (List.length more))) (method_code kind) width total (table k) data 0 (start data) 0 (repeat 0%Z width) = Ok (done ++ first :: any ++ tail)).
  { intros tail Et. pose proof (groups_rows k kind done good G NK Hk width W Ew Fdone total [] (202%Z :: 240%Z :: first ++ junk ++ 202%Z :: 240%Z :: second ++ body) (start data) 0 0 (repeat 0%Z width) (S (127 + S (List.length more))) (first :: any ++ tail) eq_refl eq_refl eq_refl) as Gr.
    rewrite !app_nil_l, Nat.add_0_l in Gr. rewrite <- Ed in Gr. apply Gr. intros s0 last0 above0 A0. rewrite (Step s0 last0 above0 A0). fold y1. now rewrite Et. }
  destruct Tail as [T|T]; [left|right]; rewrite (All _ T); cbn [rbind]; rewrite ?app_nil_r, Cc; reflexivity.
Qed.
Print Assumptions C40_damage.
(** But if the number of bytes lost or added is odd, so that the later markers are at odd
    positions, every later group of rows is replaced by the first of them: the place where a
    search succeeded is forgotten, and the next search finds it again. *)
Lemma aligned_even s : Nat.even (aligned s) = true.
Proof.
  unfold aligned. cbv zeta. set (o := if bit_count s =? 0 then output s else S (output s)). clearbody o. rewrite <- Nat.negb_odd. destruct (Nat.odd o) eqn:E; [|now rewrite E]. now rewrite Nat.odd_succ, <- Nat.negb_odd, E.
Qed.
Lemma again_and_again k kind width total before second more body bs pad post : let data := before ++ 202%Z :: 240%Z :: second ++ body ++ post in
  k < 8 -> kind <> NoPrediction -> Forall is_byte data -> 0 < width -> Forall (fun r => List.length r = width) (second :: more) -> List.length more = 127 ->
  rows_coded k kind second more bs -> bits_of body = bs ++ pad -> 4 <= List.length post -> (forall p, marker data p -> p = 0 \/ Nat.odd p = true) ->
  find_sync data total = Some (List.length before) ->
  forall m y s above, y mod 128 = 0 -> 0 < aligned s -> aligned s + 1 < List.length data ->
  rows_loop (m * 128) (method_code kind) width total (table k) data y s 0 above = Ok (concat (repeat (second :: more) m)).
Proof.
  intros data Hk NK Fd W F Lm R Eb Lp Only Fs. inversion F as [|? ? Ff Fm]; subst. set (width := List.length second) in *.
  induction m as [|m IH]; intros y s above Hy P L; [reflexivity|].
  assert (Wd : (word_at data (aligned s) =? SYNC_WORD)%Z = false).
  { apply Bool.not_true_iff_false. intros M. apply (word_marker data (aligned s) Fd ltac:(lia)) in M. apply Only in M as [M|M]; [lia|]. pose proof (aligned_even s) as Ev. rewrite <- Nat.negb_odd, M in Ev. discriminate. }
  assert (Em : S m * 128 = S (List.length more + m * 128)) by lia. rewrite Em.
  pose proof (group_step_again k kind width total before second (body ++ post) s y (List.length more + m * 128) above 0 (List.length before) NK Hy eq_refl L Wd) as G. cbv zeta in G. fold data in G. rewrite Nat.sub_0_r in G. rewrite G by (exact Fs || reflexivity). clear G.
  pose proof (after_sync k kind width total before second body post more bs pad y s (m * 128) 0 (concat (repeat (second :: more) m)) Hk NK W eq_refl Fm ltac:(lia) R Eb Hy) as G. cbv zeta in G. fold data in G.
  rewrite G; [reflexivity|left; intros ->; discriminate|]. intros s' above' A. pose proof (f_equal (@List.length bool) Eb) as Lb. rewrite bits_of_len, app_length in Lb.
  assert (Ld : List.length data = List.length before + 2 + width + List.length body + List.length post) by (unfold data; rewrite app_length; cbn [List.length]; rewrite !app_length; fold width; lia).
  destruct A as (A1 & A2 & _).
  assert (B : output s' <= aligned s' <= S (S (output s'))) by (unfold aligned; cbv zeta; destruct (bit_count s' =? 0); [destruct (Nat.odd (output s'))|destruct (Nat.odd (S (output s')))]; lia).
  apply IH; [|lia|lia]. rewrite Lm. replace (S y + 127) with (y + 1 * 128) by lia. now rewrite Nat.mod_add by lia.
Qed.
Lemma rows_zero c width total t data y s last above : rows_loop 0 c width total t data y s last above = Ok [].
Proof. reflexivity. Qed.
Lemma rows_exhausted kind n width total t data y s last above : kind <> NoPrediction -> y mod 128 = 0 -> List.length data <= aligned s + 1 ->
  rows_loop (S n) (method_code kind) width total t data y s last above = Ok [].
Proof.
  intros NK Hy L. cbn [rows_loop]. rewrite Hy. cbn [Nat.eqb]. replace (negb (method_code kind =? 0)%Z) with true by (destruct kind; [congruence|reflexivity|reflexivity]). cbn [andb].
  change (if Nat.odd (if bit_count s =? 0 then output s else S (output s)) then S (if bit_count s =? 0 then output s else S (output s)) else if bit_count s =? 0 then output s else S (output s)) with (aligned s).
  now rewrite (proj2 (Nat.leb_le _ _) L).
Qed.
Theorem C40_shift_refuted h k kind first junk second more body bs pad post m :
  code_table_id h = k -> k < 8 -> kind <> NoPrediction -> (Z.land (byte_at (compression h) 0) 3 = method_code kind)%Z ->
  let width := edit_length h * 16 in let height := down_total h * 16 in
  let before := 202%Z :: 240%Z :: first ++ junk in
  let data := before ++ 202%Z :: 240%Z :: second ++ body ++ post in
  Forall is_byte data -> 0 < width -> height = (m + 1) * 128 -> List.length more = 127 ->
  Forall (fun r => List.length r = width) (first :: second :: more) ->
  rows_coded k kind second more bs -> bits_of body = bs ++ pad -> 4 <= List.length post ->
  (forall p, marker data p -> p = 0 \/ Nat.odd p = true /\ List.length before <= p) -> smooth data (List.length before) -> List.length before < width * height ->
  exists any, List.length any = 127 /\
    (make_pred_image h data = Ok (first :: any ++ concat (repeat (second :: more) m)) \/ make_pred_image h data = Ok (first :: any)).
Proof.
  intros Ek Hk NK Hc width height before data Fd W Hh Lm F R Eb Lp Only Sm Room. inversion F as [|? ? Ff F']; subst. pose proof F' as Fsm.
  unfold make_pred_image. unfold code_table_id in Hk, R. set (k := Z.to_nat _) in *. rewrite (table_ok k Hk). cbn [rbind]. unfold pred_decode. cbv zeta. fold width height. rewrite Hc.
  set (total := width * height) in *. rewrite Hh. replace ((m + 1) * 128) with (S (127 + m * 128)) by lia.
  assert (A0 : aligned (start data) = List.length (@nil Z)) by reflexivity.
  pose proof (group_step k kind width total [] first (junk ++ 202%Z :: 240%Z :: second ++ body ++ post) (start data) 0 (127 + m * 128) 0 (repeat 0%Z width) NK eq_refl A0 Ff) as G.
  cbv zeta in G. rewrite !app_nil_l in G. replace (202%Z :: 240%Z :: first ++ junk ++ 202%Z :: 240%Z :: second ++ body ++ post) with data in G by (unfold data, before; cbn [app]; now rewrite <- app_assoc).
  rewrite G. clear G. set (s1 := mkBits _ _ _).
  destruct (rows_any k kind width total data 0 Hk NK Fd 127 (m * 128) 1 s1 first) as (any & s' & above' & La & Fa & Fw & E).
  { intros i I. apply (mod_128 0 i); [reflexivity|exact I]. }
  change (List.length (@nil Z)) with 0. rewrite E. clear E. change (1 + 127) with 128. exists any. split; [exact La|].
  assert (Cc : forall l : list (list Z), (List.length (concat (first :: l)) =? 0) = false).
  { intros l. apply Nat.eqb_neq. cbn [concat]. rewrite app_length. lia. }
  assert (Po : 0 < aligned s').
  { assert (0 < output s') by (unfold s1 in Fw; cbn [output List.length] in Fw; lia). unfold aligned. cbv zeta. destruct (bit_count s' =? 0); [destruct (Nat.odd (output s'))|destruct (Nat.odd (S (output s')))]; lia. }
  destruct (Nat.le_gt_cases (List.length data) (aligned s' + 1)) as [L|L].
  - destruct m as [|m].
    + left. rewrite Nat.mul_0_l, rows_zero. cbn [rbind]. rewrite Cc. reflexivity.
    + right. replace (S m * 128) with (S (127 + m * 128)) by lia. rewrite (rows_exhausted kind _ width total (table k) data 128 s' 0 above' NK eq_refl L). cbn [rbind]. rewrite app_nil_r, Cc. reflexivity.
  - left. assert (Lbef : 2 <= List.length before) by (unfold before; cbn [List.length]; lia).
    assert (Fs : find_sync data total = Some (List.length before)).
    { apply (C40_resync data total (List.length before) Fd). split; [lia|]. split; [|split; [exact Sm|]].
      - unfold marker, data. rewrite !nth_error_app2 by lia. rewrite Nat.sub_diag. replace (S (List.length before) - List.length before) with 1 by lia. now split.
      - intros q Q [M _]. apply Only in M. lia. }
    pose proof (again_and_again k kind width total before second more body bs pad post Hk NK Fd W Fsm Lm R Eb Lp ltac:(intros p M; apply Only in M as [M|[M _]]; auto) Fs m 128 s' above' eq_refl Po L) as AA.
    fold data in AA. rewrite AA. cbn [rbind]. rewrite Cc. reflexivity.
Qed.
Print Assumptions C40_shift_refuted.

(** Loading ends, whatever the file and however transform fragments are read. *)
Lemma pred_image_ends h data : Forall is_byte data -> make_pred_image h data <> Err OutOfFuel.
Proof.
  intros Fd. destruct (Nat.le_gt_cases 8 (code_table_id h)) as [L|L].
  - unfold make_pred_image. rewrite C39_other_tables by exact L. discriminate.
  - destruct (Z.eq_dec (Z.land (byte_at (compression h) 0) 3) 3) as [E3|N3].
    + unfold make_pred_image. unfold code_table_id in L. rewrite (table_ok _ L). cbn [rbind]. unfold pred_decode. cbv zeta. rewrite E3.
      enough (G : forall n y s last above t, rows_loop n 3 (edit_length h * 16) (edit_length h * 16 * (down_total h * 16)) t data y s last above <> Err OutOfFuel).
      { specialize (G (down_total h * 16) 0 (start data) 0 (repeat 0%Z (edit_length h * 16)) (table (Z.to_nat (Z.land (byte_at (compression h) 1) 15)))).
        destruct (rows_loop _ _ _ _ _ _ _ _ _ _) as [rows|e]; cbn [rbind]; [destruct (List.length (concat rows) =? 0); discriminate|]. intros E. apply G. congruence. }
      induction n as [|n IH]; intros y s last above t; [discriminate|]. cbn [rows_loop].
      destruct ((y mod 128 =? 0) && negb (3 =? 0)%Z); [|discriminate].
      destruct (List.length data <=? _); [discriminate|]. destruct (_ =? SYNC_WORD)%Z; cbn [rbind]; [|destruct (find_sync _ _); cbn [rbind]; [|discriminate]].
      all: match goal with |- rbind (pred_line _ _ _ _ _ _ _) _ <> _ => unfold pred_line; cbn [rbind] end.
      all: match goal with |- rbind (rows_loop ?n _ _ _ ?t _ ?y' ?s' ?l' ?a') _ <> _ => specialize (IH y' s' l' a' t); destruct (rows_loop n _ _ _ t _ y' s' l' a'); cbn [rbind]; [discriminate|intros E; apply IH; congruence] end.
    + destruct (C40_damaged h data _ eq_refl L Fd N3) as [(rows & E & _)|E]; rewrite E; discriminate.
Qed.
Theorem C40_ends transform file : Forall is_byte file -> (forall h d, transform h d <> Err OutOfFuel) -> moc_loader transform file <> Err OutOfFuel.
Proof.
  intros F T. unfold moc_loader.
  assert (Sub : forall pos n, Forall is_byte (read_at file pos n)).
  { intros pos n. apply Forall_forall. intros x I. rewrite Forall_forall in F. apply F. unfold read_at in I. rewrite <- (firstn_skipn pos file), <- (firstn_skipn n (skipn pos file)).
    apply in_or_app. right. apply in_or_app. now left. }
  assert (Fin : forall h frags images, Forall is_byte frags -> finish h frags images <> Err OutOfFuel).
  { intros h frags images Ff. unfold finish. destruct (_ =? 0)%Z; [now apply pred_image_ends|]. destruct images; [discriminate|]. destruct (forallb _ _); discriminate. }
  enough (G : forall fuel total first frags images, 0 < fuel -> List.length file < fuel + total -> Forall is_byte frags -> fragments transform fuel file total first frags images <> Err OutOfFuel).
  { apply G; [lia|lia|constructor]. }
  induction fuel as [|fuel IH]; intros total first frags images P L Ff.
  - exfalso. lia.
  - cbn [fragments].
    destruct (Nat.ltb_spec (List.length (read_at file (total + LABEL_SIZE) HEADER_SIZE)) HEADER_SIZE) as [S|S]; [destruct first; [now apply Fin|discriminate]|].
    assert (P' : 0 < fuel). { unfold read_at in S. rewrite firstn_length, skipn_length in S. unfold HEADER_SIZE in S. lia. }
    destruct (Nat.eqb_spec (frag_length (parse_header (read_at file (total + LABEL_SIZE) HEADER_SIZE))) 0) as [Z0|Z0]; [destruct first; [now apply Fin|discriminate]|].
    set (h := parse_header _) in *. set (indat := read_at file _ (frag_length h)). pose proof (Sub (total + LABEL_SIZE + HEADER_SIZE) (frag_length h)) as Fi. fold indat in Fi. clearbody h indat.
    assert (Ffi : Forall is_byte (frags ++ indat)) by (apply Forall_app; now split).
    destruct (negb _ && _); [discriminate|]. destruct (negb _).
    + specialize (T h indat). destruct (transform h indat); cbn [rbind]; [|intros E; apply T; congruence]. apply IH; [lia|lia|exact Ff].
    + destruct (Z.testbit (status h) 1); [now apply pred_image_ends|]. apply IH; [lia|lia|exact Ffi].
Qed.
Print Assumptions C40_ends.

(** Prediction from the left and from above at once, which headers can ask for, is not
    decoded: an error after the first row. *)
Theorem C40_both_refuted h k first rest : code_table_id h = k -> k < 8 -> (Z.land (byte_at (compression h) 0) 3 = 3)%Z -> 0 < down_total h ->
  List.length first = edit_length h * 16 -> make_pred_image h (202%Z :: 240%Z :: first ++ rest) = Err ValueError.
Proof.
  intros Ek Hk E3 Hd Lf. unfold make_pred_image. unfold code_table_id in Ek. rewrite Ek, (table_ok k Hk). cbn [rbind]. unfold pred_decode. cbv zeta. rewrite E3.
  replace (down_total h * 16) with (S (S (down_total h * 16 - 2))) at 1 by lia. reflexivity.
Qed.
Print Assumptions C40_both_refuted.

(** A case of [C40_file]: 16 rows of 16 pixels in two fragments, predicted from the left. *)
Fixpoint enc_row (k : nat) (left : Z) (row : list Z) : list bool :=
  match row with [] => [] | p :: row => codeword k ((p - left) mod 256) ++ enc_row k p row end.
Lemma enc_row_ok k row : k < 7 -> Forall is_byte row -> forall left above, row_coded k FromLeft left above row (enc_row k left row).
Proof.
  intros Hk F. induction F as [|p row Hp F IH]; intros left above; [constructor|]. cbn [enc_row]. constructor; [|apply IH].
  exists ((p - left) mod 256)%Z. unfold is_byte in *. pose proof (Z.mod_pos_bound (p - left) 256 ltac:(lia)). split; [lia|]. split; [|reflexivity].
  unfold means. rewrite (proj2 (Nat.eqb_neq k 7)) by lia. rewrite Z.add_mod_idemp_r by lia. replace (left + (p - left))%Z with p by lia. now rewrite Z.mod_small by lia.
Qed.
Lemma enc_rows_ok k rows : k < 7 -> Forall (Forall is_byte) rows -> forall above, rows_coded k FromLeft above rows (flat_map (enc_row k 0) rows).
Proof. intros Hk F. induction F as [|row rows Hr F IH]; intros above; [constructor|]. cbn [flat_map]. constructor; [now apply enc_row_ok|apply IH]. Qed.
Fixpoint pack_bits (n : nat) (bs : list bool) : list Z :=
  match n with O => [] | S n => fold_right (fun b v => (Z.b2z b + 2 * v)%Z) 0%Z (firstn 8 bs) :: pack_bits n (skipn 8 bs) end.
Definition demo_row (y : nat) : list Z := map (fun x => ((Z.of_nat y * 37 + Z.of_nat x * Z.of_nat x) mod 256)%Z) (seq 0 16).
Definition demo_rows : list (list Z) := map demo_row (seq 0 16).
Definition demo_data : list Z := (202 :: 240 :: demo_row 0 ++ pack_bits 368 (flat_map (enc_row 2 0) (map demo_row (seq 1 15))))%Z.
Definition demo_head (last : bool) (n : Z) : list Z :=
  (repeat 0 13 ++ [if last then 2 else 0] ++ repeat 0 26 ++ [1; 0; 0; 1; 1; 2] ++ repeat 0 12 ++ [n mod 256; n / 256; 0; 0])%Z.
Definition demo_first : fragment := mkFrag (demo_head false 100) (firstn 100 demo_data) 7%Z.
Definition demo_last : fragment := mkFrag (demo_head true 286) (skipn 100 demo_data) 9%Z.
Lemma bytes_ok l : forallb (fun b => (0 <=? b)%Z && (b <? 256)%Z) l = true -> Forall is_byte l.
Proof. intros H. apply Forall_forall. intros x I. rewrite forallb_forall in H. specialize (H x I). apply andb_true_iff in H as [A B]. unfold is_byte. lia. Qed.
Lemma demo_coded : image_coded 2 FromLeft demo_rows demo_data.
Proof.
  change demo_rows with (demo_row 0 :: map demo_row (seq 1 15)). unfold demo_data. apply (coded_last 2 FromLeft _ _ _ (flat_map (enc_row 2 0) (map demo_row (seq 1 15))) (repeat false 6)); [discriminate|rewrite map_length, seq_length; lia| |].
  - apply enc_rows_ok; [lia|]. apply Forall_forall. intros r I. apply in_map_iff in I as (y & <- & _). apply Forall_forall. intros p I. apply in_map_iff in I as (x & <- & _). apply Z.mod_pos_bound. lia.
  - vm_compute. reflexivity.
Qed.
Example C40_meets : List.length (repeat 0%Z LABEL_SIZE) = LABEL_SIZE /\ Forall well_formed ([demo_first] ++ [demo_last]) /\ Forall (fun f => method f FromLeft) ([demo_first] ++ [demo_last]) /\
  Forall (fun f => is_last f false) [demo_first] /\ is_last demo_last true /\ code_table demo_last 2 /\ image_size demo_last 16 16 /\
  List.length demo_rows = 16 /\ Forall (fun r => List.length r = 16) demo_rows /\ image_coded 2 FromLeft demo_rows (flat_map content ([demo_first] ++ [demo_last])) /\
  forall transform tail, moc_loader transform (file_of (repeat 0%Z LABEL_SIZE) ([demo_first] ++ [demo_last]) ++ tail) = Ok demo_rows.
Proof.
  assert (L : List.length (repeat 0%Z LABEL_SIZE) = LABEL_SIZE) by apply repeat_length.
  assert (W : Forall well_formed ([demo_first] ++ [demo_last])).
  { constructor; [|constructor; [|constructor]].
    - split; [reflexivity|]. split; [vm_compute; discriminate|]. split; [apply bytes_ok; vm_compute; reflexivity|]. split; [apply bytes_ok; vm_compute; reflexivity|].
      exists 100%Z, 0%Z. split; [split; vm_compute; reflexivity|]. split; [split; vm_compute; reflexivity|]. vm_compute. reflexivity.
    - split; [reflexivity|]. split; [vm_compute; discriminate|]. split; [apply bytes_ok; vm_compute; reflexivity|]. split; [apply bytes_ok; vm_compute; reflexivity|].
      exists 286%Z, 0%Z. split; [split; vm_compute; reflexivity|]. split; [split; vm_compute; reflexivity|]. vm_compute. reflexivity. }
  assert (M : Forall (fun f => method f FromLeft) ([demo_first] ++ [demo_last])) by (repeat constructor; exists 1%Z; repeat split).
  assert (I1 : Forall (fun f => is_last f false) [demo_first]) by (repeat constructor; exists 0%Z; split; reflexivity).
  assert (I2 : is_last demo_last true) by (exists 2%Z; split; reflexivity).
  assert (T : code_table demo_last 2) by (exists 2%Z; split; reflexivity).
  assert (S : image_size demo_last 16 16) by (exists 1%Z, 1%Z; repeat split).
  assert (R : Forall (fun r => List.length r = 16) demo_rows) by (repeat constructor).
  assert (C : image_coded 2 FromLeft demo_rows (flat_map content ([demo_first] ++ [demo_last]))).
  { replace (flat_map content ([demo_first] ++ [demo_last])) with demo_data; [exact demo_coded|]. change (flat_map content ([demo_first] ++ [demo_last])) with (firstn 100 demo_data ++ skipn 100 demo_data ++ []). rewrite app_nil_r. symmetry. apply firstn_skipn. }
  split; [exact L|]. split; [exact W|]. split; [exact M|]. split; [exact I1|]. split; [exact I2|]. split; [exact T|]. split; [exact S|]. split; [reflexivity|]. split; [exact R|]. split; [exact C|]. intros transform tail. apply (C40_file transform _ [demo_first] demo_last tail 2 FromLeft 16 16 demo_rows); try assumption; (lia || reflexivity).
Qed.
