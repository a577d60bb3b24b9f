(** C83: special cases apply to the products they are for; every other product is read by the
    general rules. *)
From Verif.Base Require Import Py Val.
From Verif.Model Require Import Checkers.
From Verif.Spec Require Import Checkers.
From Verif.Proofs Require Import Checkers.

(** Whatever question is asked about a product, if the answer comes from the code of a mission
    (the module [m] of pdr/formats) then the product is of that mission, but for four handlers. *)
Theorem C83_own_mission : forall c p m f, scalars p ->
  check c p = Ok (Always m f) \/ check c p = Ok (Maybe m f) -> ~ stray m f -> of_mission p m.
Proof.
  intros c p m f S H N.
  assert (exists r, In r all_rules /\ handler (action_of r) = Some (m, f) /\ eval p (when r) = Ok true) as (r & Hr & Hh & E).
  { destruct H as [H|H]; apply decide_from in H as [H|(r & Hr & Ha & E)]; try discriminate; exists r; rewrite Ha;
      (split; [apply in_flat_map; exists c; split; [apply all_in|assumption]|split; [reflexivity|assumption]]). }
  pose proof rules_own as O. rewrite forallb_forall in O. specialize (O r Hr). unfold rule_own in O. rewrite Hh in O.
  destruct (stray_marks m f) as [l|] eqn:Es.
  - exfalso. apply N. exists l. now apply stray_marks_in.
  - destruct (needs_mark _ _ _ S O E) as (k & Hk & B). now apply of_mission_marks with k.
Qed.
Print Assumptions C83_own_mission.
(** Those four are called for the products Spec/Checkers lists for them, and only for those. *)
Theorem C83_strays : forall c p m f, scalars p ->
  check c p = Ok (Always m f) \/ check c p = Ok (Maybe m f) -> stray m f ->
  exists marks k, In (m, f, marks) strays /\ In k marks /\ bears p k.
Proof.
  intros c p m f S H N.
  assert (exists r, In r all_rules /\ handler (action_of r) = Some (m, f) /\ eval p (when r) = Ok true) as (r & Hr & Hh & E).
  { destruct H as [H|H]; apply decide_from in H as [H|(r & Hr & Ha & E)]; try discriminate; exists r; rewrite Ha;
      (split; [apply in_flat_map; exists c; split; [apply all_in|assumption]|split; [reflexivity|assumption]]). }
  pose proof rules_own as O. rewrite forallb_forall in O. specialize (O r Hr). unfold rule_own in O. rewrite Hh in O.
  destruct (stray_marks m f) as [l|] eqn:Es; [|now apply not_stray in Es].
  destruct (needs_mark _ _ _ S O E) as (k & Hk & B). exists l, k. split; [now apply stray_marks_in|now split].
Qed.
Print Assumptions C83_strays.
Theorem C83_msb : forall c p s, scalars p -> check c p = Ok (Says s) -> exists k, In k msb_instruments /\ bears p k.
Proof.
  intros c p s S H. apply decide_from in H as [H|(r & Hr & Ha & E)]; [discriminate|].
  pose proof rules_own as O. rewrite forallb_forall in O.
  assert (Hi : In r all_rules) by (apply in_flat_map; exists c; split; [apply all_in|assumption]).
  specialize (O r Hi). unfold rule_own in O. rewrite Ha in O. cbn in O. exact (needs_mark _ _ _ S O E).
Qed.
Print Assumptions C83_msb.

(** A product that bears none of these marks has no special case, whatever is asked (but for the
    first bits of its bit columns), and asking raises nothing, if its data set, file and
    instrument are named by texts. *)
Theorem C83_as_usual : forall p, scalars p -> texts p -> ordinary p -> forall c, c <> BitStart -> check c p = Ok Nothing.
Proof.
  intros p S T (O1 & O2 & O3) c Nb. apply decide_nothing with all_marks; try assumption.
  - intros k Hk B. apply in_app_or in Hk as [Hk|Hk]; [|apply in_app_or in Hk as [Hk|Hk]].
    + apply in_flat_map in Hk as ([m l] & Hm & Hk). apply (O1 m). now exists l, k.
    + apply in_flat_map in Hk as ([[m f] l] & Hm & Hk). apply filter_In in Hm as [Hm Nj]. apply (O2 m f l k); try assumption.
      intros ->. discriminate Nj.
    + now apply (O3 k).
  - pose proof rules_nothing as R. rewrite forallb_forall in *. intros r Hr. apply R.
    apply in_flat_map. exists c. split; [|assumption]. apply filter_In. split; [apply all_in|now destruct c].
Qed.
Print Assumptions C83_as_usual.

(** The first bits of bit columns are looked at by the code of Juno exactly if the instrument's
    name is a part of the name of one of its instruments: also if there is no name. *)
Theorem C83_bit_starts : forall p s, ident p $"INSTRUMENT_NAME" = PStr s ->
  check BitStart p = Ok (if contains s $"JOVIAN INFRARED AURORAL MAPPER" then Maybe $"juno" $"bit_start_find_and_fix" else Nothing).
Proof. intros p s H. unfold check, rules_of, check_special_bit_start_case_rules. cbn [decide when eval value rbind]. rewrite H. cbn [on_text rbind]. now destruct (contains s _). Qed.
Print Assumptions C83_bit_starts.
(** No special case is hidden by the ones before it: each is applied to some product. *)
Theorem C83_each_applies : forall c i r, nth_error (rules_of c) i = Some r ->
  exists p, scalars p /\ texts p /\ check c p = Ok (action_of r) /\
    (forall q, In q (firstn i (rules_of c)) -> eval p (when q) = Ok false) /\ eval p (when r) = Ok true.
Proof.
  intros c i r H. pose proof all_shown as A. rewrite forallb_forall in A. specialize (A c (all_in c)). unfold shown in A.
  rewrite forallb_forall in A. specialize (A i). rewrite H in A.
  assert (Hi : In i (seq 0 (length (rules_of c)))) by (apply in_seq; split; [apply Nat.le_0_l|apply nth_error_Some; congruence]).
  specialize (A Hi). exists (product_for (when r)).
  assert (S : scalars (product_for (when r))) by (intros f _; cbn [ident product_for]; now destruct (str_eqb f _)).
  split; [exact S|]. split.
  { intros f Hf. exists (wanted (when r) (Ident f)). unfold product_for, ident.
    destruct (str_eqb f $"FILE_RECORDS") eqn:E; [|reflexivity]. apply str_eqb_eq in E. subst f. cbn in Hf. exfalso.
    repeat destruct Hf as [Hf|Hf]; try discriminate Hf. exact Hf. }
  set (p := product_for (when r)) in *. clearbody p. unfold reaches in A. apply andb_prop in A as [A B]. rewrite H in B.
  assert (E : eval p (when r) = Ok true) by (destruct (eval p (when r)) as [[|]|]; try discriminate; reflexivity).
  assert (F : forall q, In q (firstn i (rules_of c)) -> eval p (when q) = Ok false).
  { rewrite forallb_forall in A. intros q Hq. specialize (A q Hq). cbn beta in A. destruct (eval p (when q)) as [[|]|]; try discriminate; reflexivity. }
  split; [|now split]. unfold check. clear A B Hi S. revert i H F. generalize (rules_of c).
  induction l as [|q l IH]; intros [|i] H F; try discriminate; cbn [nth_error firstn decide] in *.
  - injection H as ->. now rewrite E.
  - rewrite (F q (or_introl eq_refl)). cbn. apply IH with i; [assumption|]. intros q' Hq'. apply F. now right.
Qed.
Print Assumptions C83_each_applies.

(** ** Products of no mission that are treated as special *)
(** A product whose FILE_NAME mentions STRIP, VISIBL, IMAGE, IR_, TIME, SUN or SOLAR has its
    objects looked for at the end of the file, as if it was a spectrum of Huygens; without a
    ROW_BYTES that is an error. *)
Theorem C83_file_names : forall p s w, ident p $"FILE_NAME" = PStr s ->
  In w [$"STRIP"; $"VISIBL"; $"IMAGE"; $"IR_"; $"TIME"; $"SUN"; $"SOLAR"] -> mentions w s ->
  (forall k, In k [instrument_id $"CHEMIN"; instrument_id $"THEMIS"; data_set $"CLEM1-"] -> ~ bears p k) ->
  check Offset p = Ok (Maybe $"cassini" $"get_offset") /\
  (ident p $"ROW_BYTES" = PStr [] -> forall size, cassini_get_offset p size = Err TypeError).
Proof.
  intros p s w F Hw M N. split; [|intros R size; unfold cassini_get_offset; now rewrite R].
  assert (NE : forall f t, In (Equals f t) [instrument_id $"CHEMIN"; instrument_id $"THEMIS"] -> is_text (ident p f) t = false).
  { intros f t Hk. assert (B : ~ bears p (Equals f t)) by (apply N; destruct Hk as [<-|[<-|[]]]; cbn; tauto).
    apply Bool.not_true_is_false. intros Eu. apply B. now apply bears_iff. }
  unfold check, rules_of, check_special_offset_rules. cbn [decide when eval value rbind].
  rewrite (NE $"INSTRUMENT_ID" $"CHEMIN") by (now left). cbn [rbind].
  assert (C : is_text (ident p $"DATA_SET_ID") $"CLEM1-L-RSS-5-BSR-V1.0" = false).
  { destruct (ident p $"DATA_SET_ID") as [| | | |u| | | |] eqn:E; try reflexivity. cbn [is_text]. apply Bool.not_true_is_false. intros Eu.
    apply str_eqb_eq in Eu as ->. apply (N (data_set $"CLEM1-")); [cbn; tauto|]. exists $"CLEM1-L-RSS-5-BSR-V1.0". split; [assumption|]. now exists [], $"L-RSS-5-BSR-V1.0". }
  rewrite C. cbn [rbind]. rewrite (NE $"INSTRUMENT_ID" $"THEMIS") by (right; now left). cbn [rbind].
  rewrite F. cbn [on_text].
  replace (existsb (fun w0 => contains w0 s) _) with true
    by (symmetry; apply existsb_exists; exists w; split; [assumption|now apply contains_iff]).
  destruct (is_text (ident p $"INSTRUMENT_NAME") _); cbn [rbind]; [destruct (is_text (ident p $"PRODUCT_TYPE") $"RDR"); cbn [rbind]; reflexivity|reflexivity].
Qed.
Print Assumptions C83_file_names.
Definition plain_product (file_name : pv) (path : str) : asked :=
  mkAsked (fun f => if str_eqb f $"FILE_NAME" then file_name else if str_eqb f $"DATA_SET_ID" then PStr $"XYZ-M-CAM-3-RDR-V1.0"
                    else if str_eqb f $"INSTRUMENT_NAME" then PStr $"CAMERA" else PStr [])
    $"IMAGE" path PNone (fun _ => PNone) [] PNone (fun _ => Err TypeError).
Lemma plain_scalars n path : scalar n -> scalars (plain_product n path).
Proof. intros H f _. unfold plain_product, ident. destruct (str_eqb _ _); [exact H|]. destruct (str_eqb _ _); [exact I|]. now destruct (str_eqb _ _). Qed.
Lemma plain_texts s path : texts (plain_product (PStr s) path).
Proof. intros f Hf. cbn in Hf. repeat destruct Hf as [<-|Hf]; try (eexists; reflexivity). destruct Hf. Qed.
Theorem C83_file_names_refuted : ~ (forall p, scalars p -> texts p -> (forall m, ~ of_mission p m) -> forall c, c <> BitStart -> check c p = Ok Nothing).
Proof.
  intros H. specialize (H (plain_product (PStr $"TIMELINE.IMG") $"/data/a.img") (plain_scalars (PStr _) _ I) (plain_texts _ _)).
  specialize (H (no_mission (plain_product (PStr $"TIMELINE.IMG") $"/data/a.img") ltac:(vm_compute; reflexivity)) Offset ltac:(discriminate)).
  vm_compute in H. discriminate H.
Qed.
Print Assumptions C83_file_names_refuted.
(** A product whose FILE_NAME is a number has no object whose offset can be asked. *)
Theorem C83_numbers : forall p n, ident p $"FILE_NAME" = PInt n ->
  (forall k, In k [instrument_id $"CHEMIN"; instrument_id $"THEMIS"; data_set $"CLEM1-"; instrument $"DESCENT IMAGER SPECTRAL RADIOMETER"] -> ~ bears p k) ->
  check Offset p = Err TypeError.
Proof.
  intros p n F N.
  assert (NE : forall f t, In (Equals f t) [instrument_id $"CHEMIN"; instrument_id $"THEMIS"; instrument $"DESCENT IMAGER SPECTRAL RADIOMETER"] -> is_text (ident p f) t = false).
  { intros f t Hk. assert (B : ~ bears p (Equals f t)) by (apply N; destruct Hk as [<-|[<-|[<-|[]]]]; cbn; tauto).
    apply Bool.not_true_is_false. intros Eu. apply B. now apply bears_iff. }
  unfold check, rules_of, check_special_offset_rules. cbn [decide when eval value rbind].
  rewrite (NE $"INSTRUMENT_ID" $"CHEMIN") by (now left). cbn [rbind].
  assert (C : is_text (ident p $"DATA_SET_ID") $"CLEM1-L-RSS-5-BSR-V1.0" = false).
  { apply Bool.not_true_is_false. intros Eu. apply (N (data_set $"CLEM1-")); [cbn; tauto|]. apply (proj1 (bears_iff p (Equals $"DATA_SET_ID" $"CLEM1-L-RSS-5-BSR-V1.0"))) in Eu.
    exists $"CLEM1-L-RSS-5-BSR-V1.0". split; [assumption|]. now exists [], $"L-RSS-5-BSR-V1.0". }
  rewrite C. cbn [rbind]. rewrite (NE $"INSTRUMENT_ID" $"THEMIS") by (right; now left). cbn [rbind].
  rewrite (NE $"INSTRUMENT_NAME") by (right; right; now left). cbn [rbind]. now rewrite F.
Qed.
Print Assumptions C83_numbers.
Theorem C83_numbers_refuted : ~ (forall p, scalars p -> ordinary p -> forall c, exists a, check c p = Ok a).
Proof.
  intros H. destruct (H (plain_product (PInt 20040312) $"/data/a.img") (plain_scalars (PInt _) _ I) (ordinary_marks (plain_product (PInt 20040312) $"/data/a.img") ltac:(vm_compute; reflexivity)) Offset) as [a Ha].
  vm_compute in Ha. discriminate Ha.
Qed.
Print Assumptions C83_numbers_refuted.
(** A label is read as Chinese text (GB 18030) because of the directory it is in. *)
Theorem C83_paths : forall p w v, In w [$"CE1"; $"CE2"; $"CE3"] -> In v [$".1A"; $".1B"; $".1C"; $".2A"; $".2B"; $".2C"; $".3A"; $".3B"; $".3C"; $".01"; $".02"; $".03"] ->
  mentions w (file p) -> mentions v (file p) -> check LabelText p = Ok (Always $"change" $"special_label").
Proof.
  intros p w v Hw Hv Mw Mv. apply contains_iff in Mw, Mv. unfold check, rules_of, check_special_label_rules. cbn [decide when].
  assert (O : forall a b x y, eval p a = Ok x -> eval p b = Ok y -> eval p (a |. b) = Ok (x || y)) by (intros a b x y E E'; cbn [eval]; rewrite E; cbn; now destruct x).
  set (t := fun u => contains u (file p)) in *.
  assert (A : forall u, eval p (Has u File) = Ok (t u)) by reflexivity.
  match goal with |- (do x <- eval p (?a &. ?b); _) = _ =>
    assert (Ea : eval p a = Ok (t $"CE1" || t $"CE2" || t $"CE3")) by (repeat apply O; apply A);
    assert (Eb : exists y, eval p b = Ok y /\ (y = true)) end.
  { eexists. split; [repeat apply O; apply A|]. rewrite !orb_true_iff. cbn in Hv. repeat destruct Hv as [<-|Hv]; tauto. }
  assert (Ew : t $"CE1" || t $"CE2" || t $"CE3" = true) by (rewrite !orb_true_iff; cbn in Hw; repeat destruct Hw as [<-|Hw]; tauto).
  destruct Eb as (y & Eb & ->). rewrite Ew in Ea. cbn [eval] in Ea, Eb |- *. rewrite Ea. cbn [rbind]. rewrite Eb. reflexivity.
Qed.
Print Assumptions C83_paths.

(** ** Cases *)
(** an ordinary product exists *)
Example C83_as_usual_meets : exists p, scalars p /\ texts p /\ ordinary p /\ object p = $"IMAGE".
Proof.
  exists (plain_product (PStr $"MAP01.IMG") $"/data/map01.img").
  split; [now apply plain_scalars|]. split; [apply plain_texts|]. split; [|reflexivity]. apply ordinary_marks. vm_compute. reflexivity.
Qed.
(** the table of a product of Diviner *)
Definition diviner_product : asked :=
  mkAsked (fun f => if str_eqb f $"INSTRUMENT_ID" then PStr $"DLRE" else if str_eqb f $"PRODUCT_TYPE" then PStr $"PRP"
                    else if str_eqb f $"FILE_RECORDS" then PInt 12 else PStr [])
    $"TABLE" $"/lro/a.tab" PNone (fun _ => PNone) [] PNone (fun _ => Err TypeError).
Example C83_own_mission_meets : scalars diviner_product /\ check TableReader diviner_product = Ok (Always $"diviner" $"diviner_l4_table_loader")
  /\ ~ stray $"diviner" $"diviner_l4_table_loader".
Proof.
  split; [intros f _; unfold diviner_product, ident; do 3 (destruct (str_eqb _ _); [exact I|]); exact I|].
  split; [vm_compute; reflexivity|]. apply not_stray. vm_compute. reflexivity.
Qed.
(** an XDR_DOCUMENT of no mission *)
Example C83_strays_meets : exists p, scalars p /\ check BlockOf p = Ok (Always $"cassini" $"xdr_redirect_to_image_block") /\ stray $"cassini" $"xdr_redirect_to_image_block".
Proof.
  exists (mkAsked (fun _ => PStr []) $"XDR_DOCUMENT" [] PNone (fun _ => PNone) [] PNone (fun _ => Err TypeError)).
  split; [intros f _; exact I|]. split; [vm_compute; reflexivity|]. exists [ObjectIs $"XDR_DOCUMENT"]. cbn. tauto.
Qed.
Example C83_msb_meets : exists p, scalars p /\ check BitColumn p = Ok (Says $"MSB_BIT_STRING").
Proof.
  exists (mkAsked (fun _ => PStr $"CHEMISTRY AND MINERALOGY INSTRUMENT") [] [] PNone (fun _ => PNone) [] PNone (fun _ => Err TypeError)).
  split; [intros f _; exact I|]. vm_compute. reflexivity.
Qed.
(** a picture of the Sun *)
Example C83_file_names_meets : exists p, ident p $"FILE_NAME" = PStr $"SUNSPOT.IMG" /\ mentions $"SUN" $"SUNSPOT.IMG" /\ ident p $"ROW_BYTES" = PStr [] /\
  (forall k, In k [instrument_id $"CHEMIN"; instrument_id $"THEMIS"; data_set $"CLEM1-"] -> ~ bears p k).
Proof.
  exists (plain_product (PStr $"SUNSPOT.IMG") $"/data/sunspot.img"). split; [reflexivity|]. split; [now exists [], $"SPOT.IMG"|]. split; [reflexivity|].
  apply bears_none. vm_compute. reflexivity.
Qed.
Example C83_numbers_meets : exists p, ident p $"FILE_NAME" = PInt 20040312 /\
  (forall k, In k [instrument_id $"CHEMIN"; instrument_id $"THEMIS"; data_set $"CLEM1-"; instrument $"DESCENT IMAGER SPECTRAL RADIOMETER"] -> ~ bears p k).
Proof. exists (plain_product (PInt 20040312) $"/data/a.img"). split; [reflexivity|]. apply bears_none. vm_compute. reflexivity. Qed.
Example C83_paths_meets : mentions $"CE2" $"/ICE2/volume.01/map.lbl" /\ mentions $".01" $"/ICE2/volume.01/map.lbl".
Proof. split; [now exists $"/I", $"/volume.01/map.lbl"|now exists $"/ICE2/volume", $"/map.lbl"]. Qed.
Example C83_each_applies_meets : exists r, nth_error (rules_of Structure) 18 = Some r /\ action_of r = Nothing.
Proof. eexists. split; [vm_compute; reflexivity|reflexivity]. Qed.
