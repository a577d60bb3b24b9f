(** C84: PDS4 products, from the tree of the label to their arrays and tables. *)
From Coq Require Import ZArith Lia QArith.
From Verif.Base Require Import Py Val PyFacts Numpy.
From Verif.Model Require Import Types Scaling Pds4Types Pds4Values Xml.
From Verif.Spec Require Import Scaling Pds4Types Pds4Values Xml.
From Verif.Proofs Require Import Xml.
From Verif.Properties Require Import Xml Pds4Fields.
From Verif.Properties Require Pds4Values Pds4Names Pds4FrameFiles.
From Verif.Model Require Import Pds4Tables Pds4Frame Pds4Product.
From Verif.Spec Require Import Pds4Tables Pds4Frame Objects Pds4Product.
From Verif.Proofs Require Import Pds4Product.
Open Scope nat_scope.
Local Notation parts e := (Spec.Xml.children e).
Local Notation object_names := Pds4Names.object_names.

(** ** Opening *)
(** The label [label] of a product whose structures are [l] (with the names of their files), of
    kinds and names [ss]. *)
Definition product_label (label : xml) (l : list (str * xml)) (ss : list structure) : Prop :=
  well_named label /\ occurs $"Product" (tag_of label) /\ product_lists label l /\ Forall (fun x => sufficient (snd x)) l /\ Forall2 (fun x s => entitled (snd x) s) l ss.
Lemma opens dir label l ss : product_label label l ss ->
  exists p, open_pds4 dir label = Ok p /\ p4_index p = fst (init_pds4 ss) /\ p4_objects p = snd (init_pds4 ss) /\ Forall2 (fun x => struct_ok (path_join dir (fst x)) (snd x)) l (p4_structures p).
Proof.
  intros (W & O & P & S & E). destruct (structures_ok dir label l W P S) as (q & R & F). unfold open_pds4. rewrite (read_clean label W). cbn [rbind]. rewrite R. cbn [rbind].
  assert (C : contains $"Product" (xtag (clean label)) = true) by (apply contains_short; [cbn; intuition discriminate|cbn; intuition discriminate|vm_compute; reflexivity|now apply wn_name|exact O]).
  assert (N : map named_structure q = ss).
  { clear - E F. revert ss E. induction F as [|x s l q H _ IH]; intros ss E; inversion E; subst; [reflexivity|]. cbn [map]. f_equal; [eapply named_ok; eauto|now apply IH]. }
  rewrite N, C. destruct (init_pds4 ss) as [index objects]. eexists. split; [reflexivity|]. now repeat split.
Qed.
(** The product lists its structures, by their names, and its label. *)
Theorem C84_index dir label l ss : product_label label l ss -> exists p, open_pds4 dir label = Ok p /\ p4_index p = object_names ss ++ [$"label"].
Proof. intros H. destruct (opens dir label l ss H) as (p & E & I & _). exists p. split; [exact E|]. rewrite I. reflexivity. Qed.
Print Assumptions C84_index.

Lemma joined dir f path : next_to dir f path -> relative f -> path_join dir f = path.
Proof.
  intros N R. unfold path_join. assert (Q : forall a : str, match f with "/"%char :: _ => f | _ => a end = a).
  { intros a. destruct f as [|c f]; [reflexivity|]. destruct (Ascii.ascii_dec c "/"%char) as [->|Nc]; [exfalso; now apply (R f)|]. destruct c as [[] [] [] [] [] [] [] []]; try reflexivity. contradiction. }
  rewrite Q. destruct N as [->|d ->|N1 N2]; [reflexivity|now rewrite rev_app_distr|].
  destruct (rev dir) as [|c r] eqn:E; [apply (f_equal (@rev _)) in E; rewrite rev_involutive in E; contradiction|].
  destruct (Ascii.ascii_dec c "/"%char) as [->|Nc]; [exfalso; apply (N2 (rev r)); apply (f_equal (@rev _)) in E; now rewrite rev_involutive in E|].
  destruct c as [[] [] [] [] [] [] [] []]; try reflexivity. contradiction.
Qed.
Lemma not_fits path : ~ fits_name path -> existsb (fun e => endswith e (lower path)) [$".fits"; $".fit"; $".fits.gz"; $".fit.gz"; $".fz"] = false.
Proof.
  intros N. destruct (existsb _ _) eqn:E; [|reflexivity]. exfalso. apply N. apply existsb_exists in E as (e & I & H). apply endswith_iff in H as (a & H). exists a, e. now split.
Qed.
(** ** Objects *)
(** Object [name] of the product is structure number [i], the element [e]; the file of its area is
    next to the label, in [dir]; [file] is its contents.  The names of the objects differ. *)
Definition product_object (dir : str) (label : xml) (contents : str -> option str) (name : str) (e : xml) (file : str) : Prop :=
  exists l ss i f path, product_label label l ss /\ NoDup (object_names ss ++ [$"label"]) /\
    nth_error (object_names ss) i = Some name /\ nth_error l i = Some (f, e) /\
    relative f /\ next_to dir f path /\ ~ fits_name path /\ contents path = Some file.
Lemma object_found dir label contents name e file : product_object dir label contents name e file ->
  exists p i s path, open_pds4 dir label = Ok p /\ dict_get (p4_objects p) name = Some (Some i) /\ nth_error (p4_structures p) i = Some s /\ struct_ok path e s /\ ~ fits_name path /\ contents path = Some file.
Proof.
  intros (l & ss & i & f & path & H & N & En & El & R & Nx & Nf & C). destruct (opens dir label l ss H) as (p & E & _ & Eo & F).
  destruct (Pds4Names.C67_objects ss N) as (_ & At & _). specialize (At i name En). unfold Pds4Names.structure_at in At.
  assert (Q : exists s, nth_error (p4_structures p) i = Some s /\ struct_ok (path_join dir f) e s).
  { clear - F El. revert i El. induction F as [|x s l q Hx _ IH]; intros i El; [destruct i; discriminate|]. destruct i as [|i]; [injection El as ->; exists s; split; [reflexivity|exact Hx]|now apply IH]. }
  destruct Q as (s & Es & Hs). rewrite (joined dir f path Nx R) in Hs. exists p, i, s, path. rewrite Eo. now repeat split; try apply Hs.
Qed.
Lemma loaded nn junk contents dir label name e file : product_object dir label contents name e file ->
  exists p s, open_pds4 dir label = Ok p /\ kind_is e (kind_name (q_kind s)) /\ keyed [] e (q_meta s) /\ well_named e /\
    load_pds4 nn junk contents p name =
      match q_kind s with
      | SHeader => Err NotImplementedError_
      | SArray => rbind (array_meta_of (q_meta s)) (fun m => rbind (read_array nn m file) (fun a => Ok (OArray4 a)))
      | STable => rbind (table_value junk (clean e) (q_meta s) file) (fun t => Ok (OTable4 t))
      end.
Proof.
  intros H. destruct (object_found dir label contents name e file H) as (p & i & s & path & E & G & Es & (Hk & Hl & Hf & K & W) & Nf & C).
  exists p, s. repeat split; try assumption. unfold load_pds4. rewrite G, Es, Hf, (not_fits path Nf), C, Hl. reflexivity.
Qed.
Lemma kind_unique e a b : has_name e -> kind_is e (kind_name a) -> kind_is e (kind_name b) -> a = b.
Proof. intros N A B. apply kind_iff in A as (x & A1 & A2); [|exact N]. apply kind_iff in B as (y & B1 & B2); [|exact N]. apply kind_name_inj. congruence. Qed.
Lemma pds4_worded type o f w : pds4_type type o f w -> cast_int_float_string type = PStr type.
Proof.
  intros H. destruct H as [s o|s o w I|o|o|o w I].
  - destruct s; vm_compute; reflexivity.
  - destruct s, o; destruct I as [<-|[<-|[<-|[]]]]; vm_compute; reflexivity.
  - destruct o; vm_compute; reflexivity.
  - destruct o; vm_compute; reflexivity.
  - destruct o; destruct I as [<-|[<-|[]]]; vm_compute; reflexivity.
Qed.
(** An array has the shape of the axes in the label, and its elements are what the bytes of
    the file hold. *)
Theorem C84_array nn junk contents dir label name e file offset axes type o f w sh :
  product_object dir label contents name e file -> describes_array e offset axes type -> pds4_type type o f w ->
  sh <> [] -> axes_shape axes sh -> offset + prod sh * w <= length file ->
  exists p a, open_pds4 dir label = Ok p /\ load_pds4 nn junk contents p name = Ok (OArray4 a) /\ shape a = sh /\
    forall idx, valid sh idx -> pixel_holds o f w (firstn w (skipn (offset + lin sh idx * w) file)) (at_ a idx).
Proof.
  intros H D T Ns Ax L. destruct (loaded nn junk contents dir label name e file H) as (p & s & E & Hk & K & W & Ld).
  assert (Ks : q_kind s = SArray) by (apply (kind_unique e); [now apply wn_name|exact Hk|apply D]). rewrite Ks in Ld.
  assert (Na : axes <> []) by (intros ->; destruct Ax as [A _]; now destruct sh).
  rewrite (array_described e (q_meta s) offset axes type W K D Na (pds4_worded _ _ _ _ T)) in Ld. cbn [rbind] in Ld.
  destruct (Pds4Values.C64_pixels nn (mkArray offset axes type None (constants (q_meta s))) file o f w sh T eq_refl Ns Ax L) as (a & Ra & Sa & Pa).
  rewrite Ra in Ld. exists p, a. repeat split; [exact E|exact Ld|exact Sa|exact Pa].
Qed.
Print Assumptions C84_array.

(** ** Tables *)
Lemma type_in k : In (type_of k) [$"Character"; $"Binary"; $"Delimited"].
Proof. destruct k; cbn; auto. Qed.
Lemma table_kind_is k e : called e ($"Table_" ++ type_of k) \/ (k = Delimited /\ called e $"Inventory") -> kind_is e (kind_name STable).
Proof.
  intros H. right. right. split; [reflexivity|]. destruct H as [H|[_ H]]; [|exists $"Inventory"; split; [cbn; auto|exact H]].
  exists ($"Table_" ++ type_of k). split; [|exact H]. destruct k; cbn; auto.
Qed.
Lemma tag_is e n : well_named e -> xml_name n -> called e n -> xtag (clean e) = n.
Proof. intros W X C. apply called_iff; [now apply wn_name|exact X|exact C]. Qed.
(** what tables of all kinds have in common *)
Lemma table_read k e r d records offset F T : well_named e -> keyed [] e d -> describes_table k e r records offset F T ->
  record_tag (clean e) = Ok ($"Record_" ++ type_of k) /\ table_type ($"Record_" ++ type_of k) = type_of k /\ get_nat d $"records" = Ok records /\ get_nat d $"offset" = Ok offset /\
  find (fun c => str_eqb (xtag c) $"Uniformly_Sampled") (xchildren (clean e)) = None /\
  find (fun c => str_eqb (xtag c) ($"Record_" ++ type_of k)) (xchildren (clean e)) = Some (clean r) /\
  (exists z, count_text (clean r) $"fields" = Ok z) /\ (exists z, count_text (clean r) $"groups" = Ok z) /\
  exists dr fs, Pds4Product.get d ($"Record_" ++ type_of k) = Ok (PDict dr) /\ keyed [] r dr /\ well_named r /\
    label_items (type_of k) (clean r) = Ok fs /\ map item_of fs = label_fields F /\ flat_map names_in fs = label_names F /\ map m_type (flat_map abouts fs) = T /\
    ((forall x, inside x e -> ~ called x $"Special_Constants") -> Forall (fun me => m_special me = None) (flat_map abouts fs)).
Proof.
  intros W K (_ & R & Lu & Hr & Ho & (z1 & Hf) & (z2 & Hg) & Lf). pose proof (record_only e _ r R) as O. destruct (record_name _ (type_in k)) as (X & Nt & Ty).
  assert (Ir : In r (parts e)) by (eapply only_in; exact O). assert (Wr : well_named r) by (eapply wn_child; eauto).
  split; [now apply (record_tag_ok e _ r)|]. split; [exact Ty|].
  split; [apply (get_nat_ok [] e d $"records" $"records" W K (agrees_plain e _) ltac:(nt) ltac:(xn) records eq_refl Hr)|].
  split; [apply (get_nat_ok [] e d $"offset" $"offset" W K (agrees_plain e _) ltac:(nt) ltac:(xn) offset eq_refl Ho)|].
  split; [apply find_clean; [exact W|xn|exact Lu]|]. split; [now apply find_only|].
  split; [exists z1; apply count_ok; [exact Wr|xn|exact Hf]|]. split; [exists z2; apply count_ok; [exact Wr|xn|exact Hg]|].
  destruct (load_ok [] r (has_parts _ _ (number_has _ _ _ Hf))) as (dr & Er & _ & Kr).
  destruct (items_ok (type_of k) (parts r) F T (type_in k)) as (fs & E & E1 & E2 & E3 & E4); [apply Forall_forall; intros c Ic; eapply wn_child; eauto|exact Lf|].
  exists dr, fs. split; [unfold Pds4Product.get; rewrite (plain_only e d _ r W K X Nt O); now rewrite Er|]. split; [exact Kr|]. split; [exact Wr|]. rewrite label_items_eq. repeat split; try assumption.
  intros S. apply E4. intros c x Ic Ix. apply S. eapply inside_child; [exact Ir|]. eapply inside_child; eassumption.
Qed.
Lemma fixed_value junk k e d records offset rl F T file : k <> Delimited -> well_named e -> keyed [] e d -> describes_fixed k e records offset rl F T ->
  exists metas, map m_type metas = T /\ table_value junk (clean e) d file = fixed_df k (label_fields F) (label_names F) metas (Z.of_nat rl) records offset file.
Proof.
  intros Nk W K (r & D & Hl). destruct (table_read k e r d records offset F T W K D) as (A1 & A2 & A3 & A4 & A5 & A6 & (z1 & A7) & (z2 & A8) & dr & fs & B1 & B2 & B3 & B4 & B5 & B6 & B7 & _).
  exists (flat_map abouts fs). split; [exact B7|]. unfold table_value. rewrite A1. cbn [rbind]. rewrite A2, A3. cbn [rbind]. rewrite A4. cbn [rbind]. rewrite B1. cbn [mapping rbind]. rewrite A5, A6.
  assert (Fw : is_fixed_width (type_of k) = true) by (destruct k; [vm_compute; reflexivity..|contradiction] || (vm_compute; reflexivity) || contradiction). rewrite Fw.
  rewrite (get_int_ok [] r dr $"record_length" $"record_length" B3 B2 (agrees_plain r _) ltac:(nt) ltac:(xn) _ eq_refl Hl). cbn [rbind]. rewrite B4. cbn [rbind]. rewrite A7, A8. cbn [rbind].
  assert (C : called e ($"Table_" ++ type_of k)) by (destruct D as ([C|[-> _]] & _); [exact C|contradiction]).
  assert (Xt : xml_name ($"Table_" ++ type_of k)) by (destruct k; xn). rewrite (tag_is e _ W Xt C), B5, B6.
  destruct k; try contradiction; reflexivity.
Qed.
Lemma types_forall2 k metas T ts : map m_type metas = T -> Forall2 (fun name t => meant k name t) T ts -> Forall2 (fun me t => meant k (m_type me) t) metas ts.
Proof. intros <-. revert ts. induction metas as [|m metas IH]; intros ts H; inversion H; subst; constructor; auto. Qed.
(** A fixed-width table: its DataFrame shows what the bytes of its fields say, at the places in
    the label. *)
Theorem C84_fixed nn junk contents dir label name e file k records offset record_length F T ts :
  let texts := field_values (label_fields F) record_length records offset file in
  product_object dir label contents name e file -> describes_fixed k e records offset record_length F T -> k <> Delimited ->
  showable F -> even_groups (label_fields F) -> fits_record (Z.of_nat record_length) (label_fields F) -> 1 <= records ->
  Forall2 (fun type t => meant k type t) T ts -> length ts = length (heads F) ->
  (forall j t s, nth_error ts j = Some t -> In s (texts j) -> exists x, says t s x) ->
  exists p cols, open_pds4 dir label = Ok p /\ load_pds4 nn junk contents p name = Ok (OTable4 cols) /\
    label_frame records F (fun j i x => exists t, nth_error ts j = Some t /\ says t (nth i (texts j) []) x) cols.
Proof.
  intros texts H D Nk Sh Ev Fi Hn Fm Lt Ok_. destruct (loaded nn junk contents dir label name e file H) as (p & s & E & Hk & K & W & Ld).
  assert (Ks : q_kind s = STable) by (apply (kind_unique e); [now apply wn_name|exact Hk|]; destruct D as (r & D & _); apply (table_kind_is k); apply D). rewrite Ks in Ld.
  destruct (fixed_value junk k e (q_meta s) records offset record_length F T file Nk W K D) as (metas & Em & Ev').
  destruct (Pds4FrameFiles.C66_fixed k F metas ts record_length records offset file Nk Sh Ev Fi Hn (types_forall2 k metas T ts Em Fm) Lt Ok_) as (cols & Ec & Fr).
  rewrite Ev', Ec in Ld. cbn [rbind] in Ld. exists p, cols. repeat split; [exact E|exact Ld|apply Fr|apply Fr].
Qed.
Print Assumptions C84_fixed.
Lemma delimiters_ok dn d rn rd : In (dn, d) FIELD_DELIMITERS -> In (rn, rd) RECORD_DELIMITERS ->
  cast_int_float_string dn = PStr dn /\ field_delimiter dn = Ok d /\ cast_int_float_string rn = PStr rn /\ record_delimiter rn = Ok rd.
Proof.
  intros A B. split; [|split]; [| |split].
  - repeat (destruct A as [A|A]; [injection A as <- <-; vm_compute; reflexivity|]). destruct A.
  - repeat (destruct A as [A|A]; [injection A as <- <-; vm_compute; reflexivity|]). destruct A.
  - repeat (destruct B as [B|B]; [injection B as <- <-; vm_compute; reflexivity|]). destruct B.
  - repeat (destruct B as [B|B]; [injection B as <- <-; vm_compute; reflexivity|]). destruct B.
Qed.
Lemma delimited_value junk e d records offset fd rd ol ml F T file : well_named e -> keyed [] e d -> describes_delimited e records offset fd rd ol ml F T ->
  exists metas, map m_type metas = T /\ table_value junk (clean e) d file = delimited_df (label_fields F) (label_names F) metas fd rd records ol ml junk offset file /\
    ((forall x, inside x e -> ~ called x $"Special_Constants") -> Forall (fun me => m_special me = None) metas).
Proof.
  intros W K (r & dn & rn & D & Id & Hd & Ir & Hr & Ho & Hm). destruct (table_read Delimited e r d records offset F T W K D) as (A1 & A2 & A3 & A4 & A5 & A6 & (z1 & A7) & (z2 & A8) & dr & fs & B1 & B2 & B3 & B4 & B5 & B6 & B7 & B8).
  exists (flat_map abouts fs). split; [exact B7|]. split; [|exact B8]. destruct (delimiters_ok dn fd rn rd Id Ir) as (D1 & D2 & D3 & D4).
  unfold table_value. rewrite A1. cbn [rbind]. rewrite A2, A3. cbn [rbind]. rewrite A4. cbn [rbind]. rewrite B1. cbn [mapping rbind]. rewrite A5, A6.
  change (is_fixed_width (type_of Delimited)) with false. change (is_delimited (type_of Delimited)) with true. cbn match.
  rewrite (maybe_int_ok [] e d $"object_length" $"object_length" W K (agrees_plain e _) ltac:(nt) ltac:(xn) ol eq_refl Ho). cbn [rbind].
  rewrite (maybe_int_ok [] r dr $"maximum_record_length" $"maximum_record_length" B3 B2 (agrees_plain r _) ltac:(nt) ltac:(xn) ml eq_refl Hm). cbn [rbind].
  rewrite B4. cbn [rbind]. rewrite A7, A8. cbn [rbind].
  rewrite (get_text_ok [] e d $"record_delimiter" $"record_delimiter" W K (agrees_plain e _) ltac:(nt) ltac:(xn) rn D3 Hr). cbn [rbind]. rewrite D4. cbn [rbind].
  rewrite (get_text_ok [] e d $"field_delimiter" $"field_delimiter" W K (agrees_plain e _) ltac:(nt) ltac:(xn) dn D1 Hd). cbn [rbind]. rewrite D2. cbn [rbind]. rewrite B5, B6.
  destruct D as ([C|[_ C]] & _); [rewrite (tag_is e ($"Table_" ++ type_of Delimited) W ltac:(xn) C)|rewrite (tag_is e $"Inventory" W ltac:(xn) C)]; reflexivity.
Qed.
(** A delimited table: its DataFrame shows what the texts of its fields say. *)
Theorem C84_delimited nn junk contents dir label name e d rd recs before after object_length maximum_record_length F T ts :
  let file := before ++ table_text d rd recs [] ++ after in let texts := delimited_texts (label_fields F) recs in
  product_object dir label contents name e file -> describes_delimited e (length recs) (length before) d rd object_length maximum_record_length F T ->
  delimited_file (label_fields F) d rd recs object_length maximum_record_length -> showable F ->
  Forall2 (fun type t => meant Delimited type t) T ts -> length ts = length (heads F) ->
  (forall j t s, nth_error ts j = Some t -> In s (texts j) -> ~ left_out Delimited t s /\ exists x, says t s x) ->
  exists p cols, open_pds4 dir label = Ok p /\ load_pds4 nn junk contents p name = Ok (OTable4 cols) /\
    label_frame (length recs) F (fun j i x => exists t, nth_error ts j = Some t /\ says t (nth i (texts j) []) x) cols.
Proof.
  intros file texts H D Df Sh Fm Lt Ok_. destruct (loaded nn junk contents dir label name e file H) as (p & s & E & Hk & K & W & Ld).
  assert (Ks : q_kind s = STable) by (apply (kind_unique e); [now apply wn_name|exact Hk|]; destruct D as (r & dn & rn & D & _); apply (table_kind_is Delimited); apply D). rewrite Ks in Ld.
  destruct (delimited_value junk e (q_meta s) (length recs) (length before) d rd object_length maximum_record_length F T file W K D) as (metas & Em & Ev & _).
  destruct (Pds4FrameFiles.C66_delimited F metas ts d rd recs before after junk object_length maximum_record_length Df Sh (types_forall2 Delimited metas T ts Em Fm) Lt Ok_) as (cols & Ec & Fr).
  fold file in Ec. rewrite Ev, Ec in Ld. cbn [rbind] in Ld. exists p, cols. repeat split; [exact E|exact Ld|apply Fr|apply Fr].
Qed.
Print Assumptions C84_delimited.
(** Where the table has no special constants, numbers may be left out. *)
Theorem C84_delimited_missing nn junk contents dir label name e d rd recs before after object_length maximum_record_length F T ts :
  let file := before ++ table_text d rd recs [] ++ after in let texts := delimited_texts (label_fields F) recs in
  product_object dir label contents name e file -> describes_delimited e (length recs) (length before) d rd object_length maximum_record_length F T ->
  (forall x, inside x e -> ~ called x $"Special_Constants") ->
  delimited_file (label_fields F) d rd recs object_length maximum_record_length -> showable F ->
  Forall2 (fun type t => meant Delimited type t) T ts -> length ts = length (heads F) ->
  (forall j t s, nth_error ts j = Some t -> In s (texts j) -> left_out Delimited t s \/ exists x, says t s x) ->
  exists p cols, open_pds4 dir label = Ok p /\ load_pds4 nn junk contents p name = Ok (OTable4 cols) /\
    label_frame (length recs) F (fun j i y => exists t, nth_error ts j = Some t /\ shown_text Delimited t (nth i (texts j) []) (lone_in (heads F) j) y) cols.
Proof.
  intros file texts H D Sc Df Sh Fm Lt Ok_. destruct (loaded nn junk contents dir label name e file H) as (p & s & E & Hk & K & W & Ld).
  assert (Ks : q_kind s = STable) by (apply (kind_unique e); [now apply wn_name|exact Hk|]; destruct D as (r & dn & rn & D & _); apply (table_kind_is Delimited); apply D). rewrite Ks in Ld.
  destruct (delimited_value junk e (q_meta s) (length recs) (length before) d rd object_length maximum_record_length F T file W K D) as (metas & Em & Ev & Es).
  destruct (Pds4FrameFiles.C66_delimited_missing F metas ts d rd recs before after junk object_length maximum_record_length Df Sh (types_forall2 Delimited metas T ts Em Fm) Lt (Es Sc) Ok_) as (cols & Ec & Fr).
  fold file in Ec. rewrite Ev, Ec in Ld. cbn [rbind] in Ld. exists p, cols. repeat split; [exact E|exact Ld|apply Fr|apply Fr].
Qed.
Print Assumptions C84_delimited_missing.
