(** C85: the metadata of an image in a desktop format has every tag, under the name of the tag,
    and a packet of XML becomes a MultiDict that shows every element, attribute and text. *)
From Coq Require Import Lia.
From Verif.Base Require Import Py Val PyFacts.
From Verif.Model Require Import Xml ImageMeta.
From Verif.Proofs Require Import ImageMeta.
From Verif.Spec Require Import Xml ImageMeta.
Open Scope nat_scope.

(** A packet of XML becomes what [shown] says, and nothing else. *)
Theorem C85_xmp nm root v : locals nm root -> (unpack_xml true root = Ok v <-> shown nm root v).
Proof.
  intros L. split; [|now apply shown_unpack]. intros E. destruct (unpack_ok nm root L) as (w & E' & S); [|congruence].
  intros x I M. rewrite (unpack_mixed true root x I M) in E. discriminate.
Qed.
Print Assumptions C85_xmp.
(** It is refused, as a SyntaxError, if and only if some element has both text and children. *)
Theorem C85_xmp_refused root :
  (unpack_xml true root = Err SyntaxError <-> exists e, inside e root /\ mixed e) /\
  (forall e, unpack_xml true root = Err e -> e = SyntaxError).
Proof.
  split; [split; [apply unpack_err|intros (e & I & M); exact (unpack_mixed _ _ _ I M)]|].
  intros e E. destruct (unpack_only true root) as [[v K]|K]; congruence.
Qed.
Print Assumptions C85_xmp_refused.
(** What is left out has nothing to show: no attribute and no text in it. *)
Theorem C85_xmp_void nm e v : shown nm e v -> (void e <-> v = None \/ v = Some (PMulti [])).
Proof. apply void_iff. Qed.
Print Assumptions C85_xmp_void.
(** Every element that has something to show is found at its path of names. *)
Theorem C85_xmp_found nm root v path e : locals nm root -> unpack_xml true root = Ok (Some v) ->
  In e (elements_at nm path root) -> ~ void e -> exists w, In w (values_at path v) /\ shown nm e (Some w).
Proof.
  intros L E. apply (C85_xmp nm root (Some v) L) in E. clear L. revert root v E. induction path as [|k path IH]; intros root v E I N.
  - destruct I as [<-|[]]. exists v. split; [now left|exact E].
  - cbn [elements_at] in I. apply in_flat_map in I as (c & Ic & I). unfold elements_named in Ic. apply filter_In in Ic as [Ic K]. apply str_eqb_eq in K.
    inversion E as [|tag text tail w X|tag a text tail d Na X D|tag a text tail d w Na X D|tag a text tail cs d vs Nc X D F]; subst; cbn [children] in Ic; try (destruct Ic; fail).
    assert (V : ~ void c).
    { intros V. apply N. intros x Ix. apply V. clear - I Ix. revert c I. induction path as [|k path IH]; intros c I.
      - destruct I as [->|[]]. exact Ix.
      - cbn [elements_at] in I. apply in_flat_map in I as (b & Ib & I). unfold elements_named in Ib. apply filter_In in Ib as [Ib _]. eapply inside_child; [exact Ib|]. now apply IH. }
    assert (P : exists u, In (c, Some u) (combine cs vs) /\ shown nm c (Some u) /\ u <> PMulti []).
    { clear - F Ic V. induction F as [|x u cs vs Hu F IHF]; [destruct Ic|]. destruct Ic as [->|Ic].
      - destruct u as [u|]; [|exfalso; apply V; apply (void_iff nm c None Hu); now left]. exists u. split; [now left|]. split; [exact Hu|]. intros ->. apply V. apply (void_iff nm c _ Hu). now right.
      - destruct (IHF Ic) as (w & H & Q). exists w. split; [now right|exact Q]. }
    destruct P as (u & Pu & Su & Nu). destruct (IH c u Su I N) as (w & Iw & Sw). exists w. split; [|exact Sw].
    cbn [values_at getall]. apply in_flat_map. exists u. split; [|exact Iw]. apply in_map_iff. exists (nm (tag_of c), u). split; [reflexivity|]. apply filter_In. split; [|cbn [fst]; apply str_eqb_refl].
    apply in_app_iff. right. apply in_flat_map. exists (c, Some u). split; [exact Pu|]. cbn [fst snd]. unfold kept. destruct u as [| | | | | | | |[|]]; try (now left). congruence.
Qed.
Print Assumptions C85_xmp_found.

(** The metadata is a dict of what Pillow knows of the image and of what its tags say, in this
    order: of two entries with the same name it has the last. *)
Theorem C85_metadata p fn im f mime ess : of_format im f -> MIME p f = Some mime -> Forall2 (entry p im) (tags im) ess ->
  exists meta, skim_image_data p fn im = Ok meta /\ dict_of (known p fn im mime ++ concat ess) meta.
Proof. apply skim_ok. Qed.
Print Assumptions C85_metadata.
Theorem C85_lookup {A} (l d : list (str * A)) k v : dict_of l d -> (dict_get d k = Some v <-> last_said l k v).
Proof. apply last_get. Qed.
Print Assumptions C85_lookup.
(** There is no metadata for a format without a MIME type, for a tag about position whose
    number Pillow has no name for, or for a packet of XML that is refused. *)
Theorem C85_refused p fn im :
  (forall f, of_format im f -> MIME p f = None) \/
  (exists t k v, In t (tags im) /\ tag_called p im (fst t) $"GPSInfo" /\ In (k, v) (o_ifd im (fst t)) /\ GPSTAGS p k = None) \/
  (exists t root e, In t (tags im) /\ tag_called p im (fst t) $"XMLPacket" /\ fromstring p (snd t) = Ok root /\ inside e root /\ mixed e) ->
  forall meta, skim_image_data p fn im <> Ok meta.
Proof.
  intros H meta. unfold skim_image_data. set (m := fold_left _ _ _). destruct H as [H|H].
  - assert (G : forall f, dict_get m $"format" = Some (PStr f) -> of_format im f).
    { intros f E. pose proof (attrs_ok im IMAGE_META_ATTRS [($"fn", PStr fn)] [($"fn", PStr fn)] (dict_of_snoc [] [] _ _ dict_of_nil)) as A.
      apply (last_get _ _ _ _ A) in E as (a & b & E & _). clear A. clearbody m.
      assert (I : In ($"format", PStr f) (flat_map (fun a => match o_attrs im a with Some PNone | None => [] | Some v => [(a, v)] end) IMAGE_META_ATTRS)).
      { revert E. generalize (flat_map (fun a => match o_attrs im a with Some PNone | None => [] | Some v => [(a, v)] end) IMAGE_META_ATTRS). intros L E.
        destruct a as [|x a]; cbn [app] in E; [discriminate|]. injection E as _ ->. apply in_app_iff. right. now left. }
      apply in_flat_map in I as (k & _ & I). unfold of_format. destruct (o_attrs im k) as [[]|] eqn:Ek; cbn in I; try (destruct I as [I|[]]); try (now destruct I); injection I as -> E'; try discriminate. now subst. }
    destruct (dict_get m $"format") as [[]|]; try discriminate. cbn [rbind]. rewrite (H _ (G _ eq_refl)). discriminate.
  - assert (B : forall l d, (exists t, In t l /\ forall d, exists e, add_tag p im d t = Err e) -> forall r, add_tags p im d l <> Ok r).
    { induction l as [|x l IH]; intros d (t & I & Ht) r; [destruct I|]. cbn [add_tags]. destruct I as [->|I].
      - destruct (Ht d) as (e & ->). discriminate.
      - destruct (add_tag p im d x) as [d'|]; [|discriminate]. cbn [rbind]. apply IH. exists t. now split. }
    assert (T : exists t, In t (tags im) /\ forall d, exists e, add_tag p im d t = Err e).
    { destruct H as [(t & k & v & I & C & Ik & G)|(t & root & e & I & C & P & Ie & M)]; exists t; (split; [exact I|]); intros d; unfold add_tag; rewrite (tag_name_ok _ _ _ _ C).
      - rewrite str_eqb_refl. assert (K : forall l d, In (k, v) l -> add_gps_ifd p l d = Err KeyError).
        { clear - G. induction l as [|[k' v'] l IH]; intros d I; [destruct I|]. cbn [add_gps_ifd]. destruct I as [[= -> ->]|I]; [now rewrite G|]. destruct (GPSTAGS p k'); [now apply IH|reflexivity]. }
        rewrite (K _ _ Ik). eexists. reflexivity.
      - change (str_eqb $"XMLPacket" $"GPSInfo") with false. cbv iota. rewrite str_eqb_refl, P. cbn [rbind]. rewrite (unpack_mixed true root e Ie M). eexists. reflexivity. }
    destruct (match dict_get m $"format" with Some (PStr f) => Ok f | _ => Err KeyError end); [|discriminate]. cbn [rbind]. destruct (match MIME p _ with Some m => Ok m | None => Err KeyError end); [|discriminate]. cbn [rbind].
    unfold get_image_metadata. fold (tags im). destruct (add_tags p im [] (tags im)) as [r|] eqn:E; [|discriminate]. exfalso. exact (B _ _ T r E).
Qed.
Print Assumptions C85_refused.

(** ** A concrete case: a TIFF with a make, a position, an unnamed tag and a packet of XMP *)
Definition X_ : str := $"adobe:ns:meta/".
Definition a_packet : xml :=
  Elem ($"{" ++ X_ ++ $"}xmpmeta") [($"{" ++ X_ ++ $"}xmptk", $"XMP Core 5.1")] None None
    [Elem $"creator" [] (Some $"  MSSS ") None []; Elem $"empty" [] (Some [NL]) None [];
     Elem $"creator" [($"{http://www.w3.org/XML/1998/namespace}lang", $"en")] (Some $"NASA") None []].
Definition a_pillow : pillow :=
  mkPillow (fun n => match n with 271%N => Some $"Make" | 34853%N => Some $"GPSInfo" | 700%N => Some $"XMLPacket" | _ => None end)
    (fun n => match n with 1%N => Some $"GPSLatitudeRef" | 2%N => Some $"GPSLatitude" | _ => None end)
    (fun _ => $"unknown") (fun f => if str_eqb f $"TIFF" then Some $"image/tiff" else None) (fun _ => Ok a_packet) (fun _ => Ok []).
Definition an_image : opened :=
  mkOpened (fun a => if str_eqb a $"format" then Some (PStr $"TIFF") else if str_eqb a $"width" then Some (PInt 4) else None)
    [(271%N, PStr $"MSSS"); (34853%N, PInt 8); (50000%N, PInt 1); (700%N, PStr [])] None
    (fun _ => [(1%N, PStr $"N"); (2%N, PInt 40)]) None.
Definition a_nm (s : str) : str := strip_ns s.
Definition a_shown : pv :=
  PMulti [($"xmptk", PStr $"XMP Core 5.1"); ($"creator", PStr $"MSSS");
          ($"creator", PDict [($"attrib", PDict [($"lang", PStr $"en")]); ($"text", PStr $"NASA")])].
Ltac plain := let I := fresh in intros I; vm_compute in I; repeat (destruct I as [I|I]; [discriminate|]); destruct I.
Example C85_locals_meets : locals a_nm a_packet.
Proof.
  assert (P : forall s, ~ In "{"%char s -> local s (a_nm s)).
  { intros s N. unfold a_nm. rewrite (strip_local s s) by (now constructor). now constructor. }
  assert (C : forall u s, ~ In "}"%char u -> ~ In NL u -> ~ In "{"%char s -> local ($"{" ++ u ++ $"}" ++ s) (a_nm ($"{" ++ u ++ $"}" ++ s))).
  { intros u s N1 N2 N3. unfold a_nm. rewrite (strip_local _ s) by (now constructor). now constructor. }
  intros e I. inversion I as [|? c ? Ic Ie]; subst.
  - split; [apply (C X_ $"xmpmeta"); plain|]. constructor; [|constructor]. apply (C X_ $"xmptk"); plain.
  - cbn [children a_packet] in Ic. destruct Ic as [<-|[<-|[<-|[]]]]; (inversion Ie as [|? c ? Ic' _]; subst; [|destruct Ic']); (split; [apply P; plain|]); cbn [attributes]; constructor; [|constructor].
    apply (C $"http://www.w3.org/XML/1998/namespace" $"lang"); plain.
Qed.
Example C85_xmp_meets : shown a_nm a_packet (Some a_shown).
Proof. apply (C85_xmp a_nm a_packet _ C85_locals_meets). vm_compute. reflexivity. Qed.
Example C85_metadata_meets : exists ess, of_format an_image $"TIFF" /\ MIME a_pillow $"TIFF" = Some $"image/tiff" /\ Forall2 (entry a_pillow an_image) (tags an_image) ess /\
  skim_image_data a_pillow $"a.tif" an_image =
  Ok [($"fn", PStr $"a.tif"); ($"width", PInt 4); ($"format", PStr $"TIFF"); ($"mimetype", PStr $"image/tiff"); ($"Make", PStr $"MSSS");
      ($"LatitudeRef", PStr $"N"); ($"Latitude", PInt 40); ($"50000", PInt 1); ($"XMLPacket", a_shown)].
Proof.
  assert (NG : forall s, contains $"GPS" s = false -> ~ (exists a b, s = a ++ $"GPS" ++ b)).
  { intros s H K. apply contains_iff in K. congruence. }
  eexists. split; [reflexivity|]. split; [reflexivity|]. split; [|vm_compute; reflexivity].
  unfold tags. cbn [an_image o_exif o_mpinfo]. rewrite app_nil_r. repeat apply Forall2_cons; [| | | |constructor].
  - apply (entry_other _ _ _ _ $"Make"); [now constructor|discriminate|discriminate|discriminate].
  - apply entry_gps; [now constructor|]. apply (Forall2_cons (l := [(2%N, PInt 40)]) (1%N, PStr $"N") ($"LatitudeRef", PStr $"N") (l' := [($"Latitude", PInt 40)])).
    + split; [|reflexivity]. apply gps_prefix; [reflexivity|]. now apply NG.
    + constructor; [|constructor]. split; [|reflexivity]. apply gps_prefix; [reflexivity|]. now apply NG.
  - apply (entry_other _ _ _ _ (str_of_N 50000)); [|vm_compute; discriminate|vm_compute; discriminate|vm_compute; discriminate]. apply called_number; [reflexivity|now right].
  - eapply (entry_xml _ _ _ _ a_packet a_nm (Some a_shown)); [now constructor|reflexivity|exact C85_locals_meets|exact C85_xmp_meets].
Qed.
