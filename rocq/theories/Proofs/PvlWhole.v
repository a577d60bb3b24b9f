(** Composition: the whole of [parse_pvl], and pointer names. *)
From Coq Require Import Permutation.
From Verif.Base Require Import Py Val PyFacts.
From Verif.Model Require Import Pvl PvlLiteral.
From Verif.Spec Require Import Pvl.
From Verif.Proofs Require Import PvlBlocks PvlText PvlPointers PvlLiteral.

Lemma completed_keys_post_entry e :
  completed_keys e = keys_post (snd (denote_entry e)) ++ [fst (denote_entry e)].
Proof.
  induction e as [k v|kw name body ek ev IH] using entry_ind'; [reflexivity|].
  cbn [completed_keys denote_entry fst snd keys_post]. f_equal.
  induction IH as [|e body He _ IHb]; [reflexivity|].
  cbn [flat_map map]. now rewrite He, IHb.
Qed.
Lemma completed_keys_post es :
  flat_map completed_keys es = keys_post (PMulti (denote es)).
Proof.
  cbn [keys_post]. unfold denote. induction es as [|e es IH]; [reflexivity|].
  cbn [flat_map map]. now rewrite completed_keys_post_entry, IH.
Qed.

Lemma string_leaves_multi kvs :
  string_leaves (PMulti kvs) <-> Forall (fun kv => string_leaves (snd kv)) kvs.
Proof.
  induction kvs as [|kv kvs IH]; [split; constructor|]. split.
  - intros [H1 H2]. constructor; [exact H1|]. now apply IH.
  - intros H. inversion H; subst. split; [assumption|]. now apply IH.
Qed.
Lemma string_leaves_denote_entry e : string_leaves (snd (denote_entry e)).
Proof.
  induction e as [k v|kw name body ek ev IH] using entry_ind'; [exact I|].
  cbn [denote_entry snd]. apply string_leaves_multi. now apply Forall_map.
Qed.
Lemma string_leaves_denote es : string_leaves (PMulti (denote es)).
Proof.
  apply string_leaves_multi. apply Forall_map. apply Forall_forall.
  intros e _. apply string_leaves_denote_entry.
Qed.
Lemma string_leaves_skeleton v v' : skeleton v = skeleton v' ->
  string_leaves v -> string_leaves v'.
Proof.
  revert v'. induction v as [v Hv|kvs IH] using pv_multi_ind; intros v' H Hs.
  - destruct v; cbn in Hs; try contradiction; try discriminate. cbn in H. destruct v'; try discriminate. exact I.
  - destruct v' as [| | | | | | | |kvs']; try discriminate.
    apply string_leaves_multi in Hs. apply string_leaves_multi.
    cbn in H. injection H as H. revert kvs' H.
    induction IH as [|kv kvs Hkv _ IHl]; intros [|kv' kvs'] H; try discriminate; [constructor|].
    cbn in H. injection H as H1 H2. inversion Hs; subst. constructor; auto.
Qed.

Lemma literalize_block_total lit m : tame lit -> string_leaves (PMulti m) ->
  exists m', literalize_pvl_block lit m = Ok m'.
Proof.
  intros Ht Hs. destruct (block_total lit (PMulti m) Ht Hs tt) as [r Hr].
  exists (snd r). unfold literalize_pvl_block. rewrite Hr. reflexivity.
Qed.

Theorem parse_pvl_whole lit o es lss : tame lit ->
  wf_label es -> Forall2 writes (label_statements es) lss ->
  uncommented (text_of_lines (concat lss)) ->
  no_clash (flat_map completed_keys es) -> blocks_match (flat_map completed_keys es) ->
  exists m mi ps T,
    parse_pvl lit o (text_of_lines (concat lss)) true = Ok (m, ps) /\
    (forall k, In k T <-> renamed_key (flat_map completed_keys es) k) /\
    keys_post (PMulti mi) = numbered T (flat_map completed_keys es) /\
    skeleton (PMulti mi) = skeleton (PMulti (denote es)) /\
    same_shape (fun v v' => exists s, v = PStr s /\ literalize lit s = Ok v')
               (PMulti mi) (PMulti m) /\
    Permutation ps (keys_post (PMulti mi)).
Proof.
  intros Ht Hwf Hw Hu Hc Hb. unfold parse_pvl.
  rewrite (label_of_text es lss Hwf Hw Hu). cbn [rbind].
  rewrite completed_keys_post in *.
  destruct (index_params o (denote es) Hc _ Hb (Permutation_refl _))
    as (mi & ps & T & E & HT & Hk & Hsk & Hp).
  rewrite E. cbn [rbind fst snd].
  destruct (literalize_block_total lit mi Ht) as [m Hm].
  { eapply string_leaves_skeleton; [symmetry; exact Hsk|apply string_leaves_denote]. }
  rewrite Hm. cbn [rbind]. exists m, mi, ps, T. repeat split; auto; try apply HT.
  apply literalize_block_shape in Hm. exact Hm.
Qed.

Theorem parse_pvl_plain lit o es lss dedup : tame lit ->
  wf_label es -> Forall2 writes (label_statements es) lss ->
  uncommented (text_of_lines (concat lss)) ->
  (dedup = true -> forall p, ~ renamed_pointer (flat_map completed_keys es) p) ->
  exists m,
    parse_pvl lit o (text_of_lines (concat lss)) dedup = Ok (m, flat_map completed_keys es) /\
    same_shape (fun v v' => exists s, v = PStr s /\ literalize lit s = Ok v')
               (PMulti (denote es)) (PMulti m).
Proof.
  intros Ht Hwf Hw Hu Hd. unfold parse_pvl.
  rewrite (label_of_text es lss Hwf Hw Hu). cbn [rbind].
  rewrite completed_keys_post in *.
  assert (E : (if dedup
    then index_duplicate_pointers (get_pds3_pointers o (denote es)) (denote es)
           (keys_post (PMulti (denote es)))
    else Ok (denote es, keys_post (PMulti (denote es)))) =
    Ok (denote es, keys_post (PMulti (denote es)))).
  { destruct dedup; [|reflexivity]. apply index_no_dups. auto. }
  rewrite E. cbn [rbind fst snd].
  destruct (literalize_block_total lit (denote es) Ht (string_leaves_denote es)) as [m Hm].
  rewrite Hm. exists m. split; [reflexivity|]. now apply literalize_block_shape in Hm.
Qed.

(** ** pointer names *)
Lemma depointerize_pointer t : depointerize ($"^" ++ t) = t.
Proof. reflexivity. Qed.
Lemma pointerize_pointer t : pointerize ($"^" ++ t) = $"^" ++ t.
Proof. reflexivity. Qed.
Lemma not_pointer s : ~ is_pointer s -> startswith $"^" s = false.
Proof.
  intros H. destruct (startswith $"^" s) eqn:E; [|reflexivity].
  apply startswith_iff in E. exfalso. apply H. exact E.
Qed.
