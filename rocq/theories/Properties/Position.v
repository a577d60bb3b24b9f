(** Properties C15, C16, C49 and C50: finding an object in its file. *)
From Verif.Base Require Import Py PyFacts Val.
From Verif.Model Require Import Pvl Position.
From Verif.Spec Require Import Position.
Open Scope Z_scope.

Lemma md_has_eq m k : md_has m k = match md_get m k with Some _ => true | None => false end.
Proof.
  unfold md_has, md_get. induction m as [|kv m IH]; [reflexivity|]. cbn [existsb find].
  destruct (str_eqb (fst kv) k); [reflexivity|exact IH].
Qed.
Lemma md_has_get m k : md_has m k = true <-> exists v, md_get m k = Some v.
Proof.
  rewrite md_has_eq. destruct (md_get m k) as [v|]; split; intros H; try reflexivity; [now exists v|discriminate|].
  now destruct H.
Qed.
Lemma last_snoc l x : last_ (l ++ [x]) = Ok x.
Proof. unfold last_. now rewrite rev_app_distr. Qed.
Lemma last_inv l x : last_ l = Ok x -> exists f, l = f ++ [x].
Proof.
  unfold last_. destruct (rev l) as [|y r] eqn:E; [discriminate|]. intros [= ->].
  exists (rev r). rewrite <- (rev_involutive l), E. reflexivity.
Qed.
Lemma is_str_iff s v : is_str s v = true <-> v = PStr s.
Proof.
  destruct v; cbn; split; intros H; try easy.
  - apply str_eqb_eq in H. now subst.
  - injection H as ->. apply str_eqb_refl.
Qed.
Lemma blank_iff v : is_none_or_empty v = true <-> blank v.
Proof. unfold blank. destruct v as [| | | |[|c s]| | | |]; cbn; split; intros H; try easy; auto; destruct H; congruence. Qed.
Definition rsize (product : pv) (b : option multidict) : pv :=
  match b with
  | Some m => match md_get m $"RECORD_BYTES" with Some v => v | None => product end
  | None => product
  end.
Lemma rsize_iff product b v : record_size product b v <-> v = rsize product b.
Proof.
  unfold record_size, rsize, holds, lacks. destruct b as [m|]; [|easy].
  destruct (md_get m _) as [w|]; split; intros H.
  - destruct H as [H|[H _]]; congruence.
  - left. congruence.
  - destruct H as [H|[_ H]]; congruence.
  - right. split; congruence.
Qed.

(** ** C15 *)
(** The start byte is [z] exactly when the pointer, read as the standard says,
    names byte [z]; in every other case the call raises. *)
Lemma dsb_scalar product b size t z : (forall l, t <> PTuple l) -> (forall d, t <> PMulti d) ->
  data_start_byte product b t size = Ok z <-> starts_at product b size t z.
Proof.
  intros Hl Hm. unfold data_start_byte. fold (rsize product b).
  set (rb := rsize product b).
  assert (Hrb : forall v, record_size product b v <-> v = rb) by (intro; apply rsize_iff). clearbody rb.
  destruct t as [| |n| |s|l| |d|d]; cbn [rbind];
    try (split; [discriminate|inversion 1]); try (now destruct (Hl l)); try (now destruct (Hm d)).
  - (* integer *) destruct (Z.eqb_spec n 1) as [->|Hn].
    + split; [intros [= <-]; constructor|]. inversion 1; subst; try lia; try reflexivity.
    + destruct (is_none_or_empty rb) eqn:Eb; cbn [negb].
      * assert (Hb := proj1 (blank_iff _) Eb). destruct b as [m|].
        -- destruct (md_has m $"ROWS") eqn:Er; cbn [rbind].
           ++ unfold item_. apply md_has_get in Er as [rows Er]. rewrite Er. cbn [rbind].
              destruct (md_get m $"ROW_BYTES") as [w|] eqn:Ew; cbn [rbind].
              ** unfold count_from_bottom. split.
                 { intros H. destruct rows, w; cbn in H; try discriminate.
                   destruct (Z.max 0 (size - z0 * z1) <? 0) eqn:E; [discriminate|]. injection H as <-.
                   apply (at_bottom product (Some m) size n m rb); auto. now apply Hrb. }
                 { inversion 1; subst; try lia; unfold holds in *.
                   - apply Hrb in H3. rewrite <- H3 in Hb. destruct Hb; congruence.
                   - apply Hrb in H2. rewrite <- H2 in Hb. destruct Hb; congruence.
                   - injection H4 as <-. rewrite Er in H5. rewrite Ew in H6. injection H5 as ->. injection H6 as ->.
                     cbn. destruct (Z.max 0 (size - rows0 * width) <? 0) eqn:E; [lia|reflexivity]. }
              ** split; [discriminate|]. inversion 1; subst; try lia; unfold holds in *.
                 { apply Hrb in H3. rewrite <- H3 in Hb. destruct Hb; congruence. }
                 { apply Hrb in H2. rewrite <- H2 in Hb. destruct Hb; congruence. }
                 { injection H4 as <-. congruence. }
           ++ split; [discriminate|]. inversion 1; subst; try lia; unfold holds in *.
              { apply Hrb in H3. rewrite <- H3 in Hb. destruct Hb; congruence. }
              { apply Hrb in H2. rewrite <- H2 in Hb. destruct Hb; congruence. }
              { injection H4 as <-. rewrite md_has_eq, H5 in Er. discriminate. }
        -- split; [discriminate|]. inversion 1; subst; try lia; try discriminate.
           { apply Hrb in H3. rewrite <- H3 in Hb. destruct Hb; congruence. }
           { apply Hrb in H2. rewrite <- H2 in Hb. destruct Hb; congruence. }
      * assert (Hb : ~ blank rb) by (intros H; apply blank_iff in H; congruence).
        split.
        -- intros H. destruct rb as [| |r| | | | | |] eqn:E0; cbn [py_mul rbind] in H; try discriminate.
           destruct (r * Z.max (n - 1) 0 <? 0) eqn:E; [discriminate|]. injection H as <-.
           destruct (Z.leb_spec n 1).
           ++ replace (r * Z.max (n - 1) 0) with 0 by nia. apply at_record_below with r; [lia|]. now apply Hrb.
           ++ replace (r * Z.max (n - 1) 0) with ((n - 1) * r) by nia. constructor; [lia|nia|now apply Hrb].
        -- inversion 1; subst; try lia.
           ++ apply Hrb in H3. rewrite <- H3. cbn. destruct (r * Z.max (n - 1) 0 <? 0) eqn:E; [nia|]. f_equal. nia.
           ++ apply Hrb in H2. rewrite <- H2. cbn. destruct (r * Z.max (n - 1) 0 <? 0) eqn:E; [nia|]. f_equal. nia.
           ++ apply Hrb in H2. subst v. contradiction.
  - (* string *) split; [intros [= <-]; constructor|inversion 1; reflexivity].
  - (* quantity *)
    unfold quantity_start_byte, item_. destruct (md_get d $"units") as [u|] eqn:Eu; cbn [rbind].
    2:{ split; [discriminate|]. inversion 1; subst; unfold holds in *; congruence. }
    destruct (is_str $"BYTES" u) eqn:Es.
    + apply is_str_iff in Es. subst u. destruct (md_get d $"value") as [v|] eqn:Ev; cbn [rbind].
      2:{ split; [discriminate|]. inversion 1; subst; unfold holds in *; congruence. }
      split.
      * intros H. destruct v as [| |n| | | | | |]; cbn in H; try discriminate.
        destruct (n - 1 <? 0) eqn:E; [discriminate|]. injection H as <-. apply at_byte; auto; lia.
      * inversion 1; subst; unfold holds in *; [|congruence].
        rewrite Ev in H3. injection H3 as ->. cbn. destruct (n - 1 <? 0) eqn:E; [lia|reflexivity].
    + assert (Hu : u <> PStr $"BYTES") by (intros H; apply is_str_iff in H; congruence).
      destruct (md_get d $"value") as [v|] eqn:Ev; cbn [rbind].
      2:{ split; [destruct rb; discriminate|]. inversion 1; subst; unfold holds in *; congruence. }
      split.
      * intros H. destruct rb as [| |r| | | | | |] eqn:E0; cbn [rbind] in H; try discriminate;
          destruct v as [| |n| | | | | |]; cbn in H; try discriminate.
        destruct (r * Z.max (n - 1) 0 <? 0) eqn:E; [discriminate|]. injection H as <-.
        replace (r * Z.max (n - 1) 0) with (Z.max 0 (n - 1) * r) by (rewrite Z.max_comm; lia).
        apply at_unit with u; auto; [now apply Hrb|]. rewrite Z.max_comm. lia.
      * inversion 1; subst; unfold holds in *; [congruence|].
        apply Hrb in H4. rewrite <- H4. rewrite Ev in H3. injection H3 as ->. cbn.
        rewrite (Z.max_comm (n - 1)). destruct (r * Z.max 0 (n - 1) <? 0) eqn:E; [lia|]. f_equal. lia.
Qed.
Theorem C15_right_byte : forall product b size target z,
  (forall d, target <> PMulti d) -> (forall f d, target <> PTuple (f ++ [PMulti d])) -> (forall f l, target <> PTuple (f ++ [PTuple l])) ->
  data_start_byte product b target size = Ok z <-> starts_at product b size target z.
Proof.
  intros product b size t z Hm Hm' Hl.
  destruct t as [| | | | |l| | |]; try (apply dsb_scalar; [congruence|exact Hm]).
  destruct l as [|x l _] using rev_ind.
  - split; [discriminate|]. inversion 1. now destruct front.
  - assert (E : data_start_byte product b (PTuple (l ++ [x])) size = data_start_byte product b x size).
    { unfold data_start_byte at 1. rewrite last_snoc. cbn [rbind].
      destruct x; try reflexivity. now destruct (Hl l l0). }
    rewrite E, dsb_scalar.
    + split; [intros H; apply at_in_file; [intros l' ->; now apply (Hl l l')|exact H]|].
      inversion 1. apply app_inj_tail in H0 as [-> ->]. exact H2.
    + intros l' ->. now apply (Hl l l').
    + intros d ->. now apply (Hm' l d).
Qed.
Print Assumptions C15_right_byte.
(** No offset is ever negative. *)
Theorem C15_nonnegative : forall product b size target z, data_start_byte product b target size = Ok z -> 0 <= z.
Proof.
  intros product b size target z H. unfold data_start_byte in H.
  destruct (match target with PTuple l => last_ l | t => Ok t end) as [t|]; [|discriminate]. cbn [rbind] in H.
  match type of H with rbind ?e _ = _ => destruct e as [s|] end; [|discriminate]. cbn [rbind] in H.
  destruct s; try discriminate. destruct (Z.ltb_spec z0 0); [discriminate|]. injection H as <-. lia.
Qed.
Print Assumptions C15_nonnegative.
(** The answer depends on nothing else: two readings of the same pointer agree. *)
Theorem C15_unique : forall product b size target z z',
  (forall d, target <> PMulti d) -> (forall f d, target <> PTuple (f ++ [PMulti d])) -> (forall f l, target <> PTuple (f ++ [PTuple l])) ->
  starts_at product b size target z -> starts_at product b size target z' -> z = z'.
Proof.
  intros product b size t z z' H1 H2 H3 A B. apply (C15_right_byte product b size t z H1 H2 H3) in A.
  apply (C15_right_byte product b size t z' H1 H2 H3) in B. congruence.
Qed.
Print Assumptions C15_unique.
Definition dq (n : Z) (u : str) : pv := PDict [($"value", PInt n); ($"units", PStr u)].
Example C15_meets :
  data_start_byte (PInt 512) (Some []) (PTuple [PStr $"A.DAT"; PInt 7]) 9999 = Ok 3072 /\
  data_start_byte (PInt 512) None (PTuple [PStr $"A.DAT"; dq 101 $"BYTES"]) 9999 = Ok 100 /\
  data_start_byte (PStr []) (Some [($"ROWS", PInt 10); ($"ROW_BYTES", PInt 30)]) (PInt 3) 1000 = Ok 700 /\
  starts_at (PInt 512) (Some []) 9999 (PTuple ([PStr $"A.DAT"] ++ [PInt 7])) 3072.
Proof.
  repeat split. apply at_in_file; [discriminate|].
  apply (at_record (PInt 512) (Some []) 9999 7 512); [lia|lia|]. right. now split.
Qed.

(** [standalone_start_byte] does not answer about the object it is asked for:
    it always looks up IMAGE. *)
Theorem C15_standalone_refuted : exists metaget metablock rb size name z z',
  start_byte_of metaget metablock rb size name = Ok z /\
  standalone_start_byte metaget metablock rb size name = Ok z' /\ z <> z'.
Proof.
  exists (fun k => if str_eqb k $"^TABLE" then PInt 5 else if str_eqb k $"^IMAGE" then PInt 9 else PNone),
    (fun _ => PMulti []), (PInt 100), 5000, $"TABLE", 400, 800.
  repeat split. discriminate.
Qed.
Print Assumptions C15_standalone_refuted.

(** the target of an object: what the label says under the object's own name unless
    that is a block, else under its pointer *)
Theorem C15_target : forall metaget name,
  ((metaget name = PNone \/ (exists kvs, metaget name = PDict kvs \/ metaget name = PMulti kvs)) -> get_target metaget name = metaget (pointerize name)) /\
  (metaget name <> PNone -> (forall kvs, metaget name <> PDict kvs /\ metaget name <> PMulti kvs) -> get_target metaget name = metaget name).
Proof.
  intros metaget name. unfold get_target. split.
  - intros [->|[kvs [->| ->]]]; reflexivity.
  - intros N H. destruct (metaget name) as [| | | | | | |l|l]; try reflexivity; [now destruct N|now destruct (proj1 (H l))|now destruct (proj2 (H l))].
Qed.
Print Assumptions C15_target.
Example C15_target_meets : let metaget := fun k => if str_eqb k $"IMAGE" then PMulti [($"LINES", PInt 2)] else if str_eqb k $"^IMAGE" then PInt 5 else PNone in
  get_target metaget $"IMAGE" = PInt 5 /\ get_target metaget $"^IMAGE" = PInt 5.
Proof. split; reflexivity. Qed.

(** ** C16 *)
Lemma records_iff m n : says_records m n -> extract_table_records m = as_value n.
Proof.
  unfold extract_table_records. inversion 1; unfold holds, lacks in *; subst; cbn [as_value];
    repeat match goal with E : md_get _ _ = _ |- _ => rewrite E; clear E end; reflexivity.
Qed.
Lemma has_lacks m k : lacks m k -> md_has m k = false.
Proof. unfold lacks. rewrite md_has_eq. now intros ->. Qed.
Lemma has_holds m k v : holds m k v -> md_has m k = true.
Proof. unfold holds. rewrite md_has_eq. now intros ->. Qed.
Lemma item_holds m k v : holds m k v -> item_ m k = Ok v.
Proof. unfold holds, item_. now intros ->. Qed.
Lemma length_of product m len : says_length product m len ->
  table_length (Some m) product (extract_table_records m) = Ok (as_value len).
Proof.
  Local Ltac look := repeat match goal with
    | E : lacks ?m ?k |- context [md_has ?m ?k] => rewrite (has_lacks m k E)
    | E : holds ?m ?k ?v |- context [md_has ?m ?k] => rewrite (has_holds m k v E)
    | E : holds ?m ?k ?v |- context [item_ ?m ?k] => rewrite (item_holds m k v E)
    end.
  unfold table_length. inversion 1; subst.
  - now look.
  - rewrite (records_iff m (Some n)) by assumption. cbn [as_value].
    match goal with W : says_width _ _ _ |- _ => inversion W; subst end; look; cbn [rbind].
    + cbn. do 2 f_equal. lia.
    + match goal with E : lacks m $"ROW_SUFFIX_BYTES" |- _ => unfold lacks in E; rewrite E end. cbn. do 2 f_equal. lia.
    + match goal with E : holds m $"ROW_SUFFIX_BYTES" _ |- _ => unfold holds in E; rewrite E end. cbn. do 2 f_equal. lia.
    + cbn. do 2 f_equal. lia.
  - rewrite (records_iff m None) by assumption. now look.
  - rewrite (records_iff m (Some n)) by assumption. cbn [as_value].
    match goal with W : says_width _ _ _ |- _ => inversion W; subst end. now look.
Qed.

(** ** C50 (used by C16) *)
Lemma in_bytes_iff t : (match t with PDict d => get_is d $"units" $"BYTES" | _ => false end) = true <-> in_bytes t.
Proof.
  unfold in_bytes, get_is, holds. split.
  - destruct t as [| | | | | | |d|]; try discriminate. intros H. exists d. split; [reflexivity|].
    destruct (md_get d $"units"); [|discriminate]. apply is_str_iff in H. now subst.
  - intros (d & -> & H). rewrite H. now apply is_str_iff.
Qed.
Theorem C50_stream_iff : forall product_bytes product_type name target m,
  target <> PTuple [] ->
  exists r, check_delimiter_stream product_bytes product_type name target (Some m) = Ok r /\
    (r = true <-> stream_table product_bytes product_type name target m).
Proof.
  intros pb pt name t m Ht. unfold check_delimiter_stream, stream_table.
  assert (L : exists last, (match t with PTuple l => last_ l | _ => Ok PNone end) = Ok last /\
    (in_bytes last <-> last_is in_bytes t)).
  { destruct t as [| | | | |l| | |]; try (eexists; split; [reflexivity|]; split;
      [intros (d & ? & _); discriminate|intros (f & x & ? & _); discriminate]).
    destruct l as [|x l _] using rev_ind; [contradiction|]. rewrite last_snoc. eexists. split; [reflexivity|]. split.
    - intros H. now exists l, x.
    - intros (f & y & E & H). injection E as E. now apply app_inj_tail in E as [_ ->]. }
  destruct L as (last & -> & L). cbn [rbind].
  assert (A := in_bytes_iff t). rewrite <- in_bytes_iff in L. clear Ht.
  destruct (match t with PDict d => get_is d $"units" $"BYTES" | _ => false end);
    [exists false; split; [reflexivity|]; split; [discriminate|intros [H _]; destruct H; now apply A]|].
  destruct (match last with PDict d => get_is d $"units" $"BYTES" | _ => false end);
    [exists false; split; [reflexivity|]; split; [discriminate|intros (_ & H & _); destruct H; now apply L]|].
  destruct (md_has m $"BYTES") eqn:Eb.
  { exists false. split; [reflexivity|]. split; [discriminate|]. intros (_ & _ & H & _). apply has_lacks in H. congruence. }
  assert (Hb : lacks m $"BYTES") by (unfold lacks; rewrite md_has_eq in Eb; destruct (md_get m _); congruence).
  destruct (is_none_or_empty pb) eqn:Ep; cbn [negb].
  2:{ exists false. split; [reflexivity|]. split; [discriminate|]. intros (_ & _ & _ & H & _). apply blank_iff in H. congruence. }
  apply blank_iff in Ep.
  destruct (is_str $"STREAM" pt) eqn:Es; cbn [negb].
  2:{ exists false. split; [reflexivity|]. split; [discriminate|]. intros (_ & _ & _ & _ & H & _). apply is_str_iff in H. congruence. }
  apply is_str_iff in Es. eexists. split; [reflexivity|].
  assert (Hn : existsb (fun l => contains l name) [$"ASCII"; $"SPREADSHEET"; $"HEADER"] = true <->
    (mentions name $"ASCII" \/ mentions name $"SPREADSHEET" \/ mentions name $"HEADER")).
  { unfold mentions. rewrite <- !contains_iff. cbn [existsb]. rewrite !orb_true_iff. intuition congruence. }
  rewrite Hn. split; [|intros (_ & _ & _ & _ & _ & H); exact H].
  intros H. split; [now intros X; apply A in X|]. split; [now intros X; apply L in X|]. auto.
Qed.
Print Assumptions C50_stream_iff.
Example C50_meets :
  stream_table (PStr []) (PStr $"STREAM") $"SPREADSHEET" (PTuple [PStr $"a.csv"; PInt 2]) [] /\
  check_delimiter_stream (PStr []) (PStr $"STREAM") $"SPREADSHEET" (PTuple [PStr $"a.csv"; PInt 2]) (Some []) = Ok true.
Proof.
  split; [|reflexivity]. split; [intros (d & E & _); discriminate|].
  split. { intros (f & x & E & (d & -> & _)). injection E as E. apply (f_equal (@rev pv)) in E. rewrite rev_app_distr in E. discriminate. }
  split; [reflexivity|]. split; [now right|]. split; [reflexivity|]. right. left. now exists [], [].
Qed.
(** The field separator named by the label is the one used; comma if none is
    named; an unknown name raises. *)
Theorem C50_delimiter : forall m,
  (lacks m $"FIELD_DELIMITER" -> check_explicit_delimiter m = Ok [","%char]) /\
  (forall name c, In (name, c) delimiters -> holds m $"FIELD_DELIMITER" (PStr name) -> check_explicit_delimiter m = Ok [c]) /\
  (forall v, holds m $"FIELD_DELIMITER" v -> ~ (exists name c, In (name, c) delimiters /\ v = PStr name) ->
     exists e, check_explicit_delimiter m = Err e /\ (e = KeyError \/ e = TypeError)).
Proof.
  intros m. unfold check_explicit_delimiter, holds, lacks, delimiters. split; [now intros ->|]. split.
  - intros name c H ->. cbn [In] in H. decompose [or] H; try contradiction; injection H0 as <- <- || injection H1 as <- <-; reflexivity.
  - intros v -> H. destruct v as [| | | |s| | | |]; try (eexists; split; [reflexivity|]; now auto).
    match goal with |- context [find ?f ?l] => destruct (find f l) as [[k w]|] eqn:E end; [|eexists; split; [reflexivity|]; now auto].
    exfalso. apply find_some in E as [E1 E2]. cbn [fst] in E2. apply str_eqb_eq in E2. subst k. apply H.
    cbn [In] in E1. exists s. decompose [or] E1; try contradiction;
      (injection H0 as <- <- || injection H1 as <- <-); eexists; (split; [|reflexivity]); cbn; auto.
Qed.
Print Assumptions C50_delimiter.
Example C50_delimiter_meets :
  check_explicit_delimiter [($"FIELD_DELIMITER", PStr $"SEMICOLON")] = Ok $";" /\
  check_explicit_delimiter [($"FIELD_DELIMITER", PStr $"COLON")] = Err KeyError.
Proof. split; reflexivity. Qed.

(** *** C16, tables located by bytes: start and length are the label's, and the
    text read is exactly those bytes of the file. *)
Theorem C16_extent : forall product ptype m target name start len,
  0 <= start -> target <> PTuple [] -> ~ stream_table product ptype name target m ->
  says_length product m len -> (len <> None \/ ~ mentions name $"HEADER") ->
  exists p, table_position product ptype (Some m) target name start = Ok p /\
    p_start p = start /\ p_length p = as_value len /\ p_as_rows p = false.
Proof.
  intros product ptype m target name start len Hs Ht Hn Hl Hh. unfold table_position.
  destruct (Z.ltb_spec start 0); [lia|].
  destruct (C50_stream_iff product ptype name target m Ht) as (r & -> & Hr). cbn [rbind].
  destruct r; [destruct Hn; now apply Hr|]. rewrite (length_of _ _ _ Hl). cbn [rbind].
  assert (E : match as_value len with PNone => true | _ => is_str $"UNK" (as_value len) end && contains $"HEADER" name = false).
  { destruct len; [reflexivity|]. cbn [as_value andb]. destruct Hh as [Hh|Hh]; [congruence|].
    apply not_true_iff_false. now rewrite contains_iff. }
  rewrite E. eexists. split; [reflexivity|]. cbn. auto.
Qed.
Print Assumptions C16_extent.
(** a negative start is refused *)
Theorem C16_negative_start : forall product ptype b target name start, start < 0 ->
  table_position product ptype b target name start = Err ValueError.
Proof. intros. unfold table_position. now rewrite (proj2 (Z.ltb_lt _ _)). Qed.
Print Assumptions C16_negative_start.
Theorem C16_bytes_read : forall file start len,
  0 <= start -> (match len with Some n => 0 <= n | None => True end) ->
  ascii_text file (mkPos start (as_value len) false) =
    Ok (match len with
        | Some n => firstn (Z.to_nat n) (skipn (Z.to_nat start) file)
        | None => skipn (Z.to_nat start) file
        end).
Proof.
  intros file start len Hs Hl. unfold ascii_text, head_file. cbn [p_as_rows p_start p_length].
  destruct (Z.ltb_spec start 0); [lia|]. destruct len as [n|]; [|reflexivity]. cbn [as_value].
  destruct (Z.ltb_spec n 0); [lia|reflexivity].
Qed.
Print Assumptions C16_bytes_read.
(** so a table of [rows] rows of [width] bytes is cut into exactly those rows *)
Theorem C16_exact_rows : forall file start rows width pre body post,
  0 <= rows -> 0 <= width -> file = pre ++ body ++ post -> Z.of_nat (List.length pre) = start ->
  Z.of_nat (List.length body) = rows * width ->
  ascii_text file (mkPos start (as_value (Some (rows * width))) false) = Ok body.
Proof.
  intros file start rows width pre body post Hr Hw -> <- Hb. rewrite C16_bytes_read by (cbn; nia).
  rewrite <- Hb, !Nat2Z.id. f_equal. rewrite skipn_app, skipn_all, Nat.sub_diag. cbn [skipn app].
  rewrite firstn_app, Nat.sub_diag, firstn_all, firstn_O. apply app_nil_r.
Qed.
Print Assumptions C16_exact_rows.
Example C16_meets :
  let m := [($"ROWS", PInt 10); ($"ROW_BYTES", PInt 30); ($"ROW_SUFFIX_BYTES", PInt 2)] in
  says_length (PInt 512) m (Some 320) /\
  table_position (PInt 512) (PStr $"FIXED_LENGTH") (Some m) (PInt 3) $"TABLE" 1024 = Ok (mkPos 1024 (PInt 320) false).
Proof.
  split; [|reflexivity].
  apply (by_product_of _ _ 10 32); [reflexivity|apply by_rows; reflexivity|].
  apply (by_row_and_suffix _ _ 30 2); reflexivity.
Qed.

(** Tables located by lines: the rows from the pointer's line on, as many as the
    label says, joined with CR LF; too few lines raise. *)
Theorem C16_rows : forall product ptype m fn k name start n file,
  stream_table product ptype name (PTuple [fn; PInt k]) m -> 0 <= start -> 1 <= k ->
  says_records m (Some n) -> 0 <= n ->
  exists p, table_position product ptype (Some m) (PTuple [fn; PInt k]) name start = Ok p /\ p_as_rows p = true /\
    (k - 1 + n <= Z.of_nat (List.length (file_lines file)) ->
       ascii_text file p = Ok (join [CR; NL] (firstn (Z.to_nat n) (skipn (Z.to_nat (k - 1)) (file_lines file))))) /\
    (Z.of_nat (List.length (file_lines file)) < k - 1 + n -> exists e, ascii_text file p = Err e).
Proof.
  intros product ptype m fn k name start n file Hst Hs Hk Hr Hn. unfold table_position.
  destruct (Z.ltb_spec start 0); [lia|].
  destruct (C50_stream_iff product ptype name (PTuple [fn; PInt k]) m ltac:(discriminate)) as (r & -> & H1).
  rewrite (proj2 H1 Hst). cbn [rbind]. unfold table_row_position. cbn [nth_error rbind].
  rewrite (records_iff _ _ Hr). cbn [as_value is_str andb].
  eexists. split; [reflexivity|]. split; [reflexivity|].
  unfold ascii_text. cbn [p_as_rows p_start p_length]. split; intros H2.
  - destruct ((0 <? k - 1) && (List.length (file_lines file) <? Z.to_nat (k - 1))%nat) eqn:E.
    + apply andb_true_iff in E as [_ E]. apply Nat.ltb_lt in E. lia.
    + destruct (Nat.ltb_spec (List.length (skipn (Z.to_nat (k - 1)) (file_lines file))) (Z.to_nat n)); [|reflexivity].
      rewrite skipn_length in H0. lia.
  - destruct ((0 <? k - 1) && (List.length (file_lines file) <? Z.to_nat (k - 1))%nat) eqn:E; [eexists; reflexivity|].
    destruct (Nat.ltb_spec (List.length (skipn (Z.to_nat (k - 1)) (file_lines file))) (Z.to_nat n)); [eexists; reflexivity|].
    rewrite skipn_length in H0. lia.
Qed.
Print Assumptions C16_rows.
Theorem C16_rows_open : forall product ptype m fn k name start file,
  stream_table product ptype name (PTuple [fn; PInt k]) m -> 0 <= start -> 1 <= k -> ~ mentions name $"HEADER" ->
  says_records m None -> k - 1 <= Z.of_nat (List.length (file_lines file)) ->
  exists p, table_position product ptype (Some m) (PTuple [fn; PInt k]) name start = Ok p /\ p_as_rows p = true /\ ascii_text file p = Ok (join [CR; NL] (skipn (Z.to_nat (k - 1)) (file_lines file))).
Proof.
  intros product ptype m fn k name start file Hst Hs Hk Hh Hr Hf. unfold table_position.
  destruct (Z.ltb_spec start 0); [lia|].
  destruct (C50_stream_iff product ptype name (PTuple [fn; PInt k]) m ltac:(discriminate)) as (r & -> & H1).
  rewrite (proj2 H1 Hst). cbn [rbind]. unfold table_row_position. cbn [nth_error rbind].
  rewrite (records_iff _ _ Hr). cbn [as_value is_str andb].
  destruct (contains $"HEADER" name) eqn:E; [apply contains_iff in E; contradiction|].
  eexists. split; [reflexivity|]. split; [reflexivity|].
  unfold ascii_text. cbn [p_as_rows p_start p_length].
  destruct ((0 <? k - 1) && (List.length (file_lines file) <? Z.to_nat (k - 1))%nat) eqn:E2; [|reflexivity].
  apply andb_true_iff in E2 as [_ E2]. apply Nat.ltb_lt in E2. lia.
Qed.
Print Assumptions C16_rows_open.
(** the lines of a file put together are the file *)
Theorem C16_lines : forall file, List.concat (file_lines file) = file /\
  Forall (fun l => l <> [] /\ ~ In NL (removelast l)) (file_lines file).
Proof.
  induction file as [|c s [IH1 IH2]]; [split; constructor|]. cbn [file_lines].
  destruct (Ascii.eqb_spec c NL) as [->|Hc].
  - split; [cbn; now rewrite IH1|]. constructor; [|exact IH2]. split; [discriminate|now intros []].
  - destruct (file_lines s) as [|l ls] eqn:E.
    + cbn in IH1. subst s. split; [reflexivity|]. constructor; [|constructor]. split; [discriminate|now intros []].
    + split; [cbn in *; now rewrite IH1|]. inversion IH2 as [|? ? [Hn Hl] Hls]; subst. constructor; [|exact Hls].
      split; [discriminate|]. destruct l as [|d l]; [contradiction|]. cbn [removelast] in *. intros [H|H]; [congruence|].
      now apply Hl.
Qed.
Print Assumptions C16_lines.
(** Where the label does not say, the length is not always left open: a product
    without RECORD_BYTES has the identifier "", the computed length is "" and
    reading raises. *)
Theorem C16_open_refuted : exists m p file,
  lacks m $"BYTES" /\ lacks m $"RECORD_BYTES" /\ lacks m $"ROW_BYTES" /\
  table_position (PStr []) (PStr $"FIXED_LENGTH") (Some m) (PStr $"a.tab") $"TABLE" 0 = Ok p /\
  p_length p = PStr [] /\ ascii_text file p = Err TypeError.
Proof. exists [($"ROWS", PInt 3)], (mkPos 0 (PStr []) false), $"abc". repeat split. Qed.
Print Assumptions C16_open_refuted.
(** Row prefixes are not counted: with ROW_PREFIX_BYTES the length is short. *)
Theorem C16_prefix_refuted : exists m p,
  holds m $"ROWS" (PInt 10) /\ holds m $"ROW_BYTES" (PInt 30) /\ holds m $"ROW_PREFIX_BYTES" (PInt 4) /\
  table_position PNone PNone (Some m) (PStr $"a.tab") $"TABLE" 0 = Ok p /\ p_length p = PInt 300.
Proof.
  exists [($"ROWS", PInt 10); ($"ROW_BYTES", PInt 30); ($"ROW_PREFIX_BYTES", PInt 4)], (mkPos 0 (PInt 300) false).
  repeat split.
Qed.
Print Assumptions C16_prefix_refuted.
(** A stream table whose pointer is a bare row number cannot be located. *)
Theorem C16_bare_row_refuted : exists m,
  stream_table PNone (PStr $"STREAM") $"SPREADSHEET" (PInt 3) m /\
  table_position PNone (PStr $"STREAM") (Some m) (PInt 3) $"SPREADSHEET" 0 = Err TypeError.
Proof.
  exists []. split; [|reflexivity]. split; [intros (d & E & _); discriminate|].
  split; [intros (f & x & E & _); discriminate|]. split; [reflexivity|]. split; [now left|].
  split; [reflexivity|]. right. left. now exists [], [].
Qed.
Print Assumptions C16_bare_row_refuted.

(** ** C49 *)
Lemma cle_no_cr_prefix l s : ~ In CR l -> cle (l ++ s) = l ++ cle s.
Proof.
  induction l as [|c l IH]; intros H; [reflexivity|]. cbn [app cle].
  destruct (Ascii.eqb_spec c CR) as [->|_]; [destruct H; now left|]. f_equal. apply IH. intros Hi. apply H. now right.
Qed.
Lemma cle_reads s : forall ls, reads_as s ls -> cle s = join [NL] ls.
Proof.
  intros ls H. induction H as [l H1 H2|l rest ls H1 H2 Hr IH|l rest ls H1 H2 Hr IH|l rest ls H1 H2 Hn Hr IH].
  - cbn. rewrite <- (app_nil_r l) at 1. rewrite cle_no_cr_prefix by exact H1. cbn. apply app_nil_r.
  - rewrite cle_no_cr_prefix by exact H1. cbn [app cle]. rewrite IH. destruct ls; [inversion Hr|]. reflexivity.
  - rewrite cle_no_cr_prefix by exact H1. cbn [app]. change (cle (CR :: NL :: rest)) with (NL :: cle rest). rewrite IH. destruct ls; [inversion Hr|]. reflexivity.
  - rewrite cle_no_cr_prefix by exact H1. cbn [app].
    assert (E : cle (CR :: rest) = NL :: cle rest).
    { cbn [cle]. change (Ascii.eqb CR CR) with true. cbn match. destruct rest as [|d r]; [reflexivity|].
      destruct (Ascii.eqb_spec d NL) as [->|_]; [now destruct (Hn r)|reflexivity]. }
    rewrite E, IH. destruct ls; [inversion Hr|]. reflexivity.
Qed.
Lemma reads_cons c s l ls : c <> CR -> c <> NL -> reads_as s (l :: ls) -> reads_as (c :: s) ((c :: l) :: ls).
Proof.
  intros Hc Hn H. inversion H; subst.
  - constructor; intros [?|?]; congruence || contradiction.
  - apply (reads_lf (c :: l)); [intros [?|?]; congruence || contradiction|intros [?|?]; congruence || contradiction|assumption].
  - apply (reads_crlf (c :: l)); [intros [?|?]; congruence || contradiction|intros [?|?]; congruence || contradiction|assumption].
  - apply (reads_cr (c :: l)); [intros [?|?]; congruence || contradiction|intros [?|?]; congruence || contradiction|assumption|assumption].
Qed.
Lemma reads_total : forall n s, (List.length s <= n)%nat -> exists ls, reads_as s ls.
Proof.
  induction n as [|n IH]; intros s Hl.
  - destruct s; [|cbn in Hl; lia]. exists [[]]. constructor; now intros [].
  - destruct s as [|c s]; [exists [[]]; constructor; now intros []|]. cbn in Hl.
    destruct (ascii_dec c NL) as [->|H1].
    { destruct (IH s) as [ls H]; [lia|]. exists ([] :: ls). apply (reads_lf []); try (now intros []). exact H. }
    destruct (ascii_dec c CR) as [->|H2].
    { destruct s as [|d s].
      - exists [[]; []]. apply (reads_cr [] []); try (now intros []); try discriminate. constructor; now intros [].
      - destruct (ascii_dec d NL) as [->|H3].
        + destruct (IH s) as [ls H]; [cbn in Hl; lia|]. exists ([] :: ls). apply (reads_crlf []); try (now intros []). exact H.
        + destruct (IH (d :: s)) as [ls H]; [lia|]. exists ([] :: ls). apply (reads_cr []); try (now intros []); [congruence|exact H]. }
    destruct (IH s) as [ls H]; [lia|]. destruct ls as [|l ls]; [inversion H|]. exists ((c :: l) :: ls). now apply reads_cons.
Qed.
Lemma cle_no_cr : forall n s, (List.length s <= n)%nat -> ~ In CR (cle s).
Proof.
  induction n as [|n IH]; intros s Hl; (destruct s as [|c s]; [intros []|]); [cbn in Hl; lia|]. cbn in Hl. cbn [cle].
  destruct (Ascii.eqb_spec c CR) as [->|Hc].
  - destruct s as [|d s]; [intros [H|[]]; discriminate|].
    destruct (Ascii.eqb d NL); (intros [H|H]; [discriminate|]); [apply (IH s); [cbn in Hl; lia|exact H]|apply (IH (d :: s)); [lia|exact H]].
  - intros [H|H]; [congruence|]. apply (IH s); [lia|exact H].
Qed.

(** Every text reads as exactly one list of lines, and canonicalizing it gives
    those lines separated by LF (so the number of lines is kept). *)
Theorem C49_lines : forall s, exists ls, reads_as s ls /\ (forall ls', reads_as s ls' -> ls' = ls) /\
  canonicalize_line_endings (PStr s) = PStr (join [NL] ls) /\ split_on NL (join [NL] ls) = ls.
Proof.
  intros s. destruct (reads_total _ s (le_n _)) as [ls H].
  assert (J : forall ls, reads_as s ls -> split_on NL (join [NL] ls) = ls).
  { clear. intros ls H. apply split_on_join.
    - inversion H; discriminate.
    - clear -H. induction H; constructor; auto. }
  exists ls. split; [exact H|]. split.
  - intros ls' H'. rewrite <- (J ls H), <- (J ls' H'). now rewrite <- (cle_reads s ls H), <- (cle_reads s ls' H').
  - split; [cbn; now rewrite (cle_reads s ls H)|now apply J].
Qed.
Print Assumptions C49_lines.
(** No CR is left; text without CR is unchanged; twice is the same as once. *)
Theorem C49_canonical : forall s, exists t,
  canonicalize_line_endings (PStr s) = PStr t /\ ~ In CR t /\ (~ In CR s -> t = s) /\
  canonicalize_line_endings (PStr t) = PStr t.
Proof.
  intros s. assert (H := cle_no_cr _ s (le_n _)).
  assert (N : forall t, ~ In CR t -> cle t = t).
  { intros t Ht. rewrite <- (app_nil_r t) at 1. rewrite cle_no_cr_prefix by exact Ht. cbn. apply app_nil_r. }
  exists (cle s). split; [reflexivity|]. split; [exact H|]. split; [apply N|]. cbn. now rewrite N.
Qed.
Print Assumptions C49_canonical.
(** Values that are not text, or lists of texts, are returned as they are. *)
Theorem C49_values : forall v,
  (forall s, v <> PStr s) -> (forall l, v <> PTuple l) -> canonicalize_line_endings v = v.
Proof. intros [] H1 H2; try reflexivity; [now destruct (H1 s)|now destruct (H2 l)]. Qed.
Print Assumptions C49_values.
Theorem C49_elements : forall l i,
  exists l', canonicalize_line_endings (PTuple l) = PTuple l' /\ List.length l' = List.length l /\
  match nth_error l i with
  | Some (PStr s) => exists t, nth_error l' i = Some (PStr t) /\ canonicalize_line_endings (PStr s) = PStr t
  | x => nth_error l' i = x
  end.
Proof.
  intros l i. eexists. split; [reflexivity|]. split; [apply map_length|].
  rewrite nth_error_map. destruct (nth_error l i) as [[]|]; try reflexivity. cbn. eexists. split; reflexivity.
Qed.
Print Assumptions C49_elements.
Example C49_meets :
  canonicalize_line_endings (PStr ($"a" ++ [CR; NL] ++ $"b" ++ [CR; CR; NL] ++ $"c" ++ [NL] ++ $"d")) =
    PStr (join [NL] [$"a"; $"b"; []; $"c"; $"d"]).
Proof. reflexivity. Qed.
