(** What a PDS3 label means, independently of how pdr reads it. *)
From Coq Require Import Permutation.
From Verif.Base Require Import Py Val.

(** ** Abstract label syntax *)
(** A label is a sequence of entries: assignments, and named blocks.
    [kw]/[ek] are the bracket keywords as written (e.g. OBJECT / END_OBJECT);
    [ev] is whatever is written after the end keyword (usually the name). *)
Inductive entry :=
| Assign (key value : str)
| Blk (kw name : str) (body : list entry) (ek ev : str).

Definition opens_block (k : str) : Prop :=
  k = $"OBJECT" \/ k = $"GROUP" \/ k = $"BEGIN_OBJECT" \/ k = $"BEGIN_GROUP".
(** pdr treats every parameter beginning with END as a closing bracket *)
Definition closes_block (k : str) : Prop := exists t, k = $"END" ++ t.
Definition plain_key (k : str) : Prop := ~ opens_block k /\ ~ closes_block k.

Fixpoint wf_entry (e : entry) : Prop :=
  match e with
  | Assign k _ => plain_key k
  | Blk kw _ body ek _ =>
      opens_block kw /\ ~ opens_block ek /\ closes_block ek /\
      (fix all (l : list entry) : Prop :=
         match l with [] => True | x :: l' => wf_entry x /\ all l' end) body
  end.
Definition wf_label (es : list entry) : Prop := Forall wf_entry es.

(** The statements of a label, in the order in which they are written *)
Fixpoint statements_of (e : entry) : list (str * str) :=
  match e with
  | Assign k v => [(k, v)]
  | Blk kw name body ek ev =>
      (kw, name) :: flat_map statements_of body ++ [(ek, ev)]
  end.
Definition label_statements (es : list entry) : list (str * str) :=
  flat_map statements_of es.

(** The mapping a label denotes: one item per entry, in order, blocks nested *)
Fixpoint denote_entry (e : entry) : str * pv :=
  match e with
  | Assign k v => (k, PStr v)
  | Blk _ name body _ _ => (name, PMulti (map denote_entry body))
  end.
Definition denote (es : list entry) : multidict := map denote_entry es.

(** All keys at all levels, each block's name after its contents (i.e. in the
    order in which assignments and blocks are completed). *)
Fixpoint completed_keys (e : entry) : list str :=
  match e with
  | Assign k _ => [k]
  | Blk _ name body _ _ => flat_map completed_keys body ++ [name]
  end.
(** All keys of a mapping at all levels, in document order. *)
Fixpoint keys_of (v : pv) : list str :=
  match v with
  | PMulti kvs => flat_map (fun kv => fst kv :: keys_of (snd kv)) kvs
  | _ => []
  end.

(** ** Malformed labels *)
(** A statement sequence never closes the block it is inside of, if no prefix
    of it has more closing than opening statements. *)
Definition is_open (s : str * str) (b : bool) : Prop := (b = true <-> opens_block (fst s)).
Inductive never_closes : list (str * str) -> Prop :=
| NC_nil : never_closes []
| NC_assign k v l : plain_key k -> never_closes l -> never_closes ((k, v) :: l)
| NC_open k v l : opens_block k -> never_closes l -> never_closes ((k, v) :: l)
| NC_block e l : wf_entry e -> never_closes l -> never_closes (statements_of e ++ l).

(** Top level of a possibly malformed label: entries and stray END statements *)
Inductive top := Ent (e : entry) | Stray (k v : str).
Definition wf_top (t : top) : Prop :=
  match t with
  | Ent e => wf_entry e
  | Stray k _ => ~ opens_block k /\ closes_block k
  end.
Definition top_statements (t : top) : list (str * str) :=
  match t with Ent e => statements_of e | Stray k v => [(k, v)] end.
Definition top_entries (ts : list top) : list entry :=
  flat_map (fun t => match t with Ent e => [e] | Stray _ _ => [] end) ts.

(** ** Physical text *)
Definition blank (s : str) : Prop := Forall (fun c => is_space c = true) s.
Definition trimmed (s : str) : Prop := strip s = s.
(** no newline inside a physical line *)
Definition one_line (s : str) : Prop := ~ In NL s.
(** no lower-case letter among the first eight characters *)
Definition upper8 (s : str) : Prop :=
  forall i c, (i < 8)%nat -> nth_error s i = Some c -> is_lower c = false.

(** [continues l]: a physical line that does not begin a new statement *)
Definition continues (l : str) : Prop :=
  (~ In "="%char l \/ ~ upper8 (strip l)) /\
  ~ (exists t, strip l = $"END_OBJECT" ++ t) /\ strip l <> $"END" /\
  one_line l.

(** [writes s ls]: the physical lines [ls] write the statement [s]. *)
Inductive writes : str * str -> list str -> Prop :=
| W_assign w1 k w2 w3 h w4 conts :
    blank w1 -> blank w2 -> blank w3 -> blank w4 ->
    trimmed k -> k <> [] -> trimmed h -> ~ In "="%char k -> ~ In "="%char h ->
    upper8 (k ++ w2 ++ $"=" ++ w3 ++ h) ->
    ~ (exists t, k = $"END_OBJECT" ++ t) ->
    Forall continues conts ->
    one_line (w1 ++ k ++ w2 ++ $"=" ++ w3 ++ h ++ w4) ->
    writes (k, h ++ join $" " (filter (fun l => negb (str_eqb l []))
                                      (map strip conts)))
           ((w1 ++ k ++ w2 ++ $"=" ++ w3 ++ h ++ w4) :: conts)
| W_end_object w1 t conts :
    blank w1 -> one_line (w1 ++ $"END_OBJECT" ++ t) ->
    Forall continues conts ->
    writes ($"END_OBJECT", []) ((w1 ++ $"END_OBJECT" ++ t) :: conts)
| W_end w1 w2 conts :
    blank w1 -> blank w2 -> one_line (w1 ++ $"END" ++ w2) ->
    Forall continues conts ->
    writes ($"END", []) ((w1 ++ $"END" ++ w2) :: conts).

(** the text consisting of the given physical lines *)
Definition text_of_lines (ls : list str) : str := join [NL] ls.
(** no comment opening anywhere *)
Definition uncommented (s : str) : Prop := ~ (exists a b, s = a ++ $"/*" ++ b).

(** ** Renaming duplicate pointers *)
(** All keys of a mapping, each after the keys inside its value: the order in
    which the corresponding label entries are completed. *)
Fixpoint keys_post (v : pv) : list str :=
  match v with
  | PMulti kvs => flat_map (fun kv => keys_post (snd kv) ++ [fst kv]) kvs
  | _ => []
  end.
(** The mapping with all key names erased: two mappings with the same [skeleton]
    have the same nesting, order and values, and differ at most in key names. *)
Fixpoint skeleton (v : pv) : pv :=
  match v with
  | PMulti kvs => PMulti (map (fun kv => ([], skeleton (snd kv))) kvs)
  | _ => v
  end.
Definition occurrences (k : str) (ks : list str) : nat :=
  length (filter (str_eqb k) ks).
(** The name the [i]-th duplicate gets *)
Definition indexed (k : str) (i : nat) : str := k ++ $"_" ++ str_of_nat i.
(** Number every occurrence of a key of [T] by how many came before it *)
Fixpoint number_from (T : list str) (before ks : list str) : list str :=
  match ks with
  | [] => []
  | k :: ks' =>
      (if str_in k T then indexed k (occurrences k before) else k)
      :: number_from T (before ++ [k]) ks'
  end.
Definition numbered (T ks : list str) : list str := number_from T [] ks.

(** ** Numerals *)
(** value of a digit string in base [b], most significant digit first *)
Fixpoint numeral_value_from (b acc : N) (s : str) : option N :=
  match s with
  | [] => Some acc
  | c :: s' => match digit_val c with
               | Some d => if (d <? b)%N then numeral_value_from b (b * acc + d) s'
                           else None
               | None => None
               end
  end.
Definition numeral_value (b : N) (s : str) : option N :=
  match s with [] => None | _ => numeral_value_from b 0 s end.

(** a numeral whose digits may be separated by single underscores *)
Inductive grouped (b : N) : str -> N -> Prop :=
| G_digit c d : digit_val c = Some d -> (d < b)%N -> grouped b [c] d
| G_next s n c d : grouped b s n -> digit_val c = Some d -> (d < b)%N -> grouped b (s ++ [c]) (b * n + d)
| G_sep s n c d : grouped b s n -> digit_val c = Some d -> (d < b)%N -> grouped b (s ++ ["_"%char; c]) (b * n + d).
Inductive signed_numeral (b : N) : str -> Z -> Prop :=
| SN_plain s n : grouped b s n -> signed_numeral b s (Z.of_N n)
| SN_plus s n : grouped b s n -> signed_numeral b ("+"%char :: s) (Z.of_N n)
| SN_minus s n : grouped b s n -> signed_numeral b ("-"%char :: s) (- Z.of_N n).
(** Python also takes 0x, 0o and 0b before the digits of the matching base *)
Definition prefixed (s : str) : Prop :=
  exists c t, In c $"xXoObB" /\ (s = "0"%char :: c :: t \/ s = "+"%char :: "0"%char :: c :: t \/ s = "-"%char :: "0"%char :: c :: t).

(** two mappings with the same keys, order and nesting whose leaves are related
    by [R] *)
Inductive same_shape (R : pv -> pv -> Prop) : pv -> pv -> Prop :=
| SS_leaf v v' : is_multi v = false -> R v v' -> same_shape R v v'
| SS_multi kvs kvs' :
    Forall2 (fun a b => fst a = fst b /\ same_shape R (snd a) (snd b)) kvs kvs' ->
    same_shape R (PMulti kvs) (PMulti kvs').

(** ** Which pointers are indexed *)
(** A pointer is renamed when it occurs more than once, unless it is a
    STRUCTURE or PDS_OBJECT pointer; its object blocks are renamed too unless it
    is a DESCRIPTION pointer. *)
Definition mentions (sub s : str) : Prop := exists a b, s = a ++ sub ++ b.
Definition is_pointer (k : str) : Prop := exists t, k = $"^" ++ t.
Definition object_name (p : str) : str := match p with [] => [] | _ :: t => t end.
Definition renamed_pointer (ks : list str) (p : str) : Prop :=
  is_pointer p /\ (2 <= occurrences p ks)%nat /\
  ~ mentions $"STRUCTURE" p /\ ~ mentions $"PDS_OBJECT" p.
(** keys that get a number: such pointers and the objects they point to *)
Definition renamed_key (ks : list str) (k : str) : Prop :=
  renamed_pointer ks k \/
  exists p, renamed_pointer ks p /\ ~ mentions $"DESCRIPTION" p /\ k = object_name p.
(** no renamed pointer has, or looks like, the new name of another one; no
    pointer is itself a pointer to a caret name *)
Definition no_clash (ks : list str) : Prop :=
  (forall p q j, renamed_pointer ks p -> renamed_pointer ks q -> indexed p j <> q) /\
  (forall p, renamed_pointer ks p -> ~ is_pointer (object_name p)).
(** every renamed pointer has at most / exactly as many object blocks *)
Definition blocks_at_most (ks : list str) : Prop :=
  forall p, renamed_pointer ks p -> ~ mentions $"DESCRIPTION" p ->
            (occurrences (object_name p) ks <= occurrences p ks)%nat.
Definition blocks_match (ks : list str) : Prop :=
  forall p, renamed_pointer ks p -> ~ mentions $"DESCRIPTION" p ->
            occurrences (object_name p) ks = occurrences p ks.

(** ** Values *)
(** a based integer as written in a label *)
Definition based (b : N) (s : str) : str := str_of_N b ++ $"#" ++ s ++ $"#".

(** ** collections of based integers *)
(** items as written: base, digits, surrounding blanks (space characters) *)
Definition spaces (k : nat) : str := repeat " "%char k.
Definition item := (nat * N * str * nat)%type.
Definition item_text (i : item) : str :=
  let '(l, b, s, r) := i in spaces l ++ based b s ++ spaces r.
Definition item_value (i : item) (n : N) : Prop :=
  let '(_, b, s, _) := i in (2 <= b <= 36)%N /\ numeral_value b s = Some n.

(** [ast.literal_eval] signals unreadable text by SyntaxError or ValueError only *)
Definition tame (lit : str -> res pv) : Prop :=
  forall s e, lit s = Err e -> e = SyntaxError \/ e = ValueError.

(** every leaf a string: interpretation succeeds *)
Fixpoint string_leaves (v : pv) : Prop :=
  match v with
  | PStr _ => True
  | PMulti kvs => (fix all (l : multidict) : Prop :=
                     match l with [] => True | kv :: l' => string_leaves (snd kv) /\ all l' end) kvs
  | _ => False
  end.

(** ** Lists of words *)
(** a word with blanks around it; the word neither begins nor ends with a blank *)
Definition word_item : Type := nat * str * nat.
Definition word_text (i : word_item) : str := let '(l, w, r) := i in spaces l ++ w ++ spaces r.
Definition wf_word (i : word_item) : Prop :=
  let '(_, w, _) := i in
  (forall c, In c w -> ~ In c $",(){}<>#") /\ (forall t, w <> " "%char :: t) /\ (forall t, w <> t ++ $" ").
Definition word_of (i : word_item) : str := let '(_, w, _) := i in w.

(** ** Quantities *)
(** An item of a quantity statement as written: [l] blanks, a number, [w]
    blanks, units in angle brackets, [r] blanks; or any plain text. *)
Inductive qitem :=
| Quantity (l : nat) (number : str) (w : nat) (units : str) (r : nat)
| Plain (text : str).
Definition qtext (i : qitem) : str :=
  match i with
  | Quantity l v w u r => spaces l ++ v ++ spaces w ++ $"<" ++ u ++ $">" ++ spaces r
  | Plain s => s
  end.
(** decimal digits, points and minus signs *)
Definition number_char (c : ascii) : Prop :=
  is_digit c = true \/ c = "."%char \/ c = "-"%char.
(** the number of a quantity: digits, points and minus signs, possibly an exponent;
    or one of the words for no number *)
Inductive number_text : str -> Prop :=
| NT_plain v : v <> [] -> Forall number_char v -> number_text v
| NT_exponent v e sign ds : v <> [] -> Forall number_char v -> e = "e"%char \/ e = "E"%char ->
    sign = [] \/ sign = $"-" -> ds <> [] -> Forall (fun c => is_digit c = true) ds ->
    number_text (v ++ e :: sign ++ ds)
| NT_word v : In v [$"NULL"; $"UNK"; $"N/A"] -> number_text v.
Definition wf_qitem (i : qitem) : Prop :=
  match i with
  | Quantity _ v _ u _ => number_text v /\
      (forall c, In c u -> c <> ","%char /\ c <> "<"%char /\ c <> ">"%char /\ c <> "#"%char /\ c <> NL)
  | Plain s => s <> [] /\
      (forall c, In c s -> c <> ","%char /\ c <> "<"%char /\ c <> "#"%char /\ c <> "("%char /\ c <> ")"%char)
  end.
(** What an item means, given what texts without quantities mean *)
Inductive qmeaning (meaning : str -> pv -> Prop) : qitem -> pv -> Prop :=
| QM_quantity l v w u r a b : meaning v a -> meaning u b ->
    qmeaning meaning (Quantity l v w u r) (PDict [($"value", a); ($"units", b)])
| QM_plain s a : meaning s a -> qmeaning meaning (Plain s) a.
Definition is_quantity (i : qitem) : Prop := match i with Quantity _ _ _ _ _ => True | Plain _ => False end.
