(** Model of the value-interpretation half of pdr/parselabel/pds3.py
    (lines 29-30, 155-184, 253-338).  Line numbers cite that file. *)
From Verif.Base Require Import Py Val.
From Verif.Model Require Import Pvl.

(** ** Python's [int(text, base)]
    Whitespace is stripped, an optional sign and an optional 0x/0o/0b prefix
    matching the base are accepted, single underscores may separate digits.
    Base 0 (prefix decides) is modelled for prefixed and decimal literals. *)
Fixpoint int_digits (b : N) (acc : N) (prev_us : bool) (s : str) : option N :=
  match s with
  | [] => if prev_us then None else Some acc
  | c :: s' =>
      if Ascii.eqb c "_"%char then
        if prev_us then None else int_digits b acc true s'
      else match digit_val c with
           | Some d => if (d <? b)%N then int_digits b (acc * b + d) false s'
                       else None
           | None => None
           end
  end.

Definition prefix_base (s : str) : option N :=
  match s with
  | z :: x :: _ =>
      if Ascii.eqb z "0"%char then
        if Ascii.eqb (to_lower x) "x"%char then Some 16%N
        else if Ascii.eqb (to_lower x) "o"%char then Some 8%N
        else if Ascii.eqb (to_lower x) "b"%char then Some 2%N
        else None
      else None
  | _ => None
  end.

(** unsigned part, after stripping and sign *)
Definition int_unsigned (b : N) (s : str) : res N :=
  let body p := (* digits after an accepted prefix; one underscore may follow it *)
    match p with
    | c :: p' => if Ascii.eqb c "_"%char then p' else p
    | [] => []
    end in
  let digits b s :=
    match s with
    | [] => Err ValueError
    | c :: _ => if Ascii.eqb c "_"%char then Err ValueError
                else match int_digits b 0 false s with
                     | Some n => Ok n
                     | None => Err ValueError
                     end
    end in
  match prefix_base s with
  | Some pb =>
      if (b =? 0)%N || (b =? pb)%N then digits pb (body (skipn 2 s))
      else digits b s
  | None =>
      if (b =? 0)%N then
        do n <- digits 10%N s;
        match s with
        | c :: _ => if Ascii.eqb c "0"%char && negb (n =? 0)%N then Err ValueError
                    else Ok n
        | [] => Err ValueError
        end
      else digits b s
  end.

Definition py_int (base : Z) (text : str) : res Z :=
  if ((base =? 0) || ((2 <=? base) && (base <=? 36)))%Z then
    let b := Z.to_N base in
    match strip text with
    | [] => Err ValueError
    | c :: s' =>
        if Ascii.eqb c "-"%char then do n <- int_unsigned b s'; Ok (- Z.of_N n)%Z
        else if Ascii.eqb c "+"%char then do n <- int_unsigned b s'; Ok (Z.of_N n)
        else do n <- int_unsigned b (c :: s'); Ok (Z.of_N n)
    end
  else Err ValueError.

(** pds3.py:253-262 [parse_non_base_10]; every ValueError becomes SyntaxError. *)
Definition parse_non_base_10 (text : str) : res Z :=
  match split_on "#"%char (removelast text) with
  | [base; number] =>
      match py_int 10 base with
      | Ok b => match py_int b number with
                | Ok n => Ok n
                | Err ValueError => Err SyntaxError
                | Err e => Err e
                end
      | Err ValueError => Err SyntaxError
      | Err e => Err e
      end
  | _ => Err SyntaxError
  end.

Definition brackets : str := $"{}()".

(** pds3.py:265-275 [parse_non_base_10_collection]; elements in order (a Python
    set forgets order and duplicates; the list here is what [set()] is given). *)
Definition parse_non_base_10_collection (is_set : bool) (obj : str) : res pv :=
  let body := filter (fun c => negb (Ascii.eqb c " "%char)) (strip_chars brackets obj) in
  do l <- rmap parse_non_base_10 (split_on ","%char body);
  Ok (if is_set then PSet (map PInt l) else PTuple (map PInt l)).

(** [re.match(r'.*\d{1,2}#', obj)]: a digit immediately followed by '#' in the
    first line. *)
Fixpoint digit_hash (s : str) : bool :=
  match s with
  | [] => false
  | c :: s' =>
      if Ascii.eqb c NL then false
      else (is_digit c && startswith $"#" s') || digit_hash s'
  end.

(** pds3.py:278-288 [parse_unusual_collection] *)
Definition parse_unusual_collection (obj : str) : res pv :=
  let is_set := startswith $"{" obj in
  let plain :=
    let l := map (fun s => PStr (strip_chars $" " s))
                 (split_on ","%char (strip_chars brackets obj)) in
    Ok (if is_set then PSet l else PTuple l) in
  if digit_hash obj then
    match parse_non_base_10_collection is_set obj with
    | Err SyntaxError | Err ValueError => plain
    | r => r
    end
  else plain.

(** pds3.py:29 PVL_QUANTITY_VALUE: [re.search] for
    ((\d|\.|-)+([eE]-?\d+)?)|NULL|UNK|N/A  -- leftmost match, greedy. *)
Definition is_numch (c : ascii) : bool :=
  is_digit c || Ascii.eqb c "."%char || Ascii.eqb c "-"%char.
Fixpoint span (f : ascii -> bool) (s : str) : str * str :=
  match s with
  | c :: s' => if f c then let '(a, b) := span f s' in (c :: a, b) else ([], s)
  | [] => ([], [])
  end.
Definition match_exponent (s : str) : str :=
  match s with
  | e :: s1 =>
      if Ascii.eqb e "e"%char || Ascii.eqb e "E"%char then
        let '(sign, s2) := match s1 with
                           | c :: s2 => if Ascii.eqb c "-"%char then ([c], s2) else ([], s1)
                           | [] => ([], [])
                           end in
        match fst (span is_digit s2) with
        | [] => []
        | ds => e :: sign ++ ds
        end
      else []
  | [] => []
  end.
Fixpoint search_value (s : str) : option str :=
  match fst (span is_numch s) with
  | (_ :: _) as m => Some (m ++ match_exponent (snd (span is_numch s)))
  | [] =>
      if startswith $"NULL" s then Some $"NULL"
      else if startswith $"UNK" s then Some $"UNK"
      else if startswith $"N/A" s then Some $"N/A"
      else match s with
           | [] => None
           | _ :: s' => search_value s'
           end
  end.

(** pds3.py:30 PVL_QUANTITY_UNITS, [re.search] for a less-than sign, any
    characters but newline (greedy), a greater-than sign; group 1: the text from
    the leftmost less-than for which there is one, to the last greater-than of
    the same line. *)
Fixpoint upto_last_gt (s : str) : option str :=
  match s with
  | [] => None
  | c :: s' =>
      if Ascii.eqb c NL then None
      else match upto_last_gt s' with
           | Some t => Some (c :: t)
           | None => if Ascii.eqb c ">"%char then Some [] else None
           end
  end.
Fixpoint search_units (s : str) : option str :=
  match s with
  | [] => None
  | c :: s' =>
      if Ascii.eqb c "<"%char then
        match upto_last_gt s' with
        | Some u => Some u
        | None => search_units s'
        end
      else search_units s'
  end.

Section Literal.
  (** [ast.literal_eval]: external; errors as values *)
  Variable literal_eval : str -> res pv.

  (** pds3.py:291-322 [literalize_pvl] on a string, with
      pds3.py:155-184 [parse_pvl_quantity_object] and
      [parse_pvl_quantity_statement] inlined as local functions because they
      are mutually recursive with it.  Fuel bounds the mutual recursion (each
      nested call is on a shorter string). *)
  Fixpoint literalize_fuel (fuel : nat) (obj : str) : res pv :=
    match fuel with
    | O => Err OutOfFuel
    | S f =>
        let quantity_object (o : str) : res pv :=
          match search_value o with
          | None => Err AttributeError
          | Some v =>
              do value <- literalize_fuel f v;
              match search_units o with
              | None => Err AttributeError
              | Some u => do units <- literalize_fuel f u;
                          Ok (PDict [($"value", value); ($"units", units)])
              end
          end in
        let quantity_item (o : str) : res pv :=
          if has_char "<"%char o && has_char ">"%char o then
            match quantity_object o with
            | Err AttributeError => Ok (PStr o)
            | r => r
            end
          else literalize_fuel f o in
        let quantity_statement (s : str) : res pv :=
          do out <- rmap quantity_item (split_on ","%char (strip_chars $"()" s));
          match out with
          | [x] => Ok x
          | _ => Ok (PTuple out)
          end in
        let first :=
          if negb (startswith [""""%char] obj) && has_char "#"%char (zslice 1 3 obj)
          then do z <- parse_non_base_10 obj; Ok (PInt z)
          else literal_eval obj in
        match first with
        | Ok v => Ok v
        | Err SyntaxError | Err ValueError =>
            let second :=
              if has_char "<"%char obj && has_char ">"%char obj
              then quantity_statement obj
              else match obj with
                   | [] => Err IndexError
                   | c :: _ => if Ascii.eqb c "("%char || Ascii.eqb c "{"%char
                               then parse_unusual_collection obj
                               else Ok (PStr obj)
                   end in
            match second with
            | Ok v => Ok v
            | Err SyntaxError | Err ValueError | Err IndexError => Ok (PStr obj)
            | Err e => Err e
            end
        | Err e => Err e
        end
    end.
  Definition literalize (obj : str) : res pv :=
    literalize_fuel (S (S (length obj))) obj.

  (** pds3.py:325-338 [literalize_pvl_block]: values that are not MultiDicts are
      replaced.  Values of a freshly parsed label are strings; on anything else
      [obj.startswith] raises AttributeError. *)
  Definition literalize_value (u : unit) (v : pv) : res (unit * pv) :=
    match v with
    | PStr s => do v' <- literalize s; Ok (u, v')
    | _ => Err AttributeError
    end.
  Definition literalize_pvl_block (m : multidict) : res multidict :=
    do r <- multidict_dig_and_edit
              (fun _ v => negb (is_multi v)) false true
              (fun u k => Ok (u, k)) literalize_value tt m;
    Ok (snd r).

  (** pds3.py:140-153 [parse_pvl] *)
  Definition parse_pvl (o : order) (label : str) (deduplicate_pointers : bool)
    : res (multidict * list str) :=
    do r <- parse_statements (chunk_statements (trimmed_lines label));
    let '(mapping, ps, _) := r in
    do mp <- (if deduplicate_pointers
              then index_duplicate_pointers (get_pds3_pointers o mapping) mapping ps
              else Ok (mapping, ps));
    do m' <- literalize_pvl_block (fst mp);
    Ok (m', snd mp).
End Literal.
