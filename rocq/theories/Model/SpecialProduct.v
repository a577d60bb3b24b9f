(** Reading the objects of PDS3 products, with the special cases: Model/Product and
    Model/Checkers put together.  Models where the checkers are asked: pdr/pdr.py:445-456,
    pdr/loaders/dispatch.py:82, pdr/loaders/datawrap.py:78-205, pdr/loaders/queries.py:886-912,
    pdr/loaders/handlers.py:279-289.
    Simplification: all questions about an object are asked before it is read, in this order. *)
From Verif.Base Require Import Py Val.
From Verif.Model Require Import Files Meta Objects Dispatch Product Checkers.

Section SpecialProduct.
Variable x : outside.
Variable d : disk.
(** str(...) of a sequence, float(...), and what is made of an object by a handler that is
    called (it may leave it to the general rules: [None]) *)
Variable repr : pv -> str.
Variable float_of : pv -> res QArith_base.Q.
Variable handled : checker -> action -> product -> str -> option path -> option (res Product.object).

(** metadata.identifiers (C10) and the rest of what checkers look at *)
Definition identifiers (p : product) (f : str) : pv :=
  match mget (walk_order x) (p_meta p) (p_keys p) f with
  | PNone => PStr []
  | PTuple l => PStr (repr (PTuple l))
  | PSet l => PStr (repr (PSet l))
  | v => v
  end.
Definition asked_about (p : product) (name : str) (file : str) : asked :=
  mkAsked (identifiers p) name file
    (match get_block (walk_order x) (p_meta p) (p_keys p) (format_file x) (p_found p) name with Ok b => b | Err _ => PNone end)
    (mget (walk_order x) (p_meta p) (p_keys p)) (idx (p_found p))
    (mget (walk_order x) (p_meta p) (p_keys p) $"SAMPLE_TYPE") float_of.
(** the questions for each loader; those about BIT_COLUMNs are a part of [bit_columns] of Model/Product *)
Definition consulted (k : Dispatch.kind) : list checker :=
  match k with
  | KLabel => [LabelText]
  | KImage => [BlockOf; Offset; SampleType; BandStorage; CompressedReader]
  | KTable => [BlockOf; Offset; Position; Structure; SampleType; TableReader]
  | KArray => [BlockOf; Offset; Structure; SampleType]
  | KHeader => [BlockOf; Offset; Position]
  | KFits => [BlockOf; Offset; FitsStart]
  | _ => []
  end.
(** the first special case that applies and does not leave the object to the general rules *)
Fixpoint first_special (p : product) (name : str) (q : option path) (file : str) (l : list checker) : res (option (res Product.object)) :=
  match l with
  | [] => Ok None
  | c :: l =>
      do a <- check c (asked_about p name file);
      match a with
      | Nothing => first_special p name q file l
      | a => match handled c a p name q with Some r => Ok (Some r) | None => first_special p name q file l end
      end
  end.
Definition load_special (p : product) (name : str) : res Product.object :=
  if negb (str_in name (idx (p_found p))) then Err KeyError
  else
    do s <- first_special p name None (pstr (p_filename p)) [FileName];
    match s with
    | Some r => r
    | None =>
        do q <- snd (target_path (walk_order x) (p_meta p) (p_keys p) (p_filename p) (p_dirs p) (listing d) None (compkeys x) (files (p_found p)) true false name);
        match q with
        | None => Err FileNotFoundError
        | Some q =>
            do s <- (if is_trivial name then Ok None else first_special p name (Some q) (pstr (p_filename p)) [Trivial]);
            match s with
            | Some r => r
            | None =>
                let k := pointer_to_loader (fun _ => false) (identifier x (p_meta p) (p_keys p) $"DATA_SET_ID") (pname q) name in
                do s <- first_special p name (Some q) (pstr q) (consulted k);
                match s with Some r => r | None => read_object x d p name q end
            end
        end
    end.
End SpecialProduct.
