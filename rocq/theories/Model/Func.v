(** Model of pdr/func.py:15-229 and Loader.__call__, pdr/loaders/datawrap.py:51-74.
    Line numbers cite /repo/pdr/func.py.  Values are of any type [V]. *)
From Verif.Base Require Import Py.

(** inspect.Parameter: kind, name, the source text of its annotation, whether
    it has a default and that default's text *)
Inductive pkind := POSITIONAL_ONLY | POSITIONAL_OR_KEYWORD | VAR_POSITIONAL | KEYWORD_ONLY | VAR_KEYWORD.
Record param := mkParam { p_kind : pkind; p_name : str; p_ann : option str; p_default : option str }.

(** str(param) of inspect.Parameter.__str__: "name: ann = default",
    "name: ann", "name=default" or "name", with stars for variadic kinds *)
Definition param_str (p : param) : str :=
  let stars := match p_kind p with VAR_POSITIONAL => $"*" | VAR_KEYWORD => $"**" | _ => [] end in
  stars ++ p_name p
  ++ match p_ann p with Some a => $": " ++ a | None => [] end
  ++ match p_default p with
     | Some d => (match p_ann p with Some _ => $" = " | None => $"=" end) ++ d
     | None => []
     end.

(** re.split("[:=]", s) *)
Fixpoint split_by (f : ascii -> bool) (s : str) : list str :=
  match s with
  | [] => [[]]
  | c :: s' => if f c then [] :: split_by f s'
               else match split_by f s' with [] => [[c]] | w :: ws => (c :: w) :: ws end
  end.
Definition colon_or_eq (c : ascii) : bool := (Ascii.eqb c ":" || Ascii.eqb c "=")%char.
(** func.py:20-47 *)
Definition not_optional (p : param) : bool :=
  let parts := split_by colon_or_eq (param_str p) in
  let pstr := match parts with [w] => w | _ :: w :: _ => w | [] => [] end in
  let pstr := strip_chars $" '" pstr in
  if startswith $"Optional[" pstr || endswith $" | None" pstr || startswith $"None | " pstr then false
  else if str_in (p_name p) [$"_"; $"__"] then false
  else true.

(** Dictionaries with string keys, in insertion order. *)
Section Func.
  Variable V : Type.
  Definition kw := list (str * V).
  Definition keys (d : kw) : list str := map fst d.
  Fixpoint kget (d : kw) (k : str) : option V :=
    match d with
    | [] => None
    | (k', v) :: d' => if str_eqb k' k then Some v else kget d' k
    end.
  (** d[k] = v: in place if present, else at the end *)
  Fixpoint kset (d : kw) (k : str) (v : V) : kw :=
    match d with
    | [] => [(k, v)]
    | (k', v') :: d' => if str_eqb k' k then (k', v) :: d' else (k', v') :: kset d' k v
    end.

  (** A Python function: its signature, and what calling it with positional and
      keyword arguments does. *)
  Record pyfun := mkFun { f_params : list param; f_call : list V -> kw -> res V }.

  (** func.py:15-17 *)
  Definition get_argnames (f : pyfun) : list str := map p_name (f_params f).
  (** func.py:50-58 *)
  Definition get_non_optional_argnames (f : pyfun) : list str :=
    map p_name (filter not_optional (f_params f)).
  (** func.py:82-89 *)
  Definition filterkwargs (f : pyfun) (d : kw) : kw :=
    filter (fun kv => str_in (fst kv) (get_argnames f)) d.
  (** func.py:92-100 *)
  Definition call_kwargfiltered (f : pyfun) (args : list V) (d : kw) : res V :=
    f_call f args (filterkwargs f d).

  (** func.py:199-229 [softquery]; the dictionary of queries is a list of named
      functions.  Also returned: the queries that were called, each with the
      arguments it was given.  Tracking is not modelled. *)
  Definition required (f : pyfun) (queries : list (str * pyfun)) : list str :=
    get_non_optional_argnames f ++ flat_map (fun q => get_non_optional_argnames (snd q)) queries.
  Fixpoint run_queries (to_get : list str) (queries : list (str * pyfun)) (d : kw)
    : list (str * kw) * res kw :=
    match queries with
    | [] => ([], Ok d)
    | (q, f) :: rest =>
        if str_in q to_get then
          let passed := filterkwargs f d in
          match f_call f [] passed with
          | Ok v => let '(log, r) := run_queries to_get rest (kset d q v) in ((q, passed) :: log, r)
          | Err e => ([(q, passed)], Err e)
          end
        else run_queries to_get rest d
    end.
  Definition softquery (f : pyfun) (queries : list (str * pyfun)) (d : kw)
    : list (str * kw) * res kw :=
    let to_get := filter (fun a => negb (str_in a (keys d))) (required f queries) in
    let missing := filter (fun a => negb (str_in a (map fst queries))) to_get in
    match missing with
    | [] => run_queries to_get queries d
    | _ => ([], Err TypeError)
    end.

  (** loaders/datawrap.py:51-74 [Loader.__call__] without its tracking: the
      queries, then the loader function, under the key it was asked for *)
  Definition loader_call (loader : pyfun) (queries : list (str * pyfun)) (name : str) (d : kw)
    : res (str * V) :=
    match snd (softquery loader queries d) with
    | Ok info => do v <- call_kwargfiltered loader [] info; Ok (name, v)
    | Err e => Err e
    end.

  (** func.py:164-196 [specialize]: [is_true] is [is_special is True].  Also
      returned: the calls made. *)
  Inductive called := CheckCalled (args : list V) (d : kw) | FuncCalled (args : list V) (d : kw).
  Record checker := mkCheck { c_params : list param;
                              c_call : list V -> kw -> res (V * V) }.
  Definition specialize (is_true : V -> bool) (f : pyfun) (check : checker) (error : option (exn -> V))
    (args : list V) (d : kw) : list called * res V :=
    let cd := filter (fun kv => str_in (fst kv) (map p_name (c_params check))) d in
    let handle r := match r, error with Err e, Some h => Ok (h e) | r, _ => r end in
    match c_call check args cd with
    | Err e => ([CheckCalled args cd], handle (Err e))
    | Ok (flag, result) =>
        if is_true flag then ([CheckCalled args cd], Ok result)
        else ([CheckCalled args cd; FuncCalled args (filterkwargs f d)],
              handle (call_kwargfiltered f args d))
    end.
End Func.
Arguments f_params {V}. Arguments f_call {V}. Arguments mkFun {V}.
Arguments keys {V}. Arguments kget {V}. Arguments kset {V}.
Arguments get_argnames {V}. Arguments get_non_optional_argnames {V}.
Arguments filterkwargs {V}. Arguments call_kwargfiltered {V}. Arguments required {V}.
Arguments run_queries {V}. Arguments softquery {V}. Arguments loader_call {V}.
Arguments specialize {V}. Arguments CheckCalled {V}. Arguments FuncCalled {V}.
Arguments mkCheck {V}. Arguments c_params {V}. Arguments c_call {V}.

(** func.py:111-130 [paramsort] *)
Definition kind_eqb (a b : pkind) : bool :=
  match a, b with
  | POSITIONAL_ONLY, POSITIONAL_ONLY | POSITIONAL_OR_KEYWORD, POSITIONAL_OR_KEYWORD
  | VAR_POSITIONAL, VAR_POSITIONAL | KEYWORD_ONLY, KEYWORD_ONLY | VAR_KEYWORD, VAR_KEYWORD => true
  | _, _ => false
  end.
Definition all_kinds : list pkind :=
  [POSITIONAL_ONLY; POSITIONAL_OR_KEYWORD; VAR_POSITIONAL; KEYWORD_ONLY; VAR_KEYWORD].
(** sorted() by a boolean key is stable *)
Definition required_first (l : list param) : list param :=
  filter not_optional l ++ filter (fun p => negb (not_optional p)) l.
Definition paramsort (params : list param) : list param :=
  flat_map (fun k => required_first (filter (fun p => kind_eqb (p_kind p) k) params)) all_kinds.

(** func.py:134-161 [sig_union].  [params] is the set of the functions'
    parameters in the (arbitrary) order the set yields them; outparams is the
    subset still kept. *)
Definition opt_eqb (a b : option str) : bool :=
  match a, b with Some x, Some y => str_eqb x y | None, None => true | _, _ => false end.
Definition param_eqb (a b : param) : bool :=
  kind_eqb (p_kind a) (p_kind b) && str_eqb (p_name a) (p_name b)
  && opt_eqb (p_ann a) (p_ann b) && opt_eqb (p_default a) (p_default b).
Definition remove_param (p : param) (l : list param) : list param :=
  filter (fun q => negb (param_eqb q p)) l.
Definition union_pair (out : res (list param)) (pr : param * param) : res (list param) :=
  do out <- out;
  let '(p1, p2) := pr in
  if negb (str_eqb (p_name p1) (p_name p2)) then Ok out
  else match p_ann p1, p_ann p2 with
       | None, Some _ => Ok (remove_param p1 out)
       | Some _, None => Ok (remove_param p2 out)
       | None, None => Ok (remove_param p2 out)
       | Some a1, Some a2 =>
           if negb (str_eqb a1 a2) then Err TypeError else Ok (remove_param p2 out)
       end.
(** itertools.combinations(params, r=2) *)
Fixpoint combinations2 {A} (l : list A) : list (A * A) :=
  match l with [] => [] | x :: l' => map (pair x) l' ++ combinations2 l' end.
(** inspect.Signature(params): ValueError if a positional parameter without
    default follows one with.  Its checks that kinds are in order and that no
    name comes twice never fail here (theorems C59). *)
Fixpoint defaults_ok (seen : bool) (l : list param) : bool :=
  match l with
  | [] => true
  | p :: l' =>
      match p_kind p with
      | POSITIONAL_ONLY | POSITIONAL_OR_KEYWORD =>
          match p_default p with
          | None => negb seen && defaults_ok seen l'
          | Some _ => defaults_ok true l'
          end
      | _ => defaults_ok seen l'
      end
  end.
Definition sig_union (params : list param) : res (list param) :=
  do out <- fold_left union_pair (combinations2 params) (Ok params);
  let sig := paramsort out in
  if defaults_ok false sig then Ok sig else Err ValueError.
