(** visitors.py: class Translation (SnQL printing, and its MQL mode). *)
From Verif Require Import PyBase Regex DateTime Utf8 Objects Exprs.

(** * Fixed-point float formatting, f"{x:.1f}" and f"{x:f}" (CPython: correctly rounded,
    ties to even on the exact binary value). *)

(** round(m * 2^e * 10^p) to the nearest integer, ties to even *)
Definition round_scaled (m : N) (e : Z) (p : N) : N :=
  let a := (m * 10 ^ p)%N in
  if (0 <=? e)%Z then (a * 2 ^ Z.to_N e)%N
  else
    let d := (2 ^ Z.to_N (- e))%N in
    let q := (a / d)%N in
    let r := (a mod d)%N in
    match (2 * r ?= d)%N with
    | Lt => q
    | Gt => q + 1
    | Eq => if N.even q then q else q + 1
    end%N.
(** decimal point inserted before the last p digits *)
Definition fixed_digits (n p : N) : str :=
  dec_of_N (n / 10 ^ p) ++ $"." ++ pad_left (N.to_nat p) (dec_of_N (n mod 10 ^ p)).
Definition fmt_fixed (p : N) (f : flt) : str :=
  match f with
  | FNan => $"nan"
  | FInf neg => if neg then $"-inf" else $"inf"
  | FFin neg m e => (if neg then $"-" else []) ++ fixed_digits (round_scaled m e p) p
  end.
(** x % 1 == 0 (False for nan and infinities) *)
Definition flt_is_int (f : flt) : bool :=
  match f with
  | FFin _ m e => if (0 <=? e)%Z then true else N.eqb (m mod 2 ^ Z.to_N (- e)) 0
  | _ => false
  end.

Section Translate.
Context {RT : PyRT}.

(** Translation.__init__, visitors.py:137-140: [al] is use_entity_aliases, [mql] is is_mql *)
Definition quote_char (mql : bool) : N := if mql then DQ else SQ.

(** visitors.py:156-161: three replacements, one after the other *)
Definition escape (mql : bool) (s : str) : str :=
  let q := quote_char mql in
  replace [NL] [BSL; 110%N] (replace [q] [BSL; q] (replace [BSL] [BSL; BSL] s)).
(** visitors.py:147-163 *)
Definition quoted (mql : bool) (s : str) : str :=
  let q := quote_char mql in [q] ++ escape mql s ++ [q].

(** f"{value}" for an int-typed value: bools print as True/False *)
Definition py_bool_str (b : bool) : str := if b then $"True" else $"False".
Definition pyint_str (i : pyint) : str :=
  match i with PInt z => dec_of_Z z | PBool b => py_bool_str b end.

(** visitors.py:166-175 *)
Definition to_datetime (iso : str) : str := $"toDateTime('" ++ iso ++ $"')".

(** _stringify_scalar on literals, visitors.py:142-175 *)
Definition stringify_literal (mql : bool) (o : obj) : result str :=
  match o with
  | ONone => Ok $"NULL"
  | OBool b => Ok (if b then $"TRUE" else $"FALSE")
  | OStr s => Ok (quoted mql s)
  | OBytes b => match utf8_decode b with
                | Some s => Ok (quoted mql s)
                | None => Raise UnicodeDecodeError
                end
  | OInt z => Ok (dec_of_Z z)
  | OFloat f => Ok (float_repr f)
  | ODateTime t => let! u := to_naive_utc t in Ok (to_datetime (datetime_iso u))
  | ODate d => Ok (to_datetime (date_iso d))
  | _ => Raise InvalidExpressionError
  end.

(** _visit_column, visitors.py:199-204 *)
Definition tr_column (al : bool) (c : column) : str :=
  match c_entity c with
  | Some e => if al then (match e_alias e with Some a => a | None => $"None" end) ++ $"." else []
  | None => []
  end ++ c_name c.

Definition sample_clause (s : option flt) : str :=
  match s with
  | None => []
  | Some f => $" SAMPLE " ++ (if flt_is_int f then fmt_fixed 1 f else fmt_fixed 6 f)
  end.
(** _visit_entity, visitors.py:243-254 *)
Definition tr_entity (al : bool) (e : entity) : str :=
  $"(" ++ (match e_alias e with Some a => if al then a ++ $": " else [] | None => [] end)
  ++ e_name e ++ sample_clause (e_sample e) ++ $")".
(** _visit_storage, visitors.py:256-263 *)
Definition tr_storage (s : storage) : str :=
  $"STORAGE(" ++ st_name s ++ sample_clause (st_sample s) ++ $")".
(** _visit_relationship, _visit_join, visitors.py:265-269 *)
Definition tr_rel (al : bool) (r : relationship) : str :=
  tr_entity al (r_lhs r) ++ $" -[" ++ r_name r ++ $"]-> " ++ tr_entity al (r_rhs r).
Definition tr_join (al : bool) (rels : list relationship) : str :=
  join ($", ") (map (tr_rel al) rels).

Definition alias_suffix (a : option str) : str :=
  match a with None => [] | Some a => $" AS `" ++ a ++ $"`" end.
Definition backquoted (i : str) : str := $"`" ++ i ++ $"`".

(** visit, visitors.py:33-73, with _stringify_scalar's recursion into lists and tuples
    (visitors.py:176-188). In lists the code calls _stringify_scalar on the items, which
    for the items allowed by the preceding is_scalar check is the same as visit.
    Function parameters and initializers of no known kind are silently skipped
    (visitors.py:212-216, 223-229). *)
Fixpoint visit (mql al : bool) (o : obj) : result str :=
  let items := fix items (l : list obj) : result (list str) :=
    match l with
    | [] => Ok []
    | x :: l' => let! s := visit mql al x in let! r := items l' in Ok (s :: r)
    end in
  let inits := fix inits (l : list obj) : result (list str) :=
    match l with
    | [] => Ok []
    | x :: l' =>
        if init_ok x
        then let! s := visit mql al x in let! r := inits l' in Ok (s :: r)
        else inits l'
    end in
  let params := fix params (l : list obj) : result (list str) :=
    match l with
    | [] => Ok []
    | x :: l' =>
        let! b := (if is_param_expr x then Ok true else is_scalar x) in
        if b
        then let! s := visit mql al x in let! r := params l' in Ok (s :: r)
        else params l'
    end in
  match o with
  | OAliased c a => Ok (tr_column al c ++ alias_suffix a)
  | OColumn c => Ok (tr_column al c)
  | OFunc _ n ik il pk pl a =>
      let! ic := match ik with
                 | KNone => Ok []
                 | _ => let! l := inits il in Ok ($"(" ++ join ($", ") l ++ $")")
                 end in
      let! pc := match pk with
                 | KNone => Ok []
                 | _ => let! l := params pl in Ok ($"(" ++ join ($", ") l ++ $")")
                 end in
      Ok (n ++ ic ++ pc ++ alias_suffix a)
  | OIdent n => Ok (backquoted n)
  | OLambda _ ids b =>
      let! t := visit mql al b in
      Ok ($"(" ++ join ($", ") (map backquoted ids) ++ $") -> " ++ t)
  | OEntity e => Ok (tr_entity al e)
  | OStorage s => Ok (tr_storage s)
  | ORel r => Ok (tr_rel al r)
  | OJoin _ rels => Ok (tr_join al rels)
  | OCond lhs o rhs =>
      (* visitors.py:271-281 *)
      let! rhs_s :=
        if is_unary o then Ok []
        else if is_col_or_func rhs then let! s := visit mql al rhs in Ok ($" " ++ s)
        else let! b := is_scalar rhs in
             if b then let! s := visit mql al rhs in Ok ($" " ++ s)
             else Raise AssertionError in
      let! l := visit mql al lhs in
      Ok (l ++ $" " ++ op_value o ++ rhs_s)
  | OBoolC _ o _ l =>
      (* visitors.py:312-315 *)
      let! cs := items l in
      Ok ($"(" ++ join ($" " ++ boolop_value o ++ $" ") cs ++ $")")
  | OOrderBy e d => let! s := visit mql al e in Ok (s ++ $" " ++ direction_value d)
  | OLimitBy _ cols n =>
      Ok (pyint_str n ++ $" BY " ++ join ($",") (map (tr_column al) cols))
  | OLimit n | OOffset n | OGranularity n => Ok (dec_of_Z (pyint_Z n))
  | OTotals b => Ok (py_bool_str b)
  | OList l =>
      is_scalar o ;!
      let! s := items l in
      Ok ((if mql then $"[" else $"array(") ++ join ($", ") s ++ (if mql then $"]" else $")"))
  | OTuple l =>
      is_scalar o ;!
      let! s := items l in
      Ok ((if mql then $"[" else $"tuple(") ++ join ($", ") s ++ (if mql then $"]" else $")"))
  | ONone | OBool _ | OInt _ | OFloat _ | OStr _ | OBytes _ | ODate _ | ODateTime _ =>
      stringify_literal mql o
  | OExtrapolate _ | ODict _ _ | OOp _ | OBoolOp _ | ODir _ | ODataModel _ | OOther _ =>
      Raise AssertionError
  end.

(** _visit_condition_mql, visitors.py:294-310 *)
Definition negated_op (o : op) : bool :=
  match o with NEQ | NOT_IN | NOT_LIKE => true | _ => false end.
Definition visit_condition_mql (mql al : bool) (lhs : obj) (o : op) (rhs : obj) : result str :=
  let! rhs_s :=
    if is_unary o then Ok []
    else match rhs with
         | OFunc _ _ _ _ _ _ _ => Raise InvalidExpressionError
         | OColumn _ => visit mql al rhs
         | _ => let! b := is_scalar rhs in
                if b then visit mql al rhs else Raise AssertionError
         end in
  let! l := visit mql al lhs in
  Ok ((if negated_op o then $"!" else []) ++ l ++ $":" ++ rhs_s).

(** _visit_boolean_condition_mql, visitors.py:283-292, and the choice between it and
    _visit_condition_mql. Objects that are no conditions are skipped. *)
Fixpoint visit_filter_mql (mql al : bool) (c : obj) : result (list str) :=
  let all := fix all (l : list obj) : result (list str) :=
    match l with
    | [] => Ok []
    | x :: l' => let! s := visit_filter_mql mql al x in let! r := all l' in Ok (s ++ r)
    end in
  match c with
  | OCond lhs o rhs => let! s := visit_condition_mql mql al lhs o rhs in Ok [s]
  | OBoolC _ o _ l =>
      let! cs := all l in
      Ok [$"(" ++ join ($" " ++ boolop_value o ++ $" ") cs ++ $")"]
  | _ => Ok []
  end.

End Translate.
