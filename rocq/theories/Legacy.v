(** legacy.py: from legacy query bodies to requests. *)
From Verif Require Import PyBase DateTime Objects Exprs Translate Query Metrics Mql MetricsQuery Json Request Strptime.

(** ENTITY_TIME_COLUMNS, get_required_time_column, entity.py:47-65 *)
Definition entity_time_columns : list (str * str) :=
  [($"discover", $"timestamp"); ($"discover_events", $"timestamp");
   ($"discover_transactions", $"finish_ts"); ($"errors", $"timestamp");
   ($"events", $"timestamp"); ($"outcomes", $"timestamp"); ($"outcomes_raw", $"timestamp");
   ($"replays", $"timestamp"); ($"search_issues", $"timestamp"); ($"sessions", $"started");
   ($"spans", $"finish_ts"); ($"transactions", $"finish_ts")].
Definition required_time_column (name : str) : option str := assoc name entity_time_columns.

(** the operators, conditions.py:21-34 *)
Definition all_ops : list op :=
  [GT; LT; GTE; LTE; EQ; NEQ; IN; NOT_IN; LIKE; NOT_LIKE; IS_NULL; IS_NOT_NULL; NOT].
(** OPERATOR_TO_FUNCTION[op].value, conditions.py:37-65; there is none for NOT *)
Definition op_function (o : op) : option str :=
  match o with
  | GT => Some $"greater" | LT => Some $"less" | GTE => Some $"greaterOrEquals"
  | LTE => Some $"lessOrEquals" | EQ => Some $"equals" | NEQ => Some $"notEquals"
  | IN => Some $"in" | NOT_IN => Some $"notIn" | IS_NULL => Some $"isNull"
  | IS_NOT_NULL => Some $"isNotNull" | LIKE => Some $"like" | NOT_LIKE => Some $"notLike"
  | NOT => None
  end.

Section Legacy.
Context {RT : PyRT} {CV : PyConv}.

(** s.upper() *)
Definition upper_char (c : N) : str :=
  if (c <? 128)%N then [if in_range 97 122 c then (c - 32)%N else c] else uni_upper c.
Definition upper (s : str) : str := flat_map upper_char s.

(** o[i] for i = 0, 1, 2. Dictionaries have no integer keys in this model. *)
Definition index (o : obj) (i : nat) : result obj :=
  let get l := match nth_error l i with Some x => Ok x | None => Raise IndexError end in
  match o with
  | OList l | OTuple l => get l
  | OStr s => get (map (fun c => OStr [c]) s)
  | OBytes s => get (map (fun n => OInt (Z.of_N n)) s)
  | ODict _ _ => Raise KeyError
  | _ => Raise TypeError
  end.

(** is_condition, legacy.py:18-32 *)
Definition is_recognised_op (o : obj) : bool :=
  match o with OStr s => mem_str (upper s) (map op_value all_ops) | _ => false end.
Definition is_str_tuple_list (o : obj) : bool :=
  match o with OStr _ | OTuple _ | OList _ => true | _ => false end.
Definition is_condition (o : obj) : result bool :=
  let! n := py_len o in
  if Nat.eqb n 3 then
    let! b := index o 1 in
    if is_recognised_op b then let! a := index o 0 in Ok (is_str_tuple_list a) else Ok false
  else Ok false.

(** parse_scalar, legacy.py:69-90; sets are not represented *)
Fixpoint parse_scalar (only_strings : bool) (o : obj) : obj :=
  match o with
  | OList l | OTuple l => OTuple (map (parse_scalar only_strings) l)
  | OStr s => if only_strings then o
              else match parse_datetime s with Some t => ODateTime t | None => o end
  | _ => o
  end.

(** Op(value): a member or the value of a member *)
Definition op_of (o : obj) : result op :=
  match o with
  | OOp p => Ok p
  | OStr s => match List.find (fun p => str_eqb (op_value p) s) all_ops with
              | Some p => Ok p
              | None => Raise ValueError
              end
  | _ => Raise ValueError
  end.

(** legacy.py:176-193: is the right-hand side of this left-hand side never a datetime *)
Definition is_text_column (o : obj) : bool :=
  match o with
  | OColumn c => option_eqb str_eqb (c_sub c) (Some $"tags") || str_eqb (c_name c) ($"release")
  | _ => false
  end.
Definition only_strings (lhs : obj) : bool :=
  match lhs with
  | OColumn _ => is_text_column lhs
  | OFunc true n _ _ _ (p :: _ :: _) _ => str_eqb n ($"ifNull") && is_text_column p
  | _ => false
  end.
Definition is_null_test (b : obj) : bool :=
  match b with OStr s => str_eqb s ($"IS NULL") || str_eqb s ($"IS NOT NULL") | _ => false end.
(** _parse_condition_parts, legacy.py:166-195, after the left-hand side; [b] is cond[1] and
    [c] is cond[2] *)
Definition condition_rest (lhs b : obj) (c : result obj) : result (op * obj) :=
  let! rhs := if is_null_test b then Ok ONone
              else let! v := c in Ok (parse_scalar (only_strings lhs) v) in
  let! p := op_of b in
  Ok (p, rhs).
(** parse_condition_to_function, legacy.py:210-212, after the parts *)
Definition condition_function (lhs : obj) (p : op * obj) : result obj :=
  match op_function (fst p) with
  | Some f => mk_function (OStr f) (OTuple [lhs; snd p]) ONone
  | None => Raise KeyError
  end.

(** a str method called on a value of another type *)
Definition no_method (o : obj) : exn := match o with OBytes _ => TypeError | _ => AttributeError end.
(** the alias, legacy.py:116-118 *)
Definition legacy_alias (rest : list obj) : result obj :=
  match rest with
  | [] => Ok ONone
  | a :: _ =>
      if truthy a then
        match a with
        | OStr s => Ok (OStr (if startswith [BQ] s && endswith [BQ] s then slice_1_m1 s else s))
        | _ => Raise (no_method a)
        end
      else Ok a
  end.
Definition is_paren (c : N) : bool := one_of "()" c.
(** the str case of parse_exp, legacy.py:101-109 *)
Definition parse_string_exp (s : str) : result obj :=
  match s with
  | [] => Ok (OStr [])
  | _ => if startswith [SQ] s && endswith [SQ] s then Ok (OStr (slice_1_m1 s))
         else mk_column (OStr s) ONone
  end.

(** parse_exp, legacy.py:93-132 *)
Fixpoint parse_exp (v : obj) : result obj :=
  let exps := fix exps (l : list obj) : result (list obj) :=
    match l with
    | [] => Ok []
    | x :: l' => let! y := parse_exp x in let! r := exps l' in Ok (y :: r)
    end in
  match v with
  | OStr s => parse_string_exp s
  | OList l =>
      let! c := is_condition v in
      if c then
        match l with
        | a :: b :: r =>
            let! lhs := parse_exp a in
            let! p := condition_rest lhs b (index v 2) in
            condition_function lhs p
        | _ => Raise IndexError
        end
      else
        match l with
        | [] => Raise IndexError
        | [a] => match a with OStr _ => Raise IndexError | _ => Raise (no_method a) end
        | a :: b :: rest =>
            let! alias := legacy_alias rest in
            match a with
            | OStr n =>
                if endswith ($"()") n && negb (truthy b)
                then mk_function (OStr (strip is_paren n)) (OList []) alias
                else if negb (endswith ($")") n) && negb (truthy b)
                then mk_function a (OList []) alias
                else
                  let! children :=
                    match b with
                    | OList args => let! xs := exps args in Ok (OList xs)
                    | _ => if truthy b then let! x := parse_exp b in Ok (OList [x]) else Ok ONone
                    end in
                  mk_function a children alias
            | _ => Raise (no_method a)
            end
        end
  | _ => Ok (parse_scalar false v)
  end.

(** parse_condition, legacy.py:198-207 *)
Definition parse_condition (cond : obj) : result obj :=
  let! a := index cond 0 in
  let! lhs := parse_exp a in
  let! b := index cond 1 in
  let! p := condition_rest lhs b (index cond 2) in
  mk_condition lhs (OOp (fst p)) (snd p).

(** parse_extension_condition, legacy.py:135-163. None: the value is ignored *)
Definition parse_extension (col : str) (values : obj) (always_in : bool) : result (option obj) :=
  let! c := mk_column (OStr col) ONone in
  let is_in l := let! x := mk_condition c (OOp IN) (OTuple (map (parse_scalar false) l)) in Ok (Some x) in
  match values with
  | OInt _ | OBool _ =>
      if always_in then is_in [values]
      else let! x := mk_condition c (OOp EQ) values in Ok (Some x)
  | OList l | OTuple l => is_in l
  | _ => Ok None
  end.

(** body.get(k, d) *)
Fixpoint lookup (k : str) (ks : list str) (vs : list obj) : option obj :=
  match ks, vs with
  | k' :: ks', v :: vs' => if str_eqb k' k then Some v else lookup k ks' vs'
  | _, _ => None
  end.
Definition body_get (body : obj) (k : str) (d : obj) : obj :=
  match body with
  | ODict ks vs => match lookup k ks vs with Some v => v | None => d end
  | _ => d
  end.
(** storing the list that was changed in place under its key *)
Fixpoint put_back (k : str) (v : obj) (ks : list str) (vs : list obj) : list obj :=
  match ks, vs with
  | k' :: ks', x :: vs' => if str_eqb k' k then v :: vs' else x :: put_back k v ks' vs'
  | _, _ => vs
  end.

(** parse_datetime on the value of from_date or to_date: first ["+" in date_str] *)
Definition date_value (v : obj) : result datetime :=
  match v with
  | OStr s => match parse_datetime s with Some t => Ok t | None => Raise ValueError end
  | OList l | OTuple l =>
      if existsb (fun x => py_eq x (OStr ($"+"))) l then Raise AttributeError else Raise TypeError
  | ODict ks _ => if mem_str ($"+") ks then Raise AttributeError else Raise TypeError
  | _ => Raise TypeError
  end.

(** the items of a list or tuple as lists where they are tuples, legacy.py:240-244, 260-261 *)
Definition tuple_to_list (o : obj) : obj := match o with OTuple l => OList l | _ => o end.
(** legacy.py:235-237 *)
Definition convert_aggregations (o : obj) : result (list obj) :=
  let! l := iter o in
  mapM (fun a => let! x := iter a in parse_exp (OList x)) l.
(** legacy.py:239-246 *)
Definition convert_selected (o : obj) : result (list obj) :=
  let! l := iter o in mapM (fun s => parse_exp (tuple_to_list s)) l.
(** legacy.py:254-262 *)
Definition convert_groupby (o : obj) : result (list obj) :=
  let o := match o with OList _ => o | _ => if truthy o then OList [o] else o end in
  let! l := iter o in mapM (fun g => parse_exp (tuple_to_list g)) l.

(** legacy.py:265-285 *)
Definition time_bound (body : obj) (col key : str) (o : op) : result (list obj) :=
  let v := body_get body key ONone in
  if truthy v then
    let! c := mk_column (OStr col) ONone in
    let! t := date_value v in
    let! x := mk_condition c (OOp o) (ODateTime t) in Ok [x]
  else Ok [].
Definition extension (body : obj) (key col : str) (always_in : bool) : result (list obj) :=
  let v := body_get body key ONone in
  if truthy v then
    let! x := parse_extension col v always_in in
    Ok (match x with Some c => [c] | None => [] end)
  else Ok [].
Definition extensions (body : obj) (entity : str) : result (list obj) :=
  let! org := extension body ($"organization") ($"org_id") false in
  let! times := match required_time_column entity with
                | None => Ok []
                | Some col =>
                    let! a := time_bound body col ($"from_date") GTE in
                    let! b := time_bound body col ($"to_date") LT in
                    Ok (a ++ b)
                end in
  let! proj := extension body ($"project") ($"project_id") true in
  Ok (org ++ times ++ proj).

(** legacy.py:287-298: one item of conditions *)
Definition convert_where (cond : obj) : result (list obj) :=
  let! b := is_condition cond in
  if b then let! c := parse_condition cond in Ok [c]
  else
    let! l := iter cond in
    let! cs := mapM parse_condition l in
    match cs with
    | _ :: _ :: _ => let! o := mk_or (OList cs) in Ok [o]
    | _ => Ok cs
    end.
(** legacy.py:303-311: one item of having *)
Definition convert_having (cond : obj) : result obj :=
  let! b := is_condition cond in
  if b then parse_condition cond
  else
    let! l := iter cond in
    let! cs := mapM parse_condition l in
    mk_or (OList cs).

(** legacy.py:316-336: the elements afterwards (the first item of a list that starts with a
    minus sign is replaced in place) and the order-by expressions; [part] is the variable
    of the loop, which keeps its value when an element is neither a list nor a str *)
Definition is_minus (c : N) : bool := N.eqb 45 c.
Definition orderby_item (o : obj) (part : option obj) : obj * direction * result obj :=
  match o with
  | OList [] => (o, ASC, Raise IndexError)
  | OList (OStr s :: r) =>
      if startswith ($"-") s
      then let o' := OList (OStr (lstrip is_minus s) :: r) in (o', DESC, parse_exp o')
      else (o, ASC, parse_exp o)
  | OList _ => (o, ASC, parse_exp o)
  | OStr s =>
      if startswith ($"-") s then (o, DESC, parse_exp (OStr (lstrip is_minus s)))
      else (o, ASC, parse_exp o)
  | _ => (o, ASC, match part with Some p => Ok p | None => Raise UnboundLocalError end)
  end.
Fixpoint convert_orderby (l : list obj) (part : option obj) : list obj * result (list obj) :=
  match l with
  | [] => ([], Ok [])
  | o :: l' =>
      let '(o', d, r) := orderby_item o part in
      match r with
      | Raise e => (o' :: l', Raise e)
      | Ok p =>
          match mk_orderby p (ODir d) with
          | Raise e => (o' :: l', Raise e)
          | Ok ob =>
              let '(rest, rs) := convert_orderby l' (Some p) in
              (o' :: rest, let! x := rs in Ok (ob :: x))
          end
      end
  end.

(** int(limit), legacy.py:343; float(sample), legacy.py:232 *)
Definition as_python_int (o : obj) : result Z :=
  match o with OInt z => Ok z | OBool b => Ok (if b then 1%Z else 0%Z) | _ => to_int o end.
Definition as_python_float (o : obj) : result flt :=
  match o with OFloat f => Ok f | _ => to_float o end.
(** legacy.py:340-343 *)
Definition set_legacy_limitby (body : obj) (q : query) : result query :=
  let v := body_get body ($"limitby") ONone in
  if truthy v then
    let! l := iter v in
    match l with
    | [lim; name] =>
        let! c := mk_column name ONone in
        let! n := as_python_int lim in
        let! lb := mk_limitby (OList [c]) (OInt n) in
        set_clause CLimitby q lb
    | _ => Raise ValueError
    end
  else Ok q.
(** legacy.py:345-353 *)
Definition set_extra (body : obj) (key : str) (c : clause) (q : query) : result query :=
  let v := body_get body key ONone in
  if is_none v then Ok q else set_clause c q v.
(** legacy.py:355-363 *)
Definition legacy_flag (body : obj) (key : str) : obj :=
  let v := body_get body key ONone in if truthy v then v else ONone.
Definition legacy_flags (body : obj) : flags :=
  mkFlags ONone (legacy_flag body ($"consistent")) (legacy_flag body ($"turbo"))
    (legacy_flag body ($"debug")) (legacy_flag body ($"dry_run")) (OBool true).
(** body.get(k) or d *)
Definition or_default (body : obj) (key : str) (d : obj) : obj :=
  let v := body_get body key ONone in if truthy v then v else d.

(** json_to_snql, legacy.py:230-313: the query before ORDER BY *)
Definition legacy_query (body entity : obj) : result query :=
  let s := body_get body ($"sample") ONone in
  let! sample := if is_none s then Ok ONone else let! f := as_python_float s in Ok (OFloat f) in
  let! e := mk_entity entity ONone sample ONone in
  let! q := mk_query (MObj e) no_clauses in
  let! aggs := convert_aggregations (body_get body ($"aggregations") (OList [])) in
  let! sel := convert_selected (body_get body ($"selected_columns") (OList [])) in
  let aj := body_get body ($"arrayjoin") ONone in
  let! q := if truthy aj
            then let! c := mk_column aj ONone in set_clause CArrayJoin q (OList [c])
            else Ok q in
  let! q := set_clause CSelect q (OList (aggs ++ sel)) in
  let! gb := convert_groupby (body_get body ($"groupby") (OList [])) in
  let! q := set_clause CGroupby q (OList gb) in
  let! ext := extensions body (match e with OEntity x => e_name x | _ => [] end) in
  let! items := iter (body_get body ($"conditions") (OList [])) in
  let! conds := mapM convert_where items in
  let! q := set_clause CWhere q (OList (ext ++ List.concat conds)) in
  let! hitems := iter (body_get body ($"having") (OList [])) in
  let! hs := mapM convert_having hitems in
  set_clause CHaving q (OList hs).

(** legacy.py:315-338: the body afterwards and the query *)
Definition legacy_orderby (body : obj) (q : query) : obj * result query :=
  let v := body_get body ($"orderby") ONone in
  if truthy v then
    match v, body with
    | OList l, ODict ks vs =>
        let '(l', r) := convert_orderby l None in
        (ODict ks (put_back ($"orderby") (OList l') ks vs),
         let! obs := r in set_clause COrderby q (OList obs))
    | _, _ =>
        (body, let! obs := snd (convert_orderby [v] None) in set_clause COrderby q (OList obs))
    end
  else (body, Ok q).

(** legacy.py:340-370 *)
Definition legacy_request (body entity : obj) (q : query) : result request :=
  let! q := set_legacy_limitby body q in
  let! q := set_extra body ($"limit") CLimit q in
  let! q := set_extra body ($"offset") COffset q in
  let! q := set_extra body ($"granularity") CGranularity q in
  let! q := set_extra body ($"totals") CTotals q in
  Ok (mkRequest (or_default body ($"dataset") entity) (or_default body ($"app_id") (OStr ($"legacy")))
        (RQuery q) (RFlags (legacy_flags body)) (OStr ($"<unknown>"))
        (or_default body ($"tenant_ids") (ODict [$"legacy"] [OStr ($"legacy")]))).

(** json_to_snql(body, entity), legacy.py:215-370: the body afterwards and the request *)
Definition json_to_snql (body entity : obj) : obj * result request :=
  match body with
  | ODict _ _ =>
      match legacy_query body entity with
      | Raise e => (body, Raise e)
      | Ok q =>
          let '(body', r) := legacy_orderby body q in
          (body', let! q := r in legacy_request body' entity q)
      end
  | _ => (body, Raise AttributeError)
  end.
End Legacy.
