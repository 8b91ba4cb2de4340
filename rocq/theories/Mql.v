(** mql/mql.py: the MQL grammar, its tree visitor and parse_mql. *)
From Verif Require Import PyBase Regex Objects Exprs Translate Query Metrics Peg PegTotal.

(** * The grammar, mql.py:27-108 *)

Inductive rule :=
| Rexpression | Rexpr_op | Rterm | Rterm_op | Runary | Runary_op | Rcoefficient | Rnumber
| Rfilter | Rfilter_expr | Rfilter_term | Rfilter_factor | Rnested_expr | Rcondition_op
| Rjoint_operator | Rtag_key | Rtag_value | Rsuffix_wildcard_tag_value
| Rquoted_suffix_wildcard_tag_value | Rquoted_string_filter | Runquoted_string_filter
| Rstring_tuple | Rquoted_string | Runquoted_string | Rtarget | Rvariable
| Rnested_expression | Rfunction | Raggregate | Raggregate_name | Rarbitrary_function
| Rarbitrary_function_name | Rcurried_aggregate | Rcurried_aggregate_name
| Rcurried_arbitrary_function | Rcurried_arbitrary_function_name | Raggregate_list
| Rparam | Rparam_expression | Rgroup_by | Rgroup_by_name | Rgroup_by_name_tuple
| Rinner_filter | Rmetric | Rquoted_mri | Rlenient_mri | Runquoted_mri
| Rquoted_public_name | Runquoted_public_name | Ropen_paren | Rclose_paren
| Ropen_square_bracket | Rclose_square_bracket | Ropen_brace | Rclose_brace | Rcomma
| Rbacktick | Rcolon | Rand | Ror | Rquote | Rwildcard | Rws.

Section Mql.
Context {RT : PyRT}.

(** \s in a grammar regex. parsimonious compiles them with the third-party [regex]
    module; whether it counts the control characters 28-31 as spaces is left to the
    runtime oracle. *)
Definition mql_space (c : N) : bool :=
  in_range 9 13 c || N.eqb c 32 || ((in_range 28 31 c || negb (c <? 128)%N) && uni_space c).

(** [[a-zA-Z0-9_.]+], [[a-zA-Z0-9_]+], [[0-9]+], mql.py:40, 51, 64, 69, 82 *)
Definition re_key : re := RPlus (RClass (fun c => is_alnum_ c || N.eqb c 46)).
Definition re_name : re := RPlus (RClass is_alnum_).
Definition re_digits : re := RPlus (RClass is_digit).
(** the quoted string: a double quote, then runs of characters other than the double
    quote and the backslash, separated by a backslash and any character but newline;
    a double quote. mql.py:56, 60 *)
Definition plain_char (c : N) : bool := negb (N.eqb c DQ) && negb (N.eqb c BSL).
Definition re_quoted : re :=
  RSeq (RChar DQ)
  (RSeq (RSeq (RStar (RClass plain_char))
              (RStar (RSeq (RChar BSL) (RSeq (RClass (fun c => negb (N.eqb c NL)))
                                             (RStar (RClass plain_char))))))
        (RChar DQ)).
(** one or more characters other than comma, brackets, braces, parentheses, the double
    quote, the star and white space; mql.py:57, 61 *)
Definition unquoted_char (c : N) : bool :=
  negb (one_of ",[]}{()*" c || N.eqb c DQ || mql_space c).
Definition re_unquoted : re := RPlus (RClass unquoted_char).
(** mql.py:88: text without colon and backtick, colon, text without slash and backtick,
    slash, text without at, comma and backtick, at, text without backtick *)
Definition re_lenient_mri : re :=
  RSeq (RPlus (RClass (fun c => negb (one_of ":`" c))))
  (RSeq (RChar 58) (RSeq (RPlus (RClass (fun c => negb (one_of "/`" c))))
  (RSeq (RChar 47) (RSeq (RPlus (RClass (fun c => negb (one_of "@,`" c))))
  (RSeq (RChar 64) (RPlus (RClass (fun c => negb (one_of "`" c))))))))).
(** mql.py:89: the same, with parentheses, braces, brackets, double quotes, backticks and
    commas excluded from every part *)
Definition mri_char (c : N) : bool := negb (one_of "(){}[]`," c || N.eqb c DQ).
Definition re_unquoted_mri : re :=
  RSeq (RPlus (RClass (fun c => negb (N.eqb c 58) && mri_char c)))
  (RSeq (RChar 58) (RSeq (RPlus (RClass (fun c => negb (N.eqb c 47) && mri_char c)))
  (RSeq (RChar 47) (RSeq (RPlus (RClass (fun c => negb (N.eqb c 64) && mri_char c)))
  (RSeq (RChar 64) (RPlus (RClass mri_char))))))).
(** mql.py:91: [[a-z_]+(?:\.[a-z_]+)*] *)
Definition public_char (c : N) : bool := is_lower c || N.eqb c 95.
Definition re_public : re :=
  RSeq (RPlus (RClass public_char)) (RStar (RSeq (RChar 46) (RPlus (RClass public_char)))).
Definition re_ws : re := RStar (RClass mql_space).

Definition grammar (r : rule) : peg rule :=
  let ws := PRef Rws in
  match r with
  | Rexpression => PSeq [PRef Rterm; PStar (PSeq [ws; PRef Rexpr_op; ws; PRef Rterm])]
  | Rexpr_op => PAlt [PLit ($"+"); PLit ($"-")]
  | Rterm => PSeq [PRef Runary; PStar (PSeq [ws; PRef Rterm_op; ws; PRef Runary])]
  | Rterm_op => PAlt [PLit ($"*"); PLit ($"/")]
  | Runary => PSeq [POpt (PRef Runary_op); PRef Rcoefficient]
  | Runary_op => PLit ($"-")
  | Rcoefficient => PAlt [PRef Rnumber; PRef Rquoted_string; PRef Rfilter]
  | Rnumber => PSeq [PRe re_digits; POpt (PSeq [PLit ($"."); PRe re_digits])]
  | Rfilter =>
      PSeq [PRef Rtarget;
            POpt (PSeq [PRef Ropen_brace; POpt (PSeq [ws; PRef Rfilter_expr; ws]);
                        PRef Rclose_brace]);
            POpt (PRef Rgroup_by)]
  | Rfilter_expr => PSeq [PRef Rfilter_term; PStar (PSeq [ws; PRef Ror; ws; PRef Rfilter_term])]
  | Rfilter_term =>
      PSeq [PRef Rfilter_factor;
            PStar (PSeq [ws; POpt (PRef Rjoint_operator); ws; PRef Rfilter_factor])]
  | Rfilter_factor =>
      PAlt [PSeq [POpt (PRef Rcondition_op); PAlt [PRef Rvariable; PRef Rtag_key]; ws;
                  PRef Rcolon; ws; PRef Rtag_value];
            PRef Rnested_expr]
  | Rnested_expr => PSeq [PRef Ropen_paren; ws; PRef Rfilter_expr; ws; PRef Rclose_paren]
  | Rcondition_op => PLit ($"!")
  | Rjoint_operator => PAlt [PRef Rcomma; PRef Rand]
  | Rtag_key => PRe re_key
  | Rtag_value =>
      PAlt [PRef Rquoted_suffix_wildcard_tag_value; PRef Rsuffix_wildcard_tag_value;
            PRef Rquoted_string_filter; PRef Runquoted_string_filter; PRef Rstring_tuple;
            PRef Rvariable]
  | Rsuffix_wildcard_tag_value => PSeq [PRef Runquoted_string; PRef Rwildcard]
  | Rquoted_suffix_wildcard_tag_value =>
      PSeq [PRef Rquote; PRef Runquoted_string; PRef Rwildcard; PRef Rquote]
  | Rquoted_string_filter => PRe re_quoted
  | Runquoted_string_filter => PRe re_unquoted
  | Rstring_tuple =>
      PSeq [PRef Ropen_square_bracket; ws; PAlt [PRef Rquoted_string; PRef Runquoted_string];
            PStar (PSeq [ws; PRef Rcomma; ws;
                         PAlt [PRef Rquoted_string; PRef Runquoted_string]]);
            ws; PRef Rclose_square_bracket]
  | Rquoted_string => PRe re_quoted
  | Runquoted_string => PRe re_unquoted
  | Rtarget => PAlt [PRef Rvariable; PRef Rnested_expression; PRef Rfunction; PRef Rmetric]
  | Rvariable => PSeq [PLit ($"$"); PRe re_key]
  | Rnested_expression => PSeq [PRef Ropen_paren; ws; PRef Rexpression; ws; PRef Rclose_paren]
  | Rfunction =>
      PSeq [PAlt [PRef Rcurried_aggregate; PRef Rcurried_arbitrary_function; PRef Raggregate;
                  PRef Rarbitrary_function];
            POpt (PRef Rgroup_by)]
  | Raggregate =>
      PSeq [PRef Raggregate_name;
            PSeq [PRef Ropen_paren; ws; PRef Rinner_filter; ws; PRef Rclose_paren]]
  | Raggregate_name => PRe re_name
  | Rarbitrary_function =>
      PSeq [PRef Rarbitrary_function_name;
            PSeq [PRef Ropen_paren; PSeq [ws; PRef Rexpression; ws];
                  PStar (PSeq [ws; PRef Rcomma; ws; PRef Rexpression]); PRef Rclose_paren]]
  | Rarbitrary_function_name => PRe re_name
  | Rcurried_aggregate =>
      PSeq [PRef Rcurried_aggregate_name;
            PSeq [PRef Ropen_paren; ws; POpt (PRef Raggregate_list); ws; PRef Rclose_paren];
            PSeq [PRef Ropen_paren; ws; PRef Rinner_filter; ws; PRef Rclose_paren]]
  | Rcurried_aggregate_name => PRe re_name
  | Rcurried_arbitrary_function =>
      PSeq [PRef Rcurried_arbitrary_function_name;
            PSeq [PRef Ropen_paren; ws; POpt (PRef Raggregate_list); ws; PRef Rclose_paren];
            PSeq [PRef Ropen_paren; ws; PSeq [ws; PRef Rexpression; ws];
                  PStar (PSeq [ws; PRef Rcomma; ws; PRef Rexpression]); PRef Rclose_paren]]
  | Rcurried_arbitrary_function_name => PRe re_name
  | Raggregate_list => PSeq [PStar (PRef Rparam); PRef Rparam_expression]
  | Rparam => PSeq [PRef Rparam_expression; ws; PRef Rcomma; ws]
  | Rparam_expression => PAlt [PRef Rnumber; PRef Rquoted_string; PRef Runquoted_string]
  | Rgroup_by =>
      PSeq [ws; PLit ($"by"); ws; PAlt [PRef Rgroup_by_name; PRef Rgroup_by_name_tuple]]
  | Rgroup_by_name => PRe re_key
  | Rgroup_by_name_tuple =>
      PSeq [PRef Ropen_paren; ws; PRef Rgroup_by_name;
            PStar (PSeq [ws; PRef Rcomma; ws; PRef Rgroup_by_name]); ws; PRef Rclose_paren]
  | Rinner_filter =>
      PSeq [PRef Rmetric;
            POpt (PSeq [PRef Ropen_brace; POpt (PSeq [ws; PRef Rfilter_expr; ws]);
                        PRef Rclose_brace]);
            POpt (PRef Rgroup_by)]
  | Rmetric => PAlt [PRef Rquoted_mri; PRef Runquoted_mri; PRef Rquoted_public_name;
                     PRef Runquoted_public_name]
  | Rquoted_mri => PSeq [PRef Rbacktick; PRef Rlenient_mri; PRef Rbacktick]
  | Rlenient_mri => PRe re_lenient_mri
  | Runquoted_mri => PRe re_unquoted_mri
  | Rquoted_public_name => PSeq [PRef Rbacktick; PRef Runquoted_public_name; PRef Rbacktick]
  | Runquoted_public_name => PRe re_public
  | Ropen_paren => PLit ($"(")
  | Rclose_paren => PLit ($")")
  | Ropen_square_bracket => PLit ($"[")
  | Rclose_square_bracket => PLit ($"]")
  | Ropen_brace => PLit ($"{")
  | Rclose_brace => PLit ($"}")
  | Rcomma => PLit ($",")
  | Rbacktick => PLit ($"`")
  | Rcolon => PLit ($":")
  | Rand => PAlt [PLit ($"AND"); PLit ($"and")]
  | Ror => PAlt [PLit ($"OR"); PLit ($"or")]
  | Rquote => PLit [DQ]
  | Rwildcard => PLit ($"*")
  | Rws => PRe re_ws
  end.

(** * The grammar is not left-recursive *)

(** every rule but white space matches at least one character *)
Definition rule_nonnull (r : rule) : bool := match r with Rws => false | _ => true end.
Definition rule_rank (r : rule) : nat :=
  match r with
  | Rexpression => 33 | Rterm => 30 | Runary => 27 | Rcoefficient => 24 | Rfilter => 21
  | Rtarget => 18 | Rfunction => 15 | Rinner_filter => 15 | Rmetric => 12
  | Rcurried_aggregate | Rcurried_arbitrary_function | Raggregate | Rarbitrary_function => 8
  | Raggregate_list => 16 | Rparam => 12 | Rparam_expression => 8
  | Rfilter_expr => 20 | Rfilter_term => 16 | Rfilter_factor => 12 | Rtag_value => 12
  | Rnested_expr | Rjoint_operator | Rsuffix_wildcard_tag_value
  | Rquoted_suffix_wildcard_tag_value | Rstring_tuple | Rnested_expression | Rgroup_by
  | Rgroup_by_name_tuple | Rquoted_mri | Rquoted_public_name => 8
  | _ => 5
  end.
Definition max_rank : nat := 40.
Lemma grammar_ok : forall r, rule_ok rule grammar rule_nonnull rule_rank max_rank r = true.
Proof. intros r. destruct r; vm_compute; reflexivity. Qed.

(** * The visitor, mql.py:138-592 *)

(** what a visit method returns: a value of the API, a list, or a FilterFactor
    (mql.py:595-598) *)
Inductive pv :=
| PVal (v : mval)
| PList (l : list pv)
| PFactor (value : obj) (wildcard : bool).

(** bool(x) *)
Definition pv_truthy (x : pv) : bool :=
  match x with
  | PVal (VObj o) => truthy o
  | PVal _ => true
  | PList l => match l with [] => false | _ => true end
  | PFactor _ _ => true
  end.
Definition PStr (s : str) : pv := PVal (VObj (OStr s)).

(** AGGREGATE_PLACEHOLDER_NAME, mql.py:25 *)
Definition placeholder : str := $"AGGREGATE_PLACEHOLDER".
(** EXPRESSION_OPERATORS, TERM_OPERATORS, UNARY_OPERATORS, mql.py:110-122 *)
Definition expression_operator (t : str) : result str :=
  if str_eqb t ($"+") then Ok ($"plus")
  else if str_eqb t ($"-") then Ok ($"minus") else Raise KeyError.
Definition term_operator (t : str) : result str :=
  if str_eqb t ($"*") then Ok ($"multiply")
  else if str_eqb t ($"/") then Ok ($"divide") else Raise KeyError.

(** Formula(name, [params]) as the parser builds it *)
Definition formula (name : pv) (params : list mval) (aggp : obj) : result pv :=
  match name with
  | PVal (VObj n) => Ok (PVal (VFormula n (Some KList) params aggp ONone ONone))
  | _ => Raise TypeError
  end.
Definition as_mval (x : pv) : result mval :=
  match x with PVal v => Ok v | _ => Raise TypeError end.
Definition as_obj (x : pv) : result obj :=
  match x with PVal (VObj o) => Ok o | _ => Raise TypeError end.
(** isinstance(x, (Timeseries, Formula)) *)
Definition is_query (x : pv) : bool :=
  match x with PVal (VTS _) | PVal (VFormula _ _ _ _ _ _) => true | _ => false end.
(** isinstance(x, (Formula, Timeseries, float, int, str)) *)
Definition is_operand (x : pv) : bool :=
  match x with
  | PVal (VTS _) | PVal (VFormula _ _ _ _ _ _) => true
  | PVal (VObj (OFloat _)) | PVal (VObj (OInt _)) | PVal (VObj (OBool _))
  | PVal (VObj (OStr _)) => true
  | _ => false
  end.

(** the loops of visit_expression and visit_term, mql.py:166-171, 186-191 *)
Fixpoint fold_ops (lhs : mval) (others : list pv) : result mval :=
  match others with
  | [] => Ok lhs
  | PList (_ :: o :: _ :: rhs :: _) :: rest =>
      let! r := as_mval rhs in
      let! n := as_obj o in
      fold_ops (VFormula n (Some KList) [lhs; r] ONone ONone ONone) rest
  | _ => Raise ValueError
  end.
Definition visit_chain (children : list pv) : result pv :=
  match children with
  | [lhs; PList others] =>
      assert_ (is_operand lhs) AssertionError ;!
      let! l := as_mval lhs in let! v := fold_ops l others in Ok (PVal v)
  | _ => Raise ValueError
  end.

(** - f *)
Definition flt_neg (f : flt) : flt :=
  match f with
  | FNan => FNan | FInf n => FInf (negb n) | FFin n m e => FFin (negb n) m e
  end.

(** visit_unary, mql.py:196-212 *)
Definition visit_unary (children : list pv) : result pv :=
  match children with
  | [PList uop; c] =>
      match uop with
      | [] => Ok c
      | u :: _ =>
          match c with
          | PVal (VObj (OFloat f)) => Ok (PVal (VObj (OFloat (flt_neg f))))
          | PVal (VObj (OInt z)) => Ok (PVal (VObj (OInt (- z))))
          | PVal (VTS _ as v) | PVal (VFormula _ _ _ _ _ _ as v) => formula u [v] ONone
          | _ => Raise InvalidMQLQueryError
          end
      end
  | _ => Raise ValueError
  end.

(** the fourth items of the repetitions, as in [v for _, _, _, v in others] *)
Fixpoint fourths (others : list pv) : result (list pv) :=
  match others with
  | [] => Ok []
  | PList [_; _; _; v] :: rest => let! r := fourths rest in Ok (v :: r)
  | _ => Raise ValueError
  end.

(** _filter, mql.py:254-271 *)
Definition visit_bool (o : boolop) (children : list pv) : result pv :=
  match children with
  | first :: PList others :: _ =>
      let! rest := fourths others in
      match rest with
      | [] => Ok first
      | _ => let! l := mapM as_obj (first :: rest) in
             let! c := match o with AND => mk_and (OList l) | OR => mk_or (OList l) end in
             Ok (PVal (VObj c))
      end
  | _ => Raise ValueError
  end.

(** visit_filter_factor, mql.py:283-312 *)
Definition factor_op (negated : bool) (wildcard : bool) (rhs : obj) : op :=
  match negated, wildcard, rhs with
  | false, true, OStr _ => LIKE
  | false, _, OList _ => IN
  | true, false, OStr _ => NEQ
  | true, false, OList _ => NOT_IN
  | true, true, OStr _ => NOT_LIKE
  | _, _, _ => EQ
  end.
Definition visit_filter_factor (children : list pv) : result pv :=
  match children with
  | PVal (VObj (OCond l o r)) :: _ => Ok (PVal (VObj (OCond l o r)))
  | PVal (VObj (OBoolC b o k l)) :: _ => Ok (PVal (VObj (OBoolC b o k l)))
  | PList [PList cop; PList (lhs :: _); _; _; _; PFactor rhs wild] :: _ =>
      let negated := match cop with [PVal (VObj (OOp NOT))] => true | _ => false end in
      let! l := as_obj lhs in
      let! c := mk_condition l (OOp (factor_op negated wild rhs)) rhs in
      Ok (PVal (VObj c))
  | _ => Raise ValueError
  end.

(** group_by as a list: [if not isinstance(group_by, list): group_by = [group_by]] *)
Definition groupby_list (x : pv) : result (list obj) :=
  match x with
  | PList l => mapM as_obj l
  | _ => let! o := as_obj x in Ok [o]
  end.

(** .filters, .groupby, set_filters, set_groupby of a Timeseries or Formula *)
Definition get_filters (v : mval) : result obj :=
  match v with
  | VTS t => Ok (obj_of_opt OList (ts_filters t))
  | VFormula _ _ _ _ f _ => Ok f
  | _ => Raise AttributeError
  end.
Definition get_groupby (v : mval) : result obj :=
  match v with
  | VTS t => Ok (obj_of_opt OList (ts_groupby t))
  | VFormula _ _ _ _ _ g => Ok g
  | _ => Raise AttributeError
  end.
Definition put_filters (v : mval) (x : obj) : result mval :=
  match v with
  | VTS t => let! t' := set_filters t x in Ok (VTS t')
  | _ => formula_set_filters v x
  end.
Definition put_groupby (v : mval) (x : obj) : result mval :=
  match v with
  | VTS t => let! t' := set_groupby t x in Ok (VTS t')
  | _ => formula_set_groupby v x
  end.

(** x.extend(current) for a list or nothing *)
Definition extend (l : list obj) (current : obj) : result (list obj) :=
  if truthy current then let! c := iter current in Ok (l ++ c) else Ok l.

(** the group-by part of visit_filter and visit_function, mql.py:245-251, 329-335 *)
Definition apply_groupby (v : mval) (packed : list pv) : result mval :=
  match packed with
  | [] => Ok v
  | g :: _ =>
      let! l := groupby_list g in
      let! cur := get_groupby v in
      let! l' := extend l cur in
      put_groupby v (OList l')
  end.
(** the filter part, mql.py:239-244 *)
Definition apply_filters (v : mval) (packed : list pv) : result mval :=
  match packed with
  | [] => Ok v
  | PList (_ :: cond :: _) :: _ =>
      let! c := as_obj cond in
      let! cur := get_filters v in
      let! l' := extend [c] cur in
      put_filters v (OList l')
  | _ => Raise ValueError
  end.
(** [_, packed_filters, _ = filters[0]] if filters *)
Definition packed_filters (filters : list pv) : result (list pv) :=
  match filters with
  | [] => Ok []
  | PList [_; PList p; _] :: _ => Ok p
  | _ => Raise ValueError
  end.
(** visit_filter, mql.py:225-252 *)
Definition visit_filter (children : list pv) : result pv :=
  match children with
  | target :: PList filters :: PList packed_g :: _ =>
      let! packed_f := packed_filters filters in
      assert_ (is_query target) AssertionError ;!
      let! v := as_mval target in
      let! v1 := apply_filters v packed_f in
      let! v2 := apply_groupby v1 packed_g in
      Ok (PVal v2)
  | _ => Raise ValueError
  end.

(** Timeseries(metric=m, aggregate=AGGREGATE_PLACEHOLDER_NAME) *)
Definition placeholder_ts (m : mval) : result timeseries :=
  mk_timeseries m (OStr placeholder) ONone ONone ONone.

(** visit_inner_filter, mql.py:507-529 *)
Definition visit_inner_filter (children : list pv) : result pv :=
  match children with
  | PList (m :: _) :: PList filters :: PList packed_g :: _ =>
      let! packed_f := packed_filters filters in
      match m with
      | PVal (VMetric mm) =>
          let! t := placeholder_ts (VMetric mm) in
          let! t1 := match packed_f with
                     | [] => Ok t
                     | PList (_ :: cond :: _) :: _ =>
                         let! c := as_obj cond in set_filters t (OList [c])
                     | _ => Raise ValueError
                     end in
          let! t2 := match packed_g with
                     | [] => Ok t1
                     | g :: _ => let! l := groupby_list g in set_groupby t1 (OList l)
                     end in
          Ok (PVal (VTS t2))
      | _ => Raise AssertionError
      end
  | _ => Raise ValueError
  end.

(** visit_function, mql.py:320-336 *)
Definition visit_function (children : list pv) : result pv :=
  match children with
  | [PList (target :: _); PList packed_g] =>
      assert_ (is_query target) AssertionError ;!
      let! v := as_mval target in
      let! v' := apply_groupby v packed_g in
      Ok (PVal v')
  | _ => Raise ValueError
  end.

(** visit_target, mql.py:406-419 *)
Definition visit_target (children : list pv) : result pv :=
  match children with
  | c :: _ =>
      let! target := match c with
                     | PList (x :: _) => Ok x
                     | PList [] => Raise IndexError
                     | _ => Ok c
                     end in
      match target with
      | PVal (VMetric m) => let! t := placeholder_ts (VMetric m) in Ok (PVal (VTS t))
      | _ => assert_ (is_query target) AssertionError ;! Ok target
      end
  | [] => Raise IndexError
  end.

(** visit_aggregate, mql.py:430-446 *)
Definition visit_aggregate (children : list pv) : result pv :=
  match children with
  | [name; PList (_ :: _ :: target :: _ :: _)] =>
      match target with
      | PVal (VTS t) =>
          if str_eqb (ts_agg t) placeholder
          then let! n := as_obj name in let! t' := set_aggregate t n ONone in Ok (PVal (VTS t'))
          else formula name [VTS t] ONone
      | _ => Raise AssertionError
      end
  | _ => Raise ValueError
  end.

(** agg_param_list[0] if agg_param_list else [] *)
Definition agg_params_of (agg_params : list pv) : result obj :=
  match agg_params with
  | _ :: _ :: PList l :: _ =>
      match l with
      | [] => Ok (OList [])
      | PList ps :: _ => let! os := mapM as_obj ps in Ok (OList os)
      | _ => Raise TypeError
      end
  | _ => Raise ValueError
  end.

(** visit_curried_aggregate, mql.py:448-460 *)
Definition visit_curried_aggregate (children : list pv) : result pv :=
  match children with
  | [name; PList agg_params; PList (_ :: _ :: target :: _ :: _)] =>
      let! ps := agg_params_of agg_params in
      match target with
      | PVal (VTS t) =>
          let! n := as_obj name in let! t' := set_aggregate t n ps in Ok (PVal (VTS t'))
      | _ => Raise AssertionError
      end
  | _ => Raise ValueError
  end.

(** [param[-1] for param in params] *)
Fixpoint lasts (params : list pv) : result (list mval) :=
  match params with
  | [] => Ok []
  | PList l :: rest =>
      match rev l with
      | x :: _ => let! v := as_mval x in let! r := lasts rest in Ok (v :: r)
      | [] => Raise IndexError
      end
  | _ => Raise TypeError
  end.
Definition has_placeholder (v : mval) : option timeseries :=
  match v with
  | VTS t => if str_eqb (ts_agg t) placeholder then Some t else None
  | _ => None
  end.

(** visit_arbitrary_function, mql.py:462-479 *)
Definition visit_arbitrary_function (children : list pv) : result pv :=
  match children with
  | [name; PList (_ :: PList [_; target; _] :: PList params :: _)] =>
      let! ps := lasts params in
      let! v := as_mval target in
      match has_placeholder v with
      | Some _ => Raise InvalidMQLQueryError
      | None => formula name (v :: ps) ONone
      end
  | _ => Raise ValueError
  end.

(** visit_curried_arbitrary_function, mql.py:481-505 *)
Definition visit_curried_arbitrary_function (children : list pv) : result pv :=
  match children with
  | [name; PList agg_params; PList (_ :: _ :: PList [_; target; _] :: PList params :: _)] =>
      let! aps := agg_params_of agg_params in
      let! ps := lasts params in
      let! v := as_mval target in
      match has_placeholder v with
      | Some t => let! n := as_obj name in let! t' := set_aggregate t n aps in Ok (PVal (VTS t'))
      | None => formula name (v :: ps) aps
      end
  | _ => Raise ValueError
  end.

(** visit_string_tuple, mql.py:391-395: first[0] and the v[0] *)
Fixpoint firsts (l : list pv) : result (list obj) :=
  match l with
  | [] => Ok []
  | PList (x :: _) :: rest => let! o := as_obj x in let! r := firsts rest in Ok (o :: r)
  | _ => Raise TypeError
  end.
Definition visit_string_tuple (children : list pv) : result pv :=
  match children with
  | [_; _; first; PList others; _; _] =>
      let! vs := fourths others in
      let! l := firsts (first :: vs) in
      Ok (PFactor (OList l) false)
  | _ => Raise ValueError
  end.

(** text[1:-1].replace('\\"', '"'), mql.py:369-370, 387-388 *)
Definition unquote (text : str) : str := replace [BSL; DQ] [DQ] (slice_1_m1 text).

Definition is_param_value (x : pv) : bool :=
  match x with
  | PVal (VObj (OStr _)) | PVal (VObj (OInt _)) | PVal (VObj (OFloat _))
  | PVal (VObj (OBool _)) => true
  | _ => false
  end.

(** Column(node.text) *)
Definition text_column (text : str) : result pv :=
  let! c := mk_column (OStr text) ONone in Ok (PVal (VObj c)).
Definition text_metric (public mri : obj) : result pv :=
  let! m := mk_metric public mri ONone in Ok (PVal (VMetric m)).

(** the method of a rule applied to a node and the results of its children; rules
    without a method use generic_visit, mql.py:590-592 *)
Definition act (r : rule) (text : str) (children : list pv) : result pv :=
  match r with
  | Rexpression | Rterm => visit_chain children
  | Rexpr_op => let! s := expression_operator text in Ok (PStr s)
  | Rterm_op => let! s := term_operator text in Ok (PStr s)
  | Runary => visit_unary children
  | Runary_op => if str_eqb text ($"-") then Ok (PStr ($"negate")) else Raise KeyError
  | Rcoefficient | Rtag_value =>
      match children with c :: _ => Ok c | [] => Raise IndexError end
  | Rnumber => Ok (PVal (VObj (OFloat (float_of_text text))))
  | Rfilter => visit_filter children
  | Rfilter_expr => visit_bool OR children
  | Rfilter_term => visit_bool AND children
  | Rfilter_factor => visit_filter_factor children
  | Rnested_expr => match children with _ :: _ :: e :: _ => Ok e | _ => Raise ValueError end
  | Rfunction => visit_function children
  | Rgroup_by =>
      match rev children with
      | PList (x :: _) :: _ => Ok x
      | _ => Raise ValueError
      end
  | Rcondition_op => if str_eqb text ($"!") then Ok (PVal (VObj (OOp NOT))) else Raise ValueError
  | Rtag_key | Rgroup_by_name => text_column text
  | Rquoted_suffix_wildcard_tag_value =>
      match children with
      | [_; PVal (VObj (OStr t)); _; _] => Ok (PFactor (OStr (t ++ $"*")) true)
      | _ => Raise ValueError
      end
  | Rsuffix_wildcard_tag_value =>
      match children with
      | [PVal (VObj (OStr t)); _] => Ok (PFactor (OStr (t ++ $"*")) true)
      | _ => Raise ValueError
      end
  | Rquoted_string_filter => Ok (PFactor (OStr (unquote text)) false)
  | Runquoted_string_filter => Ok (PFactor (OStr text) false)
  | Runquoted_string => Ok (PStr text)
  | Rquoted_string => Ok (PStr (unquote text))
  | Rstring_tuple => visit_string_tuple children
  | Rgroup_by_name_tuple =>
      match children with
      | [_; _; first; PList others; _; _] =>
          let! vs := fourths others in Ok (PList (first :: vs))
      | _ => Raise ValueError
      end
  | Rtarget => visit_target children
  | Rvariable => Raise InvalidMQLQueryError
  | Rnested_expression =>
      match children with
      | _ :: _ :: e :: _ => assert_ (is_query e) AssertionError ;! Ok e
      | _ => Raise IndexError
      end
  | Raggregate => visit_aggregate children
  | Rcurried_aggregate => visit_curried_aggregate children
  | Rarbitrary_function => visit_arbitrary_function children
  | Rcurried_arbitrary_function => visit_curried_arbitrary_function children
  | Rinner_filter => visit_inner_filter children
  | Rparam =>
      match children with
      | p :: _ => assert_ (is_param_value p) AssertionError ;! Ok p
      | [] => Raise ValueError
      end
  | Rparam_expression =>
      match children with
      | [p] => assert_ (is_param_value p) AssertionError ;! Ok p
      | _ => Raise ValueError
      end
  | Raggregate_list =>
      match children with
      | [PList ps; p] => Ok (PList (ps ++ [p]))
      | _ => Raise ValueError
      end
  | Raggregate_name | Rcurried_aggregate_name | Rarbitrary_function_name
  | Rcurried_arbitrary_function_name => Ok (PStr text)
  | Rquoted_mri => text_metric ONone (OStr (slice_1_m1 text))
  | Rlenient_mri | Runquoted_mri => text_metric ONone (OStr text)
  | Rquoted_public_name => text_metric (OStr (slice_1_m1 text)) ONone
  | Runquoted_public_name => text_metric (OStr text) ONone
  | _ => Ok (PList children)
  end.

(** visit, mql.py:139-155: children first, left to right *)
Fixpoint vis (nd : node rule) : result pv :=
  let all := fix all (l : list (node rule)) : result (list pv) :=
    match l with
    | [] => Ok []
    | x :: l' => let! v := vis x in let! r := all l' in Ok (v :: r)
    end in
  match nd with
  | Node name text ch =>
      let! cs := all ch in
      match name with
      | Some r => act r text cs
      | None => Ok (PList cs)
      end
  end.

(** * parse_mql, mql.py:125-135 *)

Definition parse_depth (s : str) : nat :=
  depth rule rule_nonnull rule_rank max_rank (PRef Rexpression) s.
Definition parse_mql (mql : str) : result mval :=
  let text := strip is_space mql in
  match run grammar (parse_depth text) (PRef Rexpression) text with
  | Done nd [] =>
      let! r := vis nd in
      match r with
      | PVal (VTS t) => Ok (VTS t)
      | PVal (VFormula n pk ps a f g) => Ok (VFormula n pk ps a f g)
      | _ => Raise AssertionError
      end
  | _ => Raise InvalidMQLQueryError
  end.

(** the grammar's verdict does not depend on the depth bound *)
Lemma parse_depth_exact s r :
  gives grammar (PRef Rexpression) s r <->
  run grammar (parse_depth s) (PRef Rexpression) s = r.
Proof. apply run_depth; [exact grammar_ok|vm_compute; reflexivity]. Qed.

End Mql.
