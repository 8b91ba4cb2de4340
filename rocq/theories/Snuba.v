(** snuba.py and the helpers of query_visitors.py: which functions are aggregates. *)
From Verif Require Import PyBase Objects.

(** _AGGREGATION_FUNCTIONS_BASE, snuba.py:14-88 *)
Definition aggregation_base : list str :=
  [$"count"; $"min"; $"max"; $"sum"; $"avg"; $"any"; $"stddevPop"; $"stddevSamp"; $"varPop";
   $"varSamp"; $"covarPop"; $"covarSamp"; $"anyHeavy"; $"anyLast"; $"argMin"; $"argMax";
   $"avgWeighted"; $"topK"; $"topKWeighted"; $"groupArray"; $"groupUniqArray";
   $"groupArrayInsertAt"; $"groupArrayMovingAvg"; $"groupArrayMovingSum"; $"groupBitAnd";
   $"groupBitOr"; $"groupBitXor"; $"groupBitmap"; $"groupBitmapAnd"; $"groupBitmapOr";
   $"groupBitmapXor"; $"sumWithOverflow"; $"sumMap"; $"minMap"; $"maxMap"; $"skewSamp";
   $"skewPop"; $"kurtSamp"; $"kurtPop"; $"uniq"; $"uniqExact"; $"uniqCombined";
   $"uniqCombined64"; $"uniqHLL12"; $"quantile"; $"quantiles"; $"quantileExact";
   $"quantileExactLow"; $"quantileExactHigh"; $"quantileExactWeighted"; $"quantileTiming";
   $"quantileTimingWeighted"; $"quantileDeterministic"; $"quantileTDigest";
   $"quantileTDigestWeighted"; $"simpleLinearRegression"; $"stochasticLinearRegression";
   $"stochasticLogisticRegression"; $"categoricalInformationValue"; $"histogram";
   $"sequenceMatch"; $"sequenceCount"; $"windowFunnel"; $"retention"; $"uniqUpTo";
   $"sumMapFiltered"; $"apdex"; $"failure_rate"].
(** _AGGREGATION_SUFFIXES, snuba.py:90-102 *)
Definition aggregation_suffixes : list str :=
  [$""; $"If"; $"Array"; $"SampleState"; $"State"; $"Merge"; $"MergeState"; $"ForEach";
   $"OrDefault"; $"OrNull"; $"Resample"].
(** AGGREGATION_FUNCTIONS, snuba.py:104-108 *)
Definition aggregation_functions : list str :=
  flat_map (fun f => map (fun s => f ++ s) aggregation_suffixes) aggregation_base.

(** FUNCTION_NAME.findall, snuba.py:110, 116: the groups of all matches of [a-zA-Z_]+ before
    an opening parenthesis, from left to right. A match starts at the first character of
    a run of such characters, since a match that starts later would be longer if it
    started earlier; [cur] is the run that ends here. *)
Definition is_name_char (c : N) : bool := is_alpha c || N.eqb c 95.
Fixpoint called_words (cur : str) (s : str) : list str :=
  match s with
  | [] => []
  | c :: s' =>
      if is_name_char c then called_words (cur ++ [c]) s'
      else match cur with
           | [] => called_words [] s'
           | _ => if N.eqb c 40 then cur :: called_words [] s' else called_words [] s'
           end
  end.

(** is_aggregation_function, snuba.py:113-124; aliases: a set as a list, or None *)
Definition is_aggregation_function (name : str) (aliases : option (list str)) : bool :=
  (mem_char 40 name
   && (existsb (fun w => mem_str w aggregation_functions) (called_words [] name)
       || match aliases with
          | Some l => existsb (fun a => containsb a name) l
          | None => false
          end))
  || mem_str name aggregation_functions.

(** is_aggregate, query_visitors.py:29-49 *)
Definition is_alias_column (aliases : option (list str)) (p : obj) : bool :=
  match aliases, p with
  | Some l, OColumn c => mem_str (c_name c) l
  | _, _ => false
  end.
Fixpoint is_aggregate (aliases : option (list str)) (f : obj) : bool :=
  match f with
  | OFunc _ n _ _ _ params _ =>
      is_aggregation_function n aliases
      || existsb (fun p => is_alias_column aliases p || is_aggregate aliases p) params
  | _ => false
  end.

(** find_column_in_function, query_visitors.py:52-64 *)
Fixpoint find_column_in_function (col : column) (f : obj) : bool :=
  match f with
  | OFunc _ _ _ _ _ params _ =>
      existsb (fun p => py_eq p (OColumn col) || find_column_in_function col p) params
  | _ => false
  end.
