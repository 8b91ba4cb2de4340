(** Specification for C60: names of aggregate functions, and nesting of functions. *)
From Verif Require Import PyBase Objects SpecExpr.

(** the aggregate functions, in alphabetical order *)
Definition base_names : list str :=
  [$"any"; $"anyHeavy"; $"anyLast"; $"apdex"; $"argMax"; $"argMin"; $"avg"; $"avgWeighted";
   $"categoricalInformationValue"; $"count"; $"covarPop"; $"covarSamp"; $"failure_rate";
   $"groupArray"; $"groupArrayInsertAt"; $"groupArrayMovingAvg"; $"groupArrayMovingSum";
   $"groupBitAnd"; $"groupBitOr"; $"groupBitXor"; $"groupBitmap"; $"groupBitmapAnd";
   $"groupBitmapOr"; $"groupBitmapXor"; $"groupUniqArray"; $"histogram"; $"kurtPop";
   $"kurtSamp"; $"max"; $"maxMap"; $"min"; $"minMap"; $"quantile"; $"quantileDeterministic";
   $"quantileExact"; $"quantileExactHigh"; $"quantileExactLow"; $"quantileExactWeighted";
   $"quantileTDigest"; $"quantileTDigestWeighted"; $"quantileTiming";
   $"quantileTimingWeighted"; $"quantiles"; $"retention"; $"sequenceCount"; $"sequenceMatch";
   $"simpleLinearRegression"; $"skewPop"; $"skewSamp"; $"stddevPop"; $"stddevSamp";
   $"stochasticLinearRegression"; $"stochasticLogisticRegression"; $"sum"; $"sumMap";
   $"sumMapFiltered"; $"sumWithOverflow"; $"topK"; $"topKWeighted"; $"uniq"; $"uniqCombined";
   $"uniqCombined64"; $"uniqExact"; $"uniqHLL12"; $"uniqUpTo"; $"varPop"; $"varSamp";
   $"windowFunnel"].
(** the combinators that can follow them *)
Definition combinators : list str :=
  [$""; $"Array"; $"ForEach"; $"If"; $"Merge"; $"MergeState"; $"OrDefault"; $"OrNull";
   $"Resample"; $"SampleState"; $"State"].
Definition plain_aggregate (n : str) : Prop :=
  exists b s, In b base_names /\ In s combinators /\ n = b ++ s.

(** Legacy names contain calls as text. [called_in w n]: an opening parenthesis in n is
    preceded by w, and w is all the letters and underscores that precede it. *)
Definition name_letter (c : N) : Prop := ascii_letter c \/ c = 95%N.
Definition called_in (w n : str) : Prop :=
  exists a b, n = a ++ w ++ $"(" ++ b /\ w <> [] /\ Forall name_letter w
    /\ (forall a' c, a = a' ++ [c] -> ~ name_letter c).
Definition aggregate_name (n : str) : Prop :=
  plain_aggregate n \/ exists w, called_in w n /\ plain_aggregate w.

(** [nested g f]: g is f, or a parameter of f, or a parameter of a parameter, ... *)
Inductive nested : obj -> obj -> Prop :=
| ne_self f : nested f f
| ne_param g p f n ik il pk pl a : In p pl -> nested g p -> nested g (OFunc f n ik il pk pl a).
(** g is a function with the name n *)
Definition function_named (n : str) (g : obj) : Prop :=
  exists f ik il pk pl a, g = OFunc f n ik il pk pl a.
(** names that the caller declares to be aliases of aggregates *)
Definition alias_in (aliases : option (list str)) (a : str) : Prop :=
  exists l, aliases = Some l /\ In a l.
(** x is a parameter of the function g *)
Definition parameter_of (x g : obj) : Prop :=
  exists f n ik il pk pl a, g = OFunc f n ik il pk pl a /\ In x pl.
