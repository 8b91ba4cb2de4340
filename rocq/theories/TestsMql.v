(** GENERATED by tools/gen_tests_mql.py from /repo/tests/test_mql.py: the repository's own
    parser tests, run on the model. These are tests of the model, not properties. *)
From Verif Require Import PyBase Objects Exprs Query Metrics Mql MetricsQuery Concrete.
#[local] Existing Instance demoRT.
Open Scope Z_scope.

(** parse_mql(text) == expected *)
Definition parses_to (text : str) (expected : result mval) : bool :=
  match parse_mql text, expected with
  | Ok a, Ok b => mv_eq a b
  | _, _ => false
  end.

(* base_tests[0], line 12: test quoted mri name *)
Example base_tests_0 : parses_to ($"sum(`d:transactions/Duration.Metric@{millisecond}`)")
  (let! t := (let! x4 := (let! m := (let! x1 := (Ok ONone) in let! x2 := (Ok (OStr ($"d:transactions/Duration.Metric@{millisecond}"))) in let! x3 := (Ok ONone) in mk_metric x1 x2 x3) in Ok (VMetric m)) in let! x5 := (Ok (OStr ($"sum"))) in let! x6 := (Ok ONone) in let! x7 := (Ok ONone) in let! x8 := (Ok ONone) in mk_timeseries x4 x5 x6 x7 x8) in Ok (VTS t)) = true.
Proof. vm_compute. reflexivity. Qed.

(* base_tests[1], line 20: test unquoted mri name *)
Example base_tests_1 : parses_to ($"sum(d:transactions/organizations.api.v1@millisecond)")
  (let! t := (let! x4 := (let! m := (let! x1 := (Ok ONone) in let! x2 := (Ok (OStr ($"d:transactions/organizations.api.v1@millisecond"))) in let! x3 := (Ok ONone) in mk_metric x1 x2 x3) in Ok (VMetric m)) in let! x5 := (Ok (OStr ($"sum"))) in let! x6 := (Ok ONone) in let! x7 := (Ok ONone) in let! x8 := (Ok ONone) in mk_timeseries x4 x5 x6 x7 x8) in Ok (VTS t)) = true.
Proof. vm_compute. reflexivity. Qed.

(* base_tests[2], line 28: test weird mri name *)
Example base_tests_2 : parses_to ($"sum(`avg(d:transactions/Duration.Metric@{millisecond})`)")
  (let! t := (let! x4 := (let! m := (let! x1 := (Ok ONone) in let! x2 := (Ok (OStr ($"avg(d:transactions/Duration.Metric@{millisecond})"))) in let! x3 := (Ok ONone) in mk_metric x1 x2 x3) in Ok (VMetric m)) in let! x5 := (Ok (OStr ($"sum"))) in let! x6 := (Ok ONone) in let! x7 := (Ok ONone) in let! x8 := (Ok ONone) in mk_timeseries x4 x5 x6 x7 x8) in Ok (VTS t)) = true.
Proof. vm_compute. reflexivity. Qed.

(* base_tests[3], line 36: test quoted public name 1 *)
Example base_tests_3 : parses_to ($"sum(`transactions.duration`)")
  (let! t := (let! x4 := (let! m := (let! x1 := (Ok (OStr ($"transactions.duration"))) in let! x2 := (Ok ONone) in let! x3 := (Ok ONone) in mk_metric x1 x2 x3) in Ok (VMetric m)) in let! x5 := (Ok (OStr ($"sum"))) in let! x6 := (Ok ONone) in let! x7 := (Ok ONone) in let! x8 := (Ok ONone) in mk_timeseries x4 x5 x6 x7 x8) in Ok (VTS t)) = true.
Proof. vm_compute. reflexivity. Qed.

(* base_tests[4], line 41: test quoted public name 2 *)
Example base_tests_4 : parses_to ($"sum(`foo`)")
  (let! t := (let! x4 := (let! m := (let! x1 := (Ok (OStr ($"foo"))) in let! x2 := (Ok ONone) in let! x3 := (Ok ONone) in mk_metric x1 x2 x3) in Ok (VMetric m)) in let! x5 := (Ok (OStr ($"sum"))) in let! x6 := (Ok ONone) in let! x7 := (Ok ONone) in let! x8 := (Ok ONone) in mk_timeseries x4 x5 x6 x7 x8) in Ok (VTS t)) = true.
Proof. vm_compute. reflexivity. Qed.

(* base_tests[5], line 46: test unquoted public name 1 *)
Example base_tests_5 : parses_to ($"sum(transactions.duration)")
  (let! t := (let! x4 := (let! m := (let! x1 := (Ok (OStr ($"transactions.duration"))) in let! x2 := (Ok ONone) in let! x3 := (Ok ONone) in mk_metric x1 x2 x3) in Ok (VMetric m)) in let! x5 := (Ok (OStr ($"sum"))) in let! x6 := (Ok ONone) in let! x7 := (Ok ONone) in let! x8 := (Ok ONone) in mk_timeseries x4 x5 x6 x7 x8) in Ok (VTS t)) = true.
Proof. vm_compute. reflexivity. Qed.

(* base_tests[6], line 51: test unquoted public name 1 *)
Example base_tests_6 : parses_to ($"sum(foo)")
  (let! t := (let! x4 := (let! m := (let! x1 := (Ok (OStr ($"foo"))) in let! x2 := (Ok ONone) in let! x3 := (Ok ONone) in mk_metric x1 x2 x3) in Ok (VMetric m)) in let! x5 := (Ok (OStr ($"sum"))) in let! x6 := (Ok ONone) in let! x7 := (Ok ONone) in let! x8 := (Ok ONone) in mk_timeseries x4 x5 x6 x7 x8) in Ok (VTS t)) = true.
Proof. vm_compute. reflexivity. Qed.

(* base_tests[7], line 56: test nested expressions 1 *)
Example base_tests_7 : parses_to ($"(sum(foo))")
  (let! t := (let! x4 := (let! m := (let! x1 := (Ok (OStr ($"foo"))) in let! x2 := (Ok ONone) in let! x3 := (Ok ONone) in mk_metric x1 x2 x3) in Ok (VMetric m)) in let! x5 := (Ok (OStr ($"sum"))) in let! x6 := (Ok ONone) in let! x7 := (Ok ONone) in let! x8 := (Ok ONone) in mk_timeseries x4 x5 x6 x7 x8) in Ok (VTS t)) = true.
Proof. vm_compute. reflexivity. Qed.

(* base_tests[8], line 61: test nested expressions 2 *)
Example base_tests_8 : parses_to ($"(sum(foo))")
  (let! t := (let! x4 := (let! m := (let! x1 := (Ok (OStr ($"foo"))) in let! x2 := (Ok ONone) in let! x3 := (Ok ONone) in mk_metric x1 x2 x3) in Ok (VMetric m)) in let! x5 := (Ok (OStr ($"sum"))) in let! x6 := (Ok ONone) in let! x7 := (Ok ONone) in let! x8 := (Ok ONone) in mk_timeseries x4 x5 x6 x7 x8) in Ok (VTS t)) = true.
Proof. vm_compute. reflexivity. Qed.

(* base_tests[9], line 66: test filter *)
Example base_tests_9 : parses_to ($"sum(foo){bar:""baz""}")
  (let! t := (let! x10 := (let! m := (let! x1 := (Ok (OStr ($"foo"))) in let! x2 := (Ok ONone) in let! x3 := (Ok ONone) in mk_metric x1 x2 x3) in Ok (VMetric m)) in let! x11 := (Ok (OStr ($"sum"))) in let! x12 := (Ok ONone) in let! x13 := (let! x4 := (let! x7 := (let! x5 := (Ok (OStr ($"bar"))) in let! x6 := (Ok ONone) in mk_column x5 x6) in let! x8 := (Ok (OOp EQ)) in let! x9 := (Ok (OStr ($"baz"))) in mk_condition x7 x8 x9) in Ok (OList [x4])) in let! x14 := (Ok ONone) in mk_timeseries x10 x11 x12 x13 x14) in Ok (VTS t)) = true.
Proof. vm_compute. reflexivity. Qed.

(* base_tests[10], line 75: test empty filter *)
Example base_tests_10 : parses_to ($"sum(foo){}")
  (let! t := (let! x4 := (let! m := (let! x1 := (Ok (OStr ($"foo"))) in let! x2 := (Ok ONone) in let! x3 := (Ok ONone) in mk_metric x1 x2 x3) in Ok (VMetric m)) in let! x5 := (Ok (OStr ($"sum"))) in let! x6 := (Ok ONone) in let! x7 := (Ok ONone) in let! x8 := (Ok ONone) in mk_timeseries x4 x5 x6 x7 x8) in Ok (VTS t)) = true.
Proof. vm_compute. reflexivity. Qed.

(* base_tests[11], line 83: test filter with unquoted value *)
Example base_tests_11 : parses_to ($"sum(foo){bar:baz}")
  (let! t := (let! x10 := (let! m := (let! x1 := (Ok (OStr ($"foo"))) in let! x2 := (Ok ONone) in let! x3 := (Ok ONone) in mk_metric x1 x2 x3) in Ok (VMetric m)) in let! x11 := (Ok (OStr ($"sum"))) in let! x12 := (Ok ONone) in let! x13 := (let! x4 := (let! x7 := (let! x5 := (Ok (OStr ($"bar"))) in let! x6 := (Ok ONone) in mk_column x5 x6) in let! x8 := (Ok (OOp EQ)) in let! x9 := (Ok (OStr ($"baz"))) in mk_condition x7 x8 x9) in Ok (OList [x4])) in let! x14 := (Ok ONone) in mk_timeseries x10 x11 x12 x13 x14) in Ok (VTS t)) = true.
Proof. vm_compute. reflexivity. Qed.

(* base_tests[12], line 92: test filter with quoted value with special characters *)
Example base_tests_12 : parses_to ($"sum(foo){bar:""2023-01-03T10:00:00""}")
  (let! t := (let! x10 := (let! m := (let! x1 := (Ok (OStr ($"foo"))) in let! x2 := (Ok ONone) in let! x3 := (Ok ONone) in mk_metric x1 x2 x3) in Ok (VMetric m)) in let! x11 := (Ok (OStr ($"sum"))) in let! x12 := (Ok ONone) in let! x13 := (let! x4 := (let! x7 := (let! x5 := (Ok (OStr ($"bar"))) in let! x6 := (Ok ONone) in mk_column x5 x6) in let! x8 := (Ok (OOp EQ)) in let! x9 := (Ok (OStr ($"2023-01-03T10:00:00"))) in mk_condition x7 x8 x9) in Ok (OList [x4])) in let! x14 := (Ok ONone) in mk_timeseries x10 x11 x12 x13 x14) in Ok (VTS t)) = true.
Proof. vm_compute. reflexivity. Qed.

(* base_tests[13], line 101: test filter with unquoted value with special characters *)
Example base_tests_13 : parses_to ($"sum(foo){bar:2023-01-03T10:00:00}")
  (let! t := (let! x10 := (let! m := (let! x1 := (Ok (OStr ($"foo"))) in let! x2 := (Ok ONone) in let! x3 := (Ok ONone) in mk_metric x1 x2 x3) in Ok (VMetric m)) in let! x11 := (Ok (OStr ($"sum"))) in let! x12 := (Ok ONone) in let! x13 := (let! x4 := (let! x7 := (let! x5 := (Ok (OStr ($"bar"))) in let! x6 := (Ok ONone) in mk_column x5 x6) in let! x8 := (Ok (OOp EQ)) in let! x9 := (Ok (OStr ($"2023-01-03T10:00:00"))) in mk_condition x7 x8 x9) in Ok (OList [x4])) in let! x14 := (Ok ONone) in mk_timeseries x10 x11 x12 x13 x14) in Ok (VTS t)) = true.
Proof. vm_compute. reflexivity. Qed.

(* base_tests[14], line 110: test not filter *)
Example base_tests_14 : parses_to ($"sum(foo){!bar:""baz""}")
  (let! t := (let! x10 := (let! m := (let! x1 := (Ok (OStr ($"foo"))) in let! x2 := (Ok ONone) in let! x3 := (Ok ONone) in mk_metric x1 x2 x3) in Ok (VMetric m)) in let! x11 := (Ok (OStr ($"sum"))) in let! x12 := (Ok ONone) in let! x13 := (let! x4 := (let! x7 := (let! x5 := (Ok (OStr ($"bar"))) in let! x6 := (Ok ONone) in mk_column x5 x6) in let! x8 := (Ok (OOp NEQ)) in let! x9 := (Ok (OStr ($"baz"))) in mk_condition x7 x8 x9) in Ok (OList [x4])) in let! x14 := (Ok ONone) in mk_timeseries x10 x11 x12 x13 x14) in Ok (VTS t)) = true.
Proof. vm_compute. reflexivity. Qed.

(* base_tests[15], line 119: test not filter with unquoted value *)
Example base_tests_15 : parses_to ($"sum(foo){!bar:baz}")
  (let! t := (let! x10 := (let! m := (let! x1 := (Ok (OStr ($"foo"))) in let! x2 := (Ok ONone) in let! x3 := (Ok ONone) in mk_metric x1 x2 x3) in Ok (VMetric m)) in let! x11 := (Ok (OStr ($"sum"))) in let! x12 := (Ok ONone) in let! x13 := (let! x4 := (let! x7 := (let! x5 := (Ok (OStr ($"bar"))) in let! x6 := (Ok ONone) in mk_column x5 x6) in let! x8 := (Ok (OOp NEQ)) in let! x9 := (Ok (OStr ($"baz"))) in mk_condition x7 x8 x9) in Ok (OList [x4])) in let! x14 := (Ok ONone) in mk_timeseries x10 x11 x12 x13 x14) in Ok (VTS t)) = true.
Proof. vm_compute. reflexivity. Qed.

(* base_tests[16], line 128: test in filter *)
Example base_tests_16 : parses_to ($"sum(foo){bar:[""baz"", ""bap""]}")
  (let! t := (let! x12 := (let! m := (let! x1 := (Ok (OStr ($"foo"))) in let! x2 := (Ok ONone) in let! x3 := (Ok ONone) in mk_metric x1 x2 x3) in Ok (VMetric m)) in let! x13 := (Ok (OStr ($"sum"))) in let! x14 := (Ok ONone) in let! x15 := (let! x4 := (let! x9 := (let! x5 := (Ok (OStr ($"bar"))) in let! x6 := (Ok ONone) in mk_column x5 x6) in let! x10 := (Ok (OOp IN)) in let! x11 := (let! x7 := (Ok (OStr ($"baz"))) in let! x8 := (Ok (OStr ($"bap"))) in Ok (OList [x7; x8])) in mk_condition x9 x10 x11) in Ok (OList [x4])) in let! x16 := (Ok ONone) in mk_timeseries x12 x13 x14 x15 x16) in Ok (VTS t)) = true.
Proof. vm_compute. reflexivity. Qed.

(* base_tests[17], line 137: test in filter with unquoted values *)
Example base_tests_17 : parses_to ($"sum(foo){bar:[""baz"", bap]}")
  (let! t := (let! x12 := (let! m := (let! x1 := (Ok (OStr ($"foo"))) in let! x2 := (Ok ONone) in let! x3 := (Ok ONone) in mk_metric x1 x2 x3) in Ok (VMetric m)) in let! x13 := (Ok (OStr ($"sum"))) in let! x14 := (Ok ONone) in let! x15 := (let! x4 := (let! x9 := (let! x5 := (Ok (OStr ($"bar"))) in let! x6 := (Ok ONone) in mk_column x5 x6) in let! x10 := (Ok (OOp IN)) in let! x11 := (let! x7 := (Ok (OStr ($"baz"))) in let! x8 := (Ok (OStr ($"bap"))) in Ok (OList [x7; x8])) in mk_condition x9 x10 x11) in Ok (OList [x4])) in let! x16 := (Ok ONone) in mk_timeseries x12 x13 x14 x15 x16) in Ok (VTS t)) = true.
Proof. vm_compute. reflexivity. Qed.

(* base_tests[18], line 146: test in filter with quoted and unquoted values *)
Example base_tests_18 : parses_to ($"sum(foo){bar:[baz, bap]}")
  (let! t := (let! x12 := (let! m := (let! x1 := (Ok (OStr ($"foo"))) in let! x2 := (Ok ONone) in let! x3 := (Ok ONone) in mk_metric x1 x2 x3) in Ok (VMetric m)) in let! x13 := (Ok (OStr ($"sum"))) in let! x14 := (Ok ONone) in let! x15 := (let! x4 := (let! x9 := (let! x5 := (Ok (OStr ($"bar"))) in let! x6 := (Ok ONone) in mk_column x5 x6) in let! x10 := (Ok (OOp IN)) in let! x11 := (let! x7 := (Ok (OStr ($"baz"))) in let! x8 := (Ok (OStr ($"bap"))) in Ok (OList [x7; x8])) in mk_condition x9 x10 x11) in Ok (OList [x4])) in let! x16 := (Ok ONone) in mk_timeseries x12 x13 x14 x15 x16) in Ok (VTS t)) = true.
Proof. vm_compute. reflexivity. Qed.

(* base_tests[19], line 155: test not in filter *)
Example base_tests_19 : parses_to ($"sum(foo){!bar:[""baz"", ""bap""]}")
  (let! t := (let! x12 := (let! m := (let! x1 := (Ok (OStr ($"foo"))) in let! x2 := (Ok ONone) in let! x3 := (Ok ONone) in mk_metric x1 x2 x3) in Ok (VMetric m)) in let! x13 := (Ok (OStr ($"sum"))) in let! x14 := (Ok ONone) in let! x15 := (let! x4 := (let! x9 := (let! x5 := (Ok (OStr ($"bar"))) in let! x6 := (Ok ONone) in mk_column x5 x6) in let! x10 := (Ok (OOp NOT_IN)) in let! x11 := (let! x7 := (Ok (OStr ($"baz"))) in let! x8 := (Ok (OStr ($"bap"))) in Ok (OList [x7; x8])) in mk_condition x9 x10 x11) in Ok (OList [x4])) in let! x16 := (Ok ONone) in mk_timeseries x12 x13 x14 x15 x16) in Ok (VTS t)) = true.
Proof. vm_compute. reflexivity. Qed.

(* base_tests[20], line 164: test not in filter with unquoted values *)
Example base_tests_20 : parses_to ($"sum(foo){!bar:[baz, bap]}")
  (let! t := (let! x12 := (let! m := (let! x1 := (Ok (OStr ($"foo"))) in let! x2 := (Ok ONone) in let! x3 := (Ok ONone) in mk_metric x1 x2 x3) in Ok (VMetric m)) in let! x13 := (Ok (OStr ($"sum"))) in let! x14 := (Ok ONone) in let! x15 := (let! x4 := (let! x9 := (let! x5 := (Ok (OStr ($"bar"))) in let! x6 := (Ok ONone) in mk_column x5 x6) in let! x10 := (Ok (OOp NOT_IN)) in let! x11 := (let! x7 := (Ok (OStr ($"baz"))) in let! x8 := (Ok (OStr ($"bap"))) in Ok (OList [x7; x8])) in mk_condition x9 x10 x11) in Ok (OList [x4])) in let! x16 := (Ok ONone) in mk_timeseries x12 x13 x14 x15 x16) in Ok (VTS t)) = true.
Proof. vm_compute. reflexivity. Qed.

(* base_tests[21], line 173: test not in filter with quoted and unquoted values *)
Example base_tests_21 : parses_to ($"sum(foo){!bar:[""baz"", bap]}")
  (let! t := (let! x12 := (let! m := (let! x1 := (Ok (OStr ($"foo"))) in let! x2 := (Ok ONone) in let! x3 := (Ok ONone) in mk_metric x1 x2 x3) in Ok (VMetric m)) in let! x13 := (Ok (OStr ($"sum"))) in let! x14 := (Ok ONone) in let! x15 := (let! x4 := (let! x9 := (let! x5 := (Ok (OStr ($"bar"))) in let! x6 := (Ok ONone) in mk_column x5 x6) in let! x10 := (Ok (OOp NOT_IN)) in let! x11 := (let! x7 := (Ok (OStr ($"baz"))) in let! x8 := (Ok (OStr ($"bap"))) in Ok (OList [x7; x8])) in mk_condition x9 x10 x11) in Ok (OList [x4])) in let! x16 := (Ok ONone) in mk_timeseries x12 x13 x14 x15 x16) in Ok (VTS t)) = true.
Proof. vm_compute. reflexivity. Qed.

(* base_tests[22], line 182: test filter inside aggregate *)
Example base_tests_22 : parses_to ($"sum(foo{bar:""baz""})")
  (let! t := (let! x10 := (let! m := (let! x1 := (Ok (OStr ($"foo"))) in let! x2 := (Ok ONone) in let! x3 := (Ok ONone) in mk_metric x1 x2 x3) in Ok (VMetric m)) in let! x11 := (Ok (OStr ($"sum"))) in let! x12 := (Ok ONone) in let! x13 := (let! x4 := (let! x7 := (let! x5 := (Ok (OStr ($"bar"))) in let! x6 := (Ok ONone) in mk_column x5 x6) in let! x8 := (Ok (OOp EQ)) in let! x9 := (Ok (OStr ($"baz"))) in mk_condition x7 x8 x9) in Ok (OList [x4])) in let! x14 := (Ok ONone) in mk_timeseries x10 x11 x12 x13 x14) in Ok (VTS t)) = true.
Proof. vm_compute. reflexivity. Qed.

(* base_tests[23], line 191: test filter inside aggregate with unquoted value *)
Example base_tests_23 : parses_to ($"sum(foo{bar:baz})")
  (let! t := (let! x10 := (let! m := (let! x1 := (Ok (OStr ($"foo"))) in let! x2 := (Ok ONone) in let! x3 := (Ok ONone) in mk_metric x1 x2 x3) in Ok (VMetric m)) in let! x11 := (Ok (OStr ($"sum"))) in let! x12 := (Ok ONone) in let! x13 := (let! x4 := (let! x7 := (let! x5 := (Ok (OStr ($"bar"))) in let! x6 := (Ok ONone) in mk_column x5 x6) in let! x8 := (Ok (OOp EQ)) in let! x9 := (Ok (OStr ($"baz"))) in mk_condition x7 x8 x9) in Ok (OList [x4])) in let! x14 := (Ok ONone) in mk_timeseries x10 x11 x12 x13 x14) in Ok (VTS t)) = true.
Proof. vm_compute. reflexivity. Qed.

(* base_tests[24], line 200: test filter with suffix wildcard *)
Example base_tests_24 : parses_to ($"sum(foo){bar:before_wildcard_*}")
  (let! t := (let! x10 := (let! m := (let! x1 := (Ok (OStr ($"foo"))) in let! x2 := (Ok ONone) in let! x3 := (Ok ONone) in mk_metric x1 x2 x3) in Ok (VMetric m)) in let! x11 := (Ok (OStr ($"sum"))) in let! x12 := (Ok ONone) in let! x13 := (let! x4 := (let! x7 := (let! x5 := (Ok (OStr ($"bar"))) in let! x6 := (Ok ONone) in mk_column x5 x6) in let! x8 := (Ok (OOp LIKE)) in let! x9 := (Ok (OStr ($"before_wildcard_*"))) in mk_condition x7 x8 x9) in Ok (OList [x4])) in let! x14 := (Ok ONone) in mk_timeseries x10 x11 x12 x13 x14) in Ok (VTS t)) = true.
Proof. vm_compute. reflexivity. Qed.

(* base_tests[25], line 209: test filter with mixed quoted/unquoted suffix wildcard *)
Example base_tests_25 : parses_to ($"sum(foo){bar:before_wildcard_* and foo:""before_other_wildcard_*""}")
  (let! t := (let! x18 := (let! m := (let! x1 := (Ok (OStr ($"foo"))) in let! x2 := (Ok ONone) in let! x3 := (Ok ONone) in mk_metric x1 x2 x3) in Ok (VMetric m)) in let! x19 := (Ok (OStr ($"sum"))) in let! x20 := (Ok ONone) in let! x21 := (let! x4 := (let! x17 := (let! x5 := (let! x8 := (let! x6 := (Ok (OStr ($"bar"))) in let! x7 := (Ok ONone) in mk_column x6 x7) in let! x9 := (Ok (OOp LIKE)) in let! x10 := (Ok (OStr ($"before_wildcard_*"))) in mk_condition x8 x9 x10) in let! x11 := (let! x14 := (let! x12 := (Ok (OStr ($"foo"))) in let! x13 := (Ok ONone) in mk_column x12 x13) in let! x15 := (Ok (OOp LIKE)) in let! x16 := (Ok (OStr ($"before_other_wildcard_*"))) in mk_condition x14 x15 x16) in Ok (OList [x5; x11])) in mk_and x17) in Ok (OList [x4])) in let! x22 := (Ok ONone) in mk_timeseries x18 x19 x20 x21 x22) in Ok (VTS t)) = true.
Proof. vm_compute. reflexivity. Qed.

(* base_tests[26], line 225: test filter with quoted suffix wildcard *)
Example base_tests_26 : parses_to ($"sum(foo){bar:""before_wildcard_*""}")
  (let! t := (let! x10 := (let! m := (let! x1 := (Ok (OStr ($"foo"))) in let! x2 := (Ok ONone) in let! x3 := (Ok ONone) in mk_metric x1 x2 x3) in Ok (VMetric m)) in let! x11 := (Ok (OStr ($"sum"))) in let! x12 := (Ok ONone) in let! x13 := (let! x4 := (let! x7 := (let! x5 := (Ok (OStr ($"bar"))) in let! x6 := (Ok ONone) in mk_column x5 x6) in let! x8 := (Ok (OOp LIKE)) in let! x9 := (Ok (OStr ($"before_wildcard_*"))) in mk_condition x7 x8 x9) in Ok (OList [x4])) in let! x14 := (Ok ONone) in mk_timeseries x10 x11 x12 x13 x14) in Ok (VTS t)) = true.
Proof. vm_compute. reflexivity. Qed.

(* base_tests[27], line 234: test filter with multiple quoted suffix wildcards *)
Example base_tests_27 : parses_to ($"sum(foo){bar:""before_wildcard_*"" and foo:""before_other_wildcard_*""}")
  (let! t := (let! x18 := (let! m := (let! x1 := (Ok (OStr ($"foo"))) in let! x2 := (Ok ONone) in let! x3 := (Ok ONone) in mk_metric x1 x2 x3) in Ok (VMetric m)) in let! x19 := (Ok (OStr ($"sum"))) in let! x20 := (Ok ONone) in let! x21 := (let! x4 := (let! x17 := (let! x5 := (let! x8 := (let! x6 := (Ok (OStr ($"bar"))) in let! x7 := (Ok ONone) in mk_column x6 x7) in let! x9 := (Ok (OOp LIKE)) in let! x10 := (Ok (OStr ($"before_wildcard_*"))) in mk_condition x8 x9 x10) in let! x11 := (let! x14 := (let! x12 := (Ok (OStr ($"foo"))) in let! x13 := (Ok ONone) in mk_column x12 x13) in let! x15 := (Ok (OOp LIKE)) in let! x16 := (Ok (OStr ($"before_other_wildcard_*"))) in mk_condition x14 x15 x16) in Ok (OList [x5; x11])) in mk_and x17) in Ok (OList [x4])) in let! x22 := (Ok ONone) in mk_timeseries x18 x19 x20 x21 x22) in Ok (VTS t)) = true.
Proof. vm_compute. reflexivity. Qed.

(* base_tests[28], line 250: test filter with multiple quoted suffix wildcards and non-wildcard filters *)
Example base_tests_28 : parses_to ($"sum(foo){bar:""before_wildcard_*"" and foo:""before_other_wildcard_*"" and baz:hello and !barbaz:foo}")
  (let! t := (let! x30 := (let! m := (let! x1 := (Ok (OStr ($"foo"))) in let! x2 := (Ok ONone) in let! x3 := (Ok ONone) in mk_metric x1 x2 x3) in Ok (VMetric m)) in let! x31 := (Ok (OStr ($"sum"))) in let! x32 := (Ok ONone) in let! x33 := (let! x4 := (let! x29 := (let! x5 := (let! x8 := (let! x6 := (Ok (OStr ($"bar"))) in let! x7 := (Ok ONone) in mk_column x6 x7) in let! x9 := (Ok (OOp LIKE)) in let! x10 := (Ok (OStr ($"before_wildcard_*"))) in mk_condition x8 x9 x10) in let! x11 := (let! x14 := (let! x12 := (Ok (OStr ($"foo"))) in let! x13 := (Ok ONone) in mk_column x12 x13) in let! x15 := (Ok (OOp LIKE)) in let! x16 := (Ok (OStr ($"before_other_wildcard_*"))) in mk_condition x14 x15 x16) in let! x17 := (let! x20 := (let! x18 := (Ok (OStr ($"baz"))) in let! x19 := (Ok ONone) in mk_column x18 x19) in let! x21 := (Ok (OOp EQ)) in let! x22 := (Ok (OStr ($"hello"))) in mk_condition x20 x21 x22) in let! x23 := (let! x26 := (let! x24 := (Ok (OStr ($"barbaz"))) in let! x25 := (Ok ONone) in mk_column x24 x25) in let! x27 := (Ok (OOp NEQ)) in let! x28 := (Ok (OStr ($"foo"))) in mk_condition x26 x27 x28) in Ok (OList [x5; x11; x17; x23])) in mk_and x29) in Ok (OList [x4])) in let! x34 := (Ok ONone) in mk_timeseries x30 x31 x32 x33 x34) in Ok (VTS t)) = true.
Proof. vm_compute. reflexivity. Qed.

(* base_tests[29], line 268: test prefix wildcard does not work *)
Example base_tests_29 : parses_to ($"sum(foo){bar:""*_after_wildcard""}")
  (let! t := (let! x10 := (let! m := (let! x1 := (Ok (OStr ($"foo"))) in let! x2 := (Ok ONone) in let! x3 := (Ok ONone) in mk_metric x1 x2 x3) in Ok (VMetric m)) in let! x11 := (Ok (OStr ($"sum"))) in let! x12 := (Ok ONone) in let! x13 := (let! x4 := (let! x7 := (let! x5 := (Ok (OStr ($"bar"))) in let! x6 := (Ok ONone) in mk_column x5 x6) in let! x8 := (Ok (OOp EQ)) in let! x9 := (Ok (OStr ($"*_after_wildcard"))) in mk_condition x7 x8 x9) in Ok (OList [x4])) in let! x14 := (Ok ONone) in mk_timeseries x10 x11 x12 x13 x14) in Ok (VTS t)) = true.
Proof. vm_compute. reflexivity. Qed.

(* base_tests[30], line 277: test filter with negated quoted suffix wildcard *)
Example base_tests_30 : parses_to ($"sum(foo){!bar:""before_wildcard_*""}")
  (let! t := (let! x10 := (let! m := (let! x1 := (Ok (OStr ($"foo"))) in let! x2 := (Ok ONone) in let! x3 := (Ok ONone) in mk_metric x1 x2 x3) in Ok (VMetric m)) in let! x11 := (Ok (OStr ($"sum"))) in let! x12 := (Ok ONone) in let! x13 := (let! x4 := (let! x7 := (let! x5 := (Ok (OStr ($"bar"))) in let! x6 := (Ok ONone) in mk_column x5 x6) in let! x8 := (Ok (OOp NOT_LIKE)) in let! x9 := (Ok (OStr ($"before_wildcard_*"))) in mk_condition x7 x8 x9) in Ok (OList [x4])) in let! x14 := (Ok ONone) in mk_timeseries x10 x11 x12 x13 x14) in Ok (VTS t)) = true.
Proof. vm_compute. reflexivity. Qed.

(* base_tests[31], line 286: test multiple filters *)
Example base_tests_31 : parses_to ($"sum(user{bar:""baz"", foo:""foz""})")
  (let! t := (let! x18 := (let! m := (let! x1 := (Ok (OStr ($"user"))) in let! x2 := (Ok ONone) in let! x3 := (Ok ONone) in mk_metric x1 x2 x3) in Ok (VMetric m)) in let! x19 := (Ok (OStr ($"sum"))) in let! x20 := (Ok ONone) in let! x21 := (let! x4 := (let! x17 := (let! x5 := (let! x8 := (let! x6 := (Ok (OStr ($"bar"))) in let! x7 := (Ok ONone) in mk_column x6 x7) in let! x9 := (Ok (OOp EQ)) in let! x10 := (Ok (OStr ($"baz"))) in mk_condition x8 x9 x10) in let! x11 := (let! x14 := (let! x12 := (Ok (OStr ($"foo"))) in let! x13 := (Ok ONone) in mk_column x12 x13) in let! x15 := (Ok (OOp EQ)) in let! x16 := (Ok (OStr ($"foz"))) in mk_condition x14 x15 x16) in Ok (OList [x5; x11])) in mk_and x17) in Ok (OList [x4])) in let! x22 := (Ok ONone) in mk_timeseries x18 x19 x20 x21 x22) in Ok (VTS t)) = true.
Proof. vm_compute. reflexivity. Qed.

(* base_tests[32], line 302: test multiple filters with space delimiter *)
Example base_tests_32 : parses_to ($"sum(user{bar:""baz"" foo:""foz""})")
  (let! t := (let! x18 := (let! m := (let! x1 := (Ok (OStr ($"user"))) in let! x2 := (Ok ONone) in let! x3 := (Ok ONone) in mk_metric x1 x2 x3) in Ok (VMetric m)) in let! x19 := (Ok (OStr ($"sum"))) in let! x20 := (Ok ONone) in let! x21 := (let! x4 := (let! x17 := (let! x5 := (let! x8 := (let! x6 := (Ok (OStr ($"bar"))) in let! x7 := (Ok ONone) in mk_column x6 x7) in let! x9 := (Ok (OOp EQ)) in let! x10 := (Ok (OStr ($"baz"))) in mk_condition x8 x9 x10) in let! x11 := (let! x14 := (let! x12 := (Ok (OStr ($"foo"))) in let! x13 := (Ok ONone) in mk_column x12 x13) in let! x15 := (Ok (OOp EQ)) in let! x16 := (Ok (OStr ($"foz"))) in mk_condition x14 x15 x16) in Ok (OList [x5; x11])) in mk_and x17) in Ok (OList [x4])) in let! x22 := (Ok ONone) in mk_timeseries x18 x19 x20 x21 x22) in Ok (VTS t)) = true.
Proof. vm_compute. reflexivity. Qed.

(* base_tests[33], line 318: test multiple filters with lowercase AND operator *)
Example base_tests_33 : parses_to ($"sum(user{bar:""baz"" and foo:""foz""})")
  (let! t := (let! x18 := (let! m := (let! x1 := (Ok (OStr ($"user"))) in let! x2 := (Ok ONone) in let! x3 := (Ok ONone) in mk_metric x1 x2 x3) in Ok (VMetric m)) in let! x19 := (Ok (OStr ($"sum"))) in let! x20 := (Ok ONone) in let! x21 := (let! x4 := (let! x17 := (let! x5 := (let! x8 := (let! x6 := (Ok (OStr ($"bar"))) in let! x7 := (Ok ONone) in mk_column x6 x7) in let! x9 := (Ok (OOp EQ)) in let! x10 := (Ok (OStr ($"baz"))) in mk_condition x8 x9 x10) in let! x11 := (let! x14 := (let! x12 := (Ok (OStr ($"foo"))) in let! x13 := (Ok ONone) in mk_column x12 x13) in let! x15 := (Ok (OOp EQ)) in let! x16 := (Ok (OStr ($"foz"))) in mk_condition x14 x15 x16) in Ok (OList [x5; x11])) in mk_and x17) in Ok (OList [x4])) in let! x22 := (Ok ONone) in mk_timeseries x18 x19 x20 x21 x22) in Ok (VTS t)) = true.
Proof. vm_compute. reflexivity. Qed.

(* base_tests[34], line 334: test multiple filters with lowercase AND and OR operators and no parentheses *)
Example base_tests_34 : parses_to ($"sum(user{bar:""baz"" OR foo:""foz"" and (hee:""haw"")})")
  (let! t := (let! x26 := (let! m := (let! x1 := (Ok (OStr ($"user"))) in let! x2 := (Ok ONone) in let! x3 := (Ok ONone) in mk_metric x1 x2 x3) in Ok (VMetric m)) in let! x27 := (Ok (OStr ($"sum"))) in let! x28 := (Ok ONone) in let! x29 := (let! x4 := (let! x25 := (let! x5 := (let! x8 := (let! x6 := (Ok (OStr ($"bar"))) in let! x7 := (Ok ONone) in mk_column x6 x7) in let! x9 := (Ok (OOp EQ)) in let! x10 := (Ok (OStr ($"baz"))) in mk_condition x8 x9 x10) in let! x11 := (let! x24 := (let! x12 := (let! x15 := (let! x13 := (Ok (OStr ($"foo"))) in let! x14 := (Ok ONone) in mk_column x13 x14) in let! x16 := (Ok (OOp EQ)) in let! x17 := (Ok (OStr ($"foz"))) in mk_condition x15 x16 x17) in let! x18 := (let! x21 := (let! x19 := (Ok (OStr ($"hee"))) in let! x20 := (Ok ONone) in mk_column x19 x20) in let! x22 := (Ok (OOp EQ)) in let! x23 := (Ok (OStr ($"haw"))) in mk_condition x21 x22 x23) in Ok (OList [x12; x18])) in mk_and x24) in Ok (OList [x5; x11])) in mk_or x25) in Ok (OList [x4])) in let! x30 := (Ok ONone) in mk_timeseries x26 x27 x28 x29 x30) in Ok (VTS t)) = true.
Proof. vm_compute. reflexivity. Qed.

(* base_tests[35], line 355: test multiple filters with AND and lowercase OR operators *)
Example base_tests_35 : parses_to ($"sum(user{(bar:""baz"" or foo:""foz"") AND hee:""haw""})")
  (let! t := (let! x26 := (let! m := (let! x1 := (Ok (OStr ($"user"))) in let! x2 := (Ok ONone) in let! x3 := (Ok ONone) in mk_metric x1 x2 x3) in Ok (VMetric m)) in let! x27 := (Ok (OStr ($"sum"))) in let! x28 := (Ok ONone) in let! x29 := (let! x4 := (let! x25 := (let! x5 := (let! x18 := (let! x6 := (let! x9 := (let! x7 := (Ok (OStr ($"bar"))) in let! x8 := (Ok ONone) in mk_column x7 x8) in let! x10 := (Ok (OOp EQ)) in let! x11 := (Ok (OStr ($"baz"))) in mk_condition x9 x10 x11) in let! x12 := (let! x15 := (let! x13 := (Ok (OStr ($"foo"))) in let! x14 := (Ok ONone) in mk_column x13 x14) in let! x16 := (Ok (OOp EQ)) in let! x17 := (Ok (OStr ($"foz"))) in mk_condition x15 x16 x17) in Ok (OList [x6; x12])) in mk_or x18) in let! x19 := (let! x22 := (let! x20 := (Ok (OStr ($"hee"))) in let! x21 := (Ok ONone) in mk_column x20 x21) in let! x23 := (Ok (OOp EQ)) in let! x24 := (Ok (OStr ($"haw"))) in mk_condition x22 x23 x24) in Ok (OList [x5; x19])) in mk_and x25) in Ok (OList [x4])) in let! x30 := (Ok ONone) in mk_timeseries x26 x27 x28 x29 x30) in Ok (VTS t)) = true.
Proof. vm_compute. reflexivity. Qed.

(* base_tests[36], line 376: test multiple filters with space and comma delimiter *)
Example base_tests_36 : parses_to ($"sum(user{bar:""baz"" foo:""foz"", hee:""haw"" AND key:""value""})")
  (let! t := (let! x30 := (let! m := (let! x1 := (Ok (OStr ($"user"))) in let! x2 := (Ok ONone) in let! x3 := (Ok ONone) in mk_metric x1 x2 x3) in Ok (VMetric m)) in let! x31 := (Ok (OStr ($"sum"))) in let! x32 := (Ok ONone) in let! x33 := (let! x4 := (let! x29 := (let! x5 := (let! x8 := (let! x6 := (Ok (OStr ($"bar"))) in let! x7 := (Ok ONone) in mk_column x6 x7) in let! x9 := (Ok (OOp EQ)) in let! x10 := (Ok (OStr ($"baz"))) in mk_condition x8 x9 x10) in let! x11 := (let! x14 := (let! x12 := (Ok (OStr ($"foo"))) in let! x13 := (Ok ONone) in mk_column x12 x13) in let! x15 := (Ok (OOp EQ)) in let! x16 := (Ok (OStr ($"foz"))) in mk_condition x14 x15 x16) in let! x17 := (let! x20 := (let! x18 := (Ok (OStr ($"hee"))) in let! x19 := (Ok ONone) in mk_column x18 x19) in let! x21 := (Ok (OOp EQ)) in let! x22 := (Ok (OStr ($"haw"))) in mk_condition x20 x21 x22) in let! x23 := (let! x26 := (let! x24 := (Ok (OStr ($"key"))) in let! x25 := (Ok ONone) in mk_column x24 x25) in let! x27 := (Ok (OOp EQ)) in let! x28 := (Ok (OStr ($"value"))) in mk_condition x26 x27 x28) in Ok (OList [x5; x11; x17; x23])) in mk_and x29) in Ok (OList [x4])) in let! x34 := (Ok ONone) in mk_timeseries x30 x31 x32 x33 x34) in Ok (VTS t)) = true.
Proof. vm_compute. reflexivity. Qed.

(* base_tests[37], line 394: test multiple filters with unquoted values *)
Example base_tests_37 : parses_to ($"sum(user{bar:baz, foo:foz})")
  (let! t := (let! x18 := (let! m := (let! x1 := (Ok (OStr ($"user"))) in let! x2 := (Ok ONone) in let! x3 := (Ok ONone) in mk_metric x1 x2 x3) in Ok (VMetric m)) in let! x19 := (Ok (OStr ($"sum"))) in let! x20 := (Ok ONone) in let! x21 := (let! x4 := (let! x17 := (let! x5 := (let! x8 := (let! x6 := (Ok (OStr ($"bar"))) in let! x7 := (Ok ONone) in mk_column x6 x7) in let! x9 := (Ok (OOp EQ)) in let! x10 := (Ok (OStr ($"baz"))) in mk_condition x8 x9 x10) in let! x11 := (let! x14 := (let! x12 := (Ok (OStr ($"foo"))) in let! x13 := (Ok ONone) in mk_column x12 x13) in let! x15 := (Ok (OOp EQ)) in let! x16 := (Ok (OStr ($"foz"))) in mk_condition x14 x15 x16) in Ok (OList [x5; x11])) in mk_and x17) in Ok (OList [x4])) in let! x22 := (Ok ONone) in mk_timeseries x18 x19 x20 x21 x22) in Ok (VTS t)) = true.
Proof. vm_compute. reflexivity. Qed.

(* base_tests[38], line 410: test multiple filters with unquoted values with space delimiter *)
Example base_tests_38 : parses_to ($"sum(user{bar:baz foo:foz})")
  (let! t := (let! x18 := (let! m := (let! x1 := (Ok (OStr ($"user"))) in let! x2 := (Ok ONone) in let! x3 := (Ok ONone) in mk_metric x1 x2 x3) in Ok (VMetric m)) in let! x19 := (Ok (OStr ($"sum"))) in let! x20 := (Ok ONone) in let! x21 := (let! x4 := (let! x17 := (let! x5 := (let! x8 := (let! x6 := (Ok (OStr ($"bar"))) in let! x7 := (Ok ONone) in mk_column x6 x7) in let! x9 := (Ok (OOp EQ)) in let! x10 := (Ok (OStr ($"baz"))) in mk_condition x8 x9 x10) in let! x11 := (let! x14 := (let! x12 := (Ok (OStr ($"foo"))) in let! x13 := (Ok ONone) in mk_column x12 x13) in let! x15 := (Ok (OOp EQ)) in let! x16 := (Ok (OStr ($"foz"))) in mk_condition x14 x15 x16) in Ok (OList [x5; x11])) in mk_and x17) in Ok (OList [x4])) in let! x22 := (Ok ONone) in mk_timeseries x18 x19 x20 x21 x22) in Ok (VTS t)) = true.
Proof. vm_compute. reflexivity. Qed.

(* base_tests[39], line 426: test multiple filters with unquoted values with space and comma delimiter *)
Example base_tests_39 : parses_to ($"sum(user{bar:baz foo:foz, hee:haw})")
  (let! t := (let! x24 := (let! m := (let! x1 := (Ok (OStr ($"user"))) in let! x2 := (Ok ONone) in let! x3 := (Ok ONone) in mk_metric x1 x2 x3) in Ok (VMetric m)) in let! x25 := (Ok (OStr ($"sum"))) in let! x26 := (Ok ONone) in let! x27 := (let! x4 := (let! x23 := (let! x5 := (let! x8 := (let! x6 := (Ok (OStr ($"bar"))) in let! x7 := (Ok ONone) in mk_column x6 x7) in let! x9 := (Ok (OOp EQ)) in let! x10 := (Ok (OStr ($"baz"))) in mk_condition x8 x9 x10) in let! x11 := (let! x14 := (let! x12 := (Ok (OStr ($"foo"))) in let! x13 := (Ok ONone) in mk_column x12 x13) in let! x15 := (Ok (OOp EQ)) in let! x16 := (Ok (OStr ($"foz"))) in mk_condition x14 x15 x16) in let! x17 := (let! x20 := (let! x18 := (Ok (OStr ($"hee"))) in let! x19 := (Ok ONone) in mk_column x18 x19) in let! x21 := (Ok (OOp EQ)) in let! x22 := (Ok (OStr ($"haw"))) in mk_condition x20 x21 x22) in Ok (OList [x5; x11; x17])) in mk_and x23) in Ok (OList [x4])) in let! x28 := (Ok ONone) in mk_timeseries x24 x25 x26 x27 x28) in Ok (VTS t)) = true.
Proof. vm_compute. reflexivity. Qed.

(* base_tests[40], line 443: test multiple filters with quoted and unquoted values *)
Example base_tests_40 : parses_to ($"sum(user{bar:""baz"", foo:foz})")
  (let! t := (let! x18 := (let! m := (let! x1 := (Ok (OStr ($"user"))) in let! x2 := (Ok ONone) in let! x3 := (Ok ONone) in mk_metric x1 x2 x3) in Ok (VMetric m)) in let! x19 := (Ok (OStr ($"sum"))) in let! x20 := (Ok ONone) in let! x21 := (let! x4 := (let! x17 := (let! x5 := (let! x8 := (let! x6 := (Ok (OStr ($"bar"))) in let! x7 := (Ok ONone) in mk_column x6 x7) in let! x9 := (Ok (OOp EQ)) in let! x10 := (Ok (OStr ($"baz"))) in mk_condition x8 x9 x10) in let! x11 := (let! x14 := (let! x12 := (Ok (OStr ($"foo"))) in let! x13 := (Ok ONone) in mk_column x12 x13) in let! x15 := (Ok (OOp EQ)) in let! x16 := (Ok (OStr ($"foz"))) in mk_condition x14 x15 x16) in Ok (OList [x5; x11])) in mk_and x17) in Ok (OList [x4])) in let! x22 := (Ok ONone) in mk_timeseries x18 x19 x20 x21 x22) in Ok (VTS t)) = true.
Proof. vm_compute. reflexivity. Qed.

(* base_tests[41], line 459: test multiple filters with quoted and unquoted values with space delimiter *)
Example base_tests_41 : parses_to ($"sum(user{bar:""baz"" foo:foz})")
  (let! t := (let! x18 := (let! m := (let! x1 := (Ok (OStr ($"user"))) in let! x2 := (Ok ONone) in let! x3 := (Ok ONone) in mk_metric x1 x2 x3) in Ok (VMetric m)) in let! x19 := (Ok (OStr ($"sum"))) in let! x20 := (Ok ONone) in let! x21 := (let! x4 := (let! x17 := (let! x5 := (let! x8 := (let! x6 := (Ok (OStr ($"bar"))) in let! x7 := (Ok ONone) in mk_column x6 x7) in let! x9 := (Ok (OOp EQ)) in let! x10 := (Ok (OStr ($"baz"))) in mk_condition x8 x9 x10) in let! x11 := (let! x14 := (let! x12 := (Ok (OStr ($"foo"))) in let! x13 := (Ok ONone) in mk_column x12 x13) in let! x15 := (Ok (OOp EQ)) in let! x16 := (Ok (OStr ($"foz"))) in mk_condition x14 x15 x16) in Ok (OList [x5; x11])) in mk_and x17) in Ok (OList [x4])) in let! x22 := (Ok ONone) in mk_timeseries x18 x19 x20 x21 x22) in Ok (VTS t)) = true.
Proof. vm_compute. reflexivity. Qed.

(* base_tests[42], line 475: test multiple filters with quoted and unquoted values with space and comma delimiter *)
Example base_tests_42 : parses_to ($"sum(user{bar:""baz"" foo:foz, hee:""haw""})")
  (let! t := (let! x24 := (let! m := (let! x1 := (Ok (OStr ($"user"))) in let! x2 := (Ok ONone) in let! x3 := (Ok ONone) in mk_metric x1 x2 x3) in Ok (VMetric m)) in let! x25 := (Ok (OStr ($"sum"))) in let! x26 := (Ok ONone) in let! x27 := (let! x4 := (let! x23 := (let! x5 := (let! x8 := (let! x6 := (Ok (OStr ($"bar"))) in let! x7 := (Ok ONone) in mk_column x6 x7) in let! x9 := (Ok (OOp EQ)) in let! x10 := (Ok (OStr ($"baz"))) in mk_condition x8 x9 x10) in let! x11 := (let! x14 := (let! x12 := (Ok (OStr ($"foo"))) in let! x13 := (Ok ONone) in mk_column x12 x13) in let! x15 := (Ok (OOp EQ)) in let! x16 := (Ok (OStr ($"foz"))) in mk_condition x14 x15 x16) in let! x17 := (let! x20 := (let! x18 := (Ok (OStr ($"hee"))) in let! x19 := (Ok ONone) in mk_column x18 x19) in let! x21 := (Ok (OOp EQ)) in let! x22 := (Ok (OStr ($"haw"))) in mk_condition x20 x21 x22) in Ok (OList [x5; x11; x17])) in mk_and x23) in Ok (OList [x4])) in let! x28 := (Ok ONone) in mk_timeseries x24 x25 x26 x27 x28) in Ok (VTS t)) = true.
Proof. vm_compute. reflexivity. Qed.

(* base_tests[43], line 492: test complex filters *)
Example base_tests_43 : parses_to ($"sum(user{bar:baz foo:""foz"", !hee:[""haw"", hoo]})")
  (let! t := (let! x26 := (let! m := (let! x1 := (Ok (OStr ($"user"))) in let! x2 := (Ok ONone) in let! x3 := (Ok ONone) in mk_metric x1 x2 x3) in Ok (VMetric m)) in let! x27 := (Ok (OStr ($"sum"))) in let! x28 := (Ok ONone) in let! x29 := (let! x4 := (let! x25 := (let! x5 := (let! x8 := (let! x6 := (Ok (OStr ($"bar"))) in let! x7 := (Ok ONone) in mk_column x6 x7) in let! x9 := (Ok (OOp EQ)) in let! x10 := (Ok (OStr ($"baz"))) in mk_condition x8 x9 x10) in let! x11 := (let! x14 := (let! x12 := (Ok (OStr ($"foo"))) in let! x13 := (Ok ONone) in mk_column x12 x13) in let! x15 := (Ok (OOp EQ)) in let! x16 := (Ok (OStr ($"foz"))) in mk_condition x14 x15 x16) in let! x17 := (let! x22 := (let! x18 := (Ok (OStr ($"hee"))) in let! x19 := (Ok ONone) in mk_column x18 x19) in let! x23 := (Ok (OOp NOT_IN)) in let! x24 := (let! x20 := (Ok (OStr ($"haw"))) in let! x21 := (Ok (OStr ($"hoo"))) in Ok (OList [x20; x21])) in mk_condition x22 x23 x24) in Ok (OList [x5; x11; x17])) in mk_and x25) in Ok (OList [x4])) in let! x30 := (Ok ONone) in mk_timeseries x26 x27 x28 x29 x30) in Ok (VTS t)) = true.
Proof. vm_compute. reflexivity. Qed.

(* base_tests[44], line 509: test multiple layer filters *)
Example base_tests_44 : parses_to ($"sum(`d:transactions/duration@millisecond`{foo:""foz"", hee:""haw""}){bar:""baz""}")
  (let! t := (let! x24 := (let! m := (let! x1 := (Ok ONone) in let! x2 := (Ok (OStr ($"d:transactions/duration@millisecond"))) in let! x3 := (Ok ONone) in mk_metric x1 x2 x3) in Ok (VMetric m)) in let! x25 := (Ok (OStr ($"sum"))) in let! x26 := (Ok ONone) in let! x27 := (let! x4 := (let! x7 := (let! x5 := (Ok (OStr ($"bar"))) in let! x6 := (Ok ONone) in mk_column x5 x6) in let! x8 := (Ok (OOp EQ)) in let! x9 := (Ok (OStr ($"baz"))) in mk_condition x7 x8 x9) in let! x10 := (let! x23 := (let! x11 := (let! x14 := (let! x12 := (Ok (OStr ($"foo"))) in let! x13 := (Ok ONone) in mk_column x12 x13) in let! x15 := (Ok (OOp EQ)) in let! x16 := (Ok (OStr ($"foz"))) in mk_condition x14 x15 x16) in let! x17 := (let! x20 := (let! x18 := (Ok (OStr ($"hee"))) in let! x19 := (Ok ONone) in mk_column x18 x19) in let! x21 := (Ok (OOp EQ)) in let! x22 := (Ok (OStr ($"haw"))) in mk_condition x20 x21 x22) in Ok (OList [x11; x17])) in mk_and x23) in Ok (OList [x4; x10])) in let! x28 := (Ok ONone) in mk_timeseries x24 x25 x26 x27 x28) in Ok (VTS t)) = true.
Proof. vm_compute. reflexivity. Qed.

(* base_tests[45], line 526: test group by 1 *)
Example base_tests_45 : parses_to ($"max(`d:transactions/duration@millisecond`{foo:""foz""}) by transaction")
  (let! t := (let! x13 := (let! m := (let! x1 := (Ok ONone) in let! x2 := (Ok (OStr ($"d:transactions/duration@millisecond"))) in let! x3 := (Ok ONone) in mk_metric x1 x2 x3) in Ok (VMetric m)) in let! x14 := (Ok (OStr ($"max"))) in let! x15 := (Ok ONone) in let! x16 := (let! x4 := (let! x7 := (let! x5 := (Ok (OStr ($"foo"))) in let! x6 := (Ok ONone) in mk_column x5 x6) in let! x8 := (Ok (OOp EQ)) in let! x9 := (Ok (OStr ($"foz"))) in mk_condition x7 x8 x9) in Ok (OList [x4])) in let! x17 := (let! x10 := (let! x11 := (Ok (OStr ($"transaction"))) in let! x12 := (Ok ONone) in mk_column x11 x12) in Ok (OList [x10])) in mk_timeseries x13 x14 x15 x16 x17) in Ok (VTS t)) = true.
Proof. vm_compute. reflexivity. Qed.

(* base_tests[46], line 536: test group by 2 *)
Example base_tests_46 : parses_to ($"max(`d:transactions/duration@millisecond`{transaction.status:foz} by http.status_code)")
  (let! t := (let! x13 := (let! m := (let! x1 := (Ok ONone) in let! x2 := (Ok (OStr ($"d:transactions/duration@millisecond"))) in let! x3 := (Ok ONone) in mk_metric x1 x2 x3) in Ok (VMetric m)) in let! x14 := (Ok (OStr ($"max"))) in let! x15 := (Ok ONone) in let! x16 := (let! x4 := (let! x7 := (let! x5 := (Ok (OStr ($"transaction.status"))) in let! x6 := (Ok ONone) in mk_column x5 x6) in let! x8 := (Ok (OOp EQ)) in let! x9 := (Ok (OStr ($"foz"))) in mk_condition x7 x8 x9) in Ok (OList [x4])) in let! x17 := (let! x10 := (let! x11 := (Ok (OStr ($"http.status_code"))) in let! x12 := (Ok ONone) in mk_column x11 x12) in Ok (OList [x10])) in mk_timeseries x13 x14 x15 x16 x17) in Ok (VTS t)) = true.
Proof. vm_compute. reflexivity. Qed.

(* base_tests[47], line 546: test group by 3 *)
Example base_tests_47 : parses_to ($"max(`d:transactions/duration@millisecond`{transaction.status:""foz""}) by (transaction)")
  (let! t := (let! x13 := (let! m := (let! x1 := (Ok ONone) in let! x2 := (Ok (OStr ($"d:transactions/duration@millisecond"))) in let! x3 := (Ok ONone) in mk_metric x1 x2 x3) in Ok (VMetric m)) in let! x14 := (Ok (OStr ($"max"))) in let! x15 := (Ok ONone) in let! x16 := (let! x4 := (let! x7 := (let! x5 := (Ok (OStr ($"transaction.status"))) in let! x6 := (Ok ONone) in mk_column x5 x6) in let! x8 := (Ok (OOp EQ)) in let! x9 := (Ok (OStr ($"foz"))) in mk_condition x7 x8 x9) in Ok (OList [x4])) in let! x17 := (let! x10 := (let! x11 := (Ok (OStr ($"transaction"))) in let! x12 := (Ok ONone) in mk_column x11 x12) in Ok (OList [x10])) in mk_timeseries x13 x14 x15 x16 x17) in Ok (VTS t)) = true.
Proof. vm_compute. reflexivity. Qed.

(* base_tests[48], line 556: test group by 4 *)
Example base_tests_48 : parses_to ($"max(`d:transactions/duration@millisecond`{transaction.status:""foz""}){transaction.op:baz} by (a.something, b.something)")
  (let! t := (let! x22 := (let! m := (let! x1 := (Ok ONone) in let! x2 := (Ok (OStr ($"d:transactions/duration@millisecond"))) in let! x3 := (Ok ONone) in mk_metric x1 x2 x3) in Ok (VMetric m)) in let! x23 := (Ok (OStr ($"max"))) in let! x24 := (Ok ONone) in let! x25 := (let! x4 := (let! x7 := (let! x5 := (Ok (OStr ($"transaction.op"))) in let! x6 := (Ok ONone) in mk_column x5 x6) in let! x8 := (Ok (OOp EQ)) in let! x9 := (Ok (OStr ($"baz"))) in mk_condition x7 x8 x9) in let! x10 := (let! x13 := (let! x11 := (Ok (OStr ($"transaction.status"))) in let! x12 := (Ok ONone) in mk_column x11 x12) in let! x14 := (Ok (OOp EQ)) in let! x15 := (Ok (OStr ($"foz"))) in mk_condition x13 x14 x15) in Ok (OList [x4; x10])) in let! x26 := (let! x16 := (let! x17 := (Ok (OStr ($"a.something"))) in let! x18 := (Ok ONone) in mk_column x17 x18) in let! x19 := (let! x20 := (Ok (OStr ($"b.something"))) in let! x21 := (Ok ONone) in mk_column x20 x21) in Ok (OList [x16; x19])) in mk_timeseries x22 x23 x24 x25 x26) in Ok (VTS t)) = true.
Proof. vm_compute. reflexivity. Qed.

(* base_tests[49], line 569: test percentile function *)
Example base_tests_49 : parses_to ($"p90(`d:transactions/duration@millisecond`)")
  (let! t := (let! x4 := (let! m := (let! x1 := (Ok ONone) in let! x2 := (Ok (OStr ($"d:transactions/duration@millisecond"))) in let! x3 := (Ok ONone) in mk_metric x1 x2 x3) in Ok (VMetric m)) in let! x5 := (Ok (OStr ($"p90"))) in let! x6 := (Ok ONone) in let! x7 := (Ok ONone) in let! x8 := (Ok ONone) in mk_timeseries x4 x5 x6 x7 x8) in Ok (VTS t)) = true.
Proof. vm_compute. reflexivity. Qed.

(* base_tests[50], line 577: test curried functions *)
Example base_tests_50 : parses_to ($"quantiles(0.5)(`d:transactions/duration@millisecond`)")
  (let! t := (let! x5 := (let! m := (let! x1 := (Ok ONone) in let! x2 := (Ok (OStr ($"d:transactions/duration@millisecond"))) in let! x3 := (Ok ONone) in mk_metric x1 x2 x3) in Ok (VMetric m)) in let! x6 := (Ok (OStr ($"quantiles"))) in let! x7 := (let! x4 := (Ok (OFloat (FFin false 1%N (-1)))) in Ok (OList [x4])) in let! x8 := (Ok ONone) in let! x9 := (Ok ONone) in mk_timeseries x5 x6 x7 x8 x9) in Ok (VTS t)) = true.
Proof. vm_compute. reflexivity. Qed.

(* base_tests[51], line 586: test curried functions with multiple params *)
Example base_tests_51 : parses_to ($"quantiles(0.5, 0.95)(`d:transactions/duration@millisecond`)")
  (let! t := (let! x6 := (let! m := (let! x1 := (Ok ONone) in let! x2 := (Ok (OStr ($"d:transactions/duration@millisecond"))) in let! x3 := (Ok ONone) in mk_metric x1 x2 x3) in Ok (VMetric m)) in let! x7 := (Ok (OStr ($"quantiles"))) in let! x8 := (let! x4 := (Ok (OFloat (FFin false 1%N (-1)))) in let! x5 := (Ok (OFloat (FFin false 4278419646001971%N (-52)))) in Ok (OList [x4; x5])) in let! x9 := (Ok ONone) in let! x10 := (Ok ONone) in mk_timeseries x6 x7 x8 x9 x10) in Ok (VTS t)) = true.
Proof. vm_compute. reflexivity. Qed.

(* base_tests[52], line 595: test curried functions with no params *)
Example base_tests_52 : parses_to ($"quantiles()(`d:transactions/duration@millisecond`)")
  (let! t := (let! x4 := (let! m := (let! x1 := (Ok ONone) in let! x2 := (Ok (OStr ($"d:transactions/duration@millisecond"))) in let! x3 := (Ok ONone) in mk_metric x1 x2 x3) in Ok (VMetric m)) in let! x5 := (Ok (OStr ($"quantiles"))) in let! x6 := (Ok (OList [])) in let! x7 := (Ok ONone) in let! x8 := (Ok ONone) in mk_timeseries x4 x5 x6 x7 x8) in Ok (VTS t)) = true.
Proof. vm_compute. reflexivity. Qed.

(* base_tests[53], line 604: test curried functions with random params *)
Example base_tests_53 : parses_to ($"quantiles(0.5, ""random"", other, 9)(`d:transactions/duration@millisecond`)")
  (let! t := (let! x8 := (let! m := (let! x1 := (Ok ONone) in let! x2 := (Ok (OStr ($"d:transactions/duration@millisecond"))) in let! x3 := (Ok ONone) in mk_metric x1 x2 x3) in Ok (VMetric m)) in let! x9 := (Ok (OStr ($"quantiles"))) in let! x10 := (let! x4 := (Ok (OFloat (FFin false 1%N (-1)))) in let! x5 := (Ok (OStr ($"random"))) in let! x6 := (Ok (OStr ($"other"))) in let! x7 := (Ok (OInt (9))) in Ok (OList [x4; x5; x6; x7])) in let! x11 := (Ok ONone) in let! x12 := (Ok ONone) in mk_timeseries x8 x9 x10 x11 x12) in Ok (VTS t)) = true.
Proof. vm_compute. reflexivity. Qed.

(* base_tests[54], line 613: test curried functions with empty filter *)
Example base_tests_54 : parses_to ($"quantiles(0.5)(`d:transactions/duration.1@millisecond`{})")
  (let! t := (let! x5 := (let! m := (let! x1 := (Ok ONone) in let! x2 := (Ok (OStr ($"d:transactions/duration.1@millisecond"))) in let! x3 := (Ok ONone) in mk_metric x1 x2 x3) in Ok (VMetric m)) in let! x6 := (Ok (OStr ($"quantiles"))) in let! x7 := (let! x4 := (Ok (OFloat (FFin false 1%N (-1)))) in Ok (OList [x4])) in let! x8 := (Ok ONone) in let! x9 := (Ok ONone) in mk_timeseries x5 x6 x7 x8 x9) in Ok (VTS t)) = true.
Proof. vm_compute. reflexivity. Qed.

(* base_tests[55], line 622: test curried functions with filters and group by *)
Example base_tests_55 : parses_to ($"quantiles(0.5)(`d:transactions/duration_2@millisecond`{foo:""foz""}){bar:baz} by (a, b)")
  (let! t := (let! x23 := (let! m := (let! x1 := (Ok ONone) in let! x2 := (Ok (OStr ($"d:transactions/duration_2@millisecond"))) in let! x3 := (Ok ONone) in mk_metric x1 x2 x3) in Ok (VMetric m)) in let! x24 := (Ok (OStr ($"quantiles"))) in let! x25 := (let! x4 := (Ok (OFloat (FFin false 1%N (-1)))) in Ok (OList [x4])) in let! x26 := (let! x5 := (let! x8 := (let! x6 := (Ok (OStr ($"bar"))) in let! x7 := (Ok ONone) in mk_column x6 x7) in let! x9 := (Ok (OOp EQ)) in let! x10 := (Ok (OStr ($"baz"))) in mk_condition x8 x9 x10) in let! x11 := (let! x14 := (let! x12 := (Ok (OStr ($"foo"))) in let! x13 := (Ok ONone) in mk_column x12 x13) in let! x15 := (Ok (OOp EQ)) in let! x16 := (Ok (OStr ($"foz"))) in mk_condition x14 x15 x16) in Ok (OList [x5; x11])) in let! x27 := (let! x17 := (let! x18 := (Ok (OStr ($"a"))) in let! x19 := (Ok ONone) in mk_column x18 x19) in let! x20 := (let! x21 := (Ok (OStr ($"b"))) in let! x22 := (Ok ONone) in mk_column x21 x22) in Ok (OList [x17; x20])) in mk_timeseries x23 x24 x25 x26 x27) in Ok (VTS t)) = true.
Proof. vm_compute. reflexivity. Qed.

(* base_tests[56], line 636: test quotes parsing *)
Example base_tests_56 : parses_to ($"quantiles(0.5)(`d:transactions/duration@millisecond`{foo:'foz' AND hee:""hoo""}){bar:baz} by (a, b)")
  (let! t := (let! x31 := (let! m := (let! x1 := (Ok ONone) in let! x2 := (Ok (OStr ($"d:transactions/duration@millisecond"))) in let! x3 := (Ok ONone) in mk_metric x1 x2 x3) in Ok (VMetric m)) in let! x32 := (Ok (OStr ($"quantiles"))) in let! x33 := (let! x4 := (Ok (OFloat (FFin false 1%N (-1)))) in Ok (OList [x4])) in let! x34 := (let! x5 := (let! x8 := (let! x6 := (Ok (OStr ($"bar"))) in let! x7 := (Ok ONone) in mk_column x6 x7) in let! x9 := (Ok (OOp EQ)) in let! x10 := (Ok (OStr ($"baz"))) in mk_condition x8 x9 x10) in let! x11 := (let! x24 := (let! x12 := (let! x15 := (let! x13 := (Ok (OStr ($"foo"))) in let! x14 := (Ok ONone) in mk_column x13 x14) in let! x16 := (Ok (OOp EQ)) in let! x17 := (Ok (OStr ($"'foz'"))) in mk_condition x15 x16 x17) in let! x18 := (let! x21 := (let! x19 := (Ok (OStr ($"hee"))) in let! x20 := (Ok ONone) in mk_column x19 x20) in let! x22 := (Ok (OOp EQ)) in let! x23 := (Ok (OStr ($"hoo"))) in mk_condition x21 x22 x23) in Ok (OList [x12; x18])) in mk_and x24) in Ok (OList [x5; x11])) in let! x35 := (let! x25 := (let! x26 := (Ok (OStr ($"a"))) in let! x27 := (Ok ONone) in mk_column x26 x27) in let! x28 := (let! x29 := (Ok (OStr ($"b"))) in let! x30 := (Ok ONone) in mk_column x29 x30) in Ok (OList [x25; x28])) in mk_timeseries x31 x32 x33 x34 x35) in Ok (VTS t)) = true.
Proof. vm_compute. reflexivity. Qed.

(* base_tests[57], line 655: test terms with crazy characters *)
Example base_tests_57 : parses_to ($"max(d:transactions/duration@millisecond){bar:"" !\""#$%&'()*+,-./0123456789:;<=>?@ABCDEFGHIJKLMNOPQRSTUVWXYZ[\\]^_`abcdefghijklmnopqrstuvwxyz{|}~""} by (transaction)")
  (let! t := (let! x13 := (let! m := (let! x1 := (Ok ONone) in let! x2 := (Ok (OStr ($"d:transactions/duration@millisecond"))) in let! x3 := (Ok ONone) in mk_metric x1 x2 x3) in Ok (VMetric m)) in let! x14 := (Ok (OStr ($"max"))) in let! x15 := (Ok ONone) in let! x16 := (let! x4 := (let! x7 := (let! x5 := (Ok (OStr ($"bar"))) in let! x6 := (Ok ONone) in mk_column x5 x6) in let! x8 := (Ok (OOp EQ)) in let! x9 := (Ok (OStr ($" !""#$%&'()*+,-./0123456789:;<=>?@ABCDEFGHIJKLMNOPQRSTUVWXYZ[\\]^_`abcdefghijklmnopqrstuvwxyz{|}~"))) in mk_condition x7 x8 x9) in Ok (OList [x4])) in let! x17 := (let! x10 := (let! x11 := (Ok (OStr ($"transaction"))) in let! x12 := (Ok ONone) in mk_column x11 x12) in Ok (OList [x10])) in mk_timeseries x13 x14 x15 x16 x17) in Ok (VTS t)) = true.
Proof. vm_compute. reflexivity. Qed.

(* term_tests[0], line 681: test terms with number *)
Example term_tests_0 : parses_to ($"sum(foo) / 1000")
  (let! x1 := (let! t := (let! x5 := (let! m := (let! x2 := (Ok (OStr ($"foo"))) in let! x3 := (Ok ONone) in let! x4 := (Ok ONone) in mk_metric x2 x3 x4) in Ok (VMetric m)) in let! x6 := (Ok (OStr ($"sum"))) in let! x7 := (Ok ONone) in let! x8 := (Ok ONone) in let! x9 := (Ok ONone) in mk_timeseries x5 x6 x7 x8 x9) in Ok (VTS t)) in let! x10 := (let! x11 := (Ok (OFloat (FFin false 1000%N (0)))) in Ok (VObj x11)) in let! x12 := (Ok (OStr ($"divide"))) in let! x13 := (Ok ONone) in let! x14 := (Ok ONone) in let! x15 := (Ok ONone) in Ok (VFormula x12 (Some KList) [x1; x10] x13 x14 x15)) = true.
Proof. vm_compute. reflexivity. Qed.

(* term_tests[1], line 695: test terms with both aggregates *)
Example term_tests_1 : parses_to ($"sum(foo) * max(bar)")
  (let! x1 := (let! t := (let! x5 := (let! m := (let! x2 := (Ok (OStr ($"foo"))) in let! x3 := (Ok ONone) in let! x4 := (Ok ONone) in mk_metric x2 x3 x4) in Ok (VMetric m)) in let! x6 := (Ok (OStr ($"sum"))) in let! x7 := (Ok ONone) in let! x8 := (Ok ONone) in let! x9 := (Ok ONone) in mk_timeseries x5 x6 x7 x8 x9) in Ok (VTS t)) in let! x10 := (let! t := (let! x14 := (let! m := (let! x11 := (Ok (OStr ($"bar"))) in let! x12 := (Ok ONone) in let! x13 := (Ok ONone) in mk_metric x11 x12 x13) in Ok (VMetric m)) in let! x15 := (Ok (OStr ($"max"))) in let! x16 := (Ok ONone) in let! x17 := (Ok ONone) in let! x18 := (Ok ONone) in mk_timeseries x14 x15 x16 x17 x18) in Ok (VTS t)) in let! x19 := (Ok (OStr ($"multiply"))) in let! x20 := (Ok ONone) in let! x21 := (Ok ONone) in let! x22 := (Ok ONone) in Ok (VFormula x19 (Some KList) [x1; x10] x20 x21 x22)) = true.
Proof. vm_compute. reflexivity. Qed.

(* term_tests[2], line 712: test multi terms *)
Example term_tests_2 : parses_to ($"(sum(foo) * sum(bar)) / 1000")
  (let! x1 := (let! x2 := (let! t := (let! x6 := (let! m := (let! x3 := (Ok (OStr ($"foo"))) in let! x4 := (Ok ONone) in let! x5 := (Ok ONone) in mk_metric x3 x4 x5) in Ok (VMetric m)) in let! x7 := (Ok (OStr ($"sum"))) in let! x8 := (Ok ONone) in let! x9 := (Ok ONone) in let! x10 := (Ok ONone) in mk_timeseries x6 x7 x8 x9 x10) in Ok (VTS t)) in let! x11 := (let! t := (let! x15 := (let! m := (let! x12 := (Ok (OStr ($"bar"))) in let! x13 := (Ok ONone) in let! x14 := (Ok ONone) in mk_metric x12 x13 x14) in Ok (VMetric m)) in let! x16 := (Ok (OStr ($"sum"))) in let! x17 := (Ok ONone) in let! x18 := (Ok ONone) in let! x19 := (Ok ONone) in mk_timeseries x15 x16 x17 x18 x19) in Ok (VTS t)) in let! x20 := (Ok (OStr ($"multiply"))) in let! x21 := (Ok ONone) in let! x22 := (Ok ONone) in let! x23 := (Ok ONone) in Ok (VFormula x20 (Some KList) [x2; x11] x21 x22 x23)) in let! x24 := (let! x25 := (Ok (OFloat (FFin false 1000%N (0)))) in Ok (VObj x25)) in let! x26 := (Ok (OStr ($"divide"))) in let! x27 := (Ok ONone) in let! x28 := (Ok ONone) in let! x29 := (Ok ONone) in Ok (VFormula x26 (Some KList) [x1; x24] x27 x28 x29)) = true.
Proof. vm_compute. reflexivity. Qed.

(* term_tests[3], line 735: test terms with one filter *)
Example term_tests_3 : parses_to ($"(sum(foo) / sum(bar)){tag:""tag_value""}")
  (let! x1 := (let! t := (let! x5 := (let! m := (let! x2 := (Ok (OStr ($"foo"))) in let! x3 := (Ok ONone) in let! x4 := (Ok ONone) in mk_metric x2 x3 x4) in Ok (VMetric m)) in let! x6 := (Ok (OStr ($"sum"))) in let! x7 := (Ok ONone) in let! x8 := (Ok ONone) in let! x9 := (Ok ONone) in mk_timeseries x5 x6 x7 x8 x9) in Ok (VTS t)) in let! x10 := (let! t := (let! x14 := (let! m := (let! x11 := (Ok (OStr ($"bar"))) in let! x12 := (Ok ONone) in let! x13 := (Ok ONone) in mk_metric x11 x12 x13) in Ok (VMetric m)) in let! x15 := (Ok (OStr ($"sum"))) in let! x16 := (Ok ONone) in let! x17 := (Ok ONone) in let! x18 := (Ok ONone) in mk_timeseries x14 x15 x16 x17 x18) in Ok (VTS t)) in let! x19 := (Ok (OStr ($"divide"))) in let! x20 := (Ok ONone) in let! x21 := (let! x22 := (let! x25 := (let! x23 := (Ok (OStr ($"tag"))) in let! x24 := (Ok ONone) in mk_column x23 x24) in let! x26 := (Ok (OOp EQ)) in let! x27 := (Ok (OStr ($"tag_value"))) in mk_condition x25 x26 x27) in Ok (OList [x22])) in let! x28 := (Ok ONone) in Ok (VFormula x19 (Some KList) [x1; x10] x20 x21 x28)) = true.
Proof. vm_compute. reflexivity. Qed.

(* term_tests[4], line 753: test terms with two filters *)
Example term_tests_4 : parses_to ($"sum(foo{tag:""tag_value""}) / sum(bar{tag:""tag_value""})")
  (let! x1 := (let! t := (let! x11 := (let! m := (let! x2 := (Ok (OStr ($"foo"))) in let! x3 := (Ok ONone) in let! x4 := (Ok ONone) in mk_metric x2 x3 x4) in Ok (VMetric m)) in let! x12 := (Ok (OStr ($"sum"))) in let! x13 := (Ok ONone) in let! x14 := (let! x5 := (let! x8 := (let! x6 := (Ok (OStr ($"tag"))) in let! x7 := (Ok ONone) in mk_column x6 x7) in let! x9 := (Ok (OOp EQ)) in let! x10 := (Ok (OStr ($"tag_value"))) in mk_condition x8 x9 x10) in Ok (OList [x5])) in let! x15 := (Ok ONone) in mk_timeseries x11 x12 x13 x14 x15) in Ok (VTS t)) in let! x16 := (let! t := (let! x26 := (let! m := (let! x17 := (Ok (OStr ($"bar"))) in let! x18 := (Ok ONone) in let! x19 := (Ok ONone) in mk_metric x17 x18 x19) in Ok (VMetric m)) in let! x27 := (Ok (OStr ($"sum"))) in let! x28 := (Ok ONone) in let! x29 := (let! x20 := (let! x23 := (let! x21 := (Ok (OStr ($"tag"))) in let! x22 := (Ok ONone) in mk_column x21 x22) in let! x24 := (Ok (OOp EQ)) in let! x25 := (Ok (OStr ($"tag_value"))) in mk_condition x23 x24 x25) in Ok (OList [x20])) in let! x30 := (Ok ONone) in mk_timeseries x26 x27 x28 x29 x30) in Ok (VTS t)) in let! x31 := (Ok (OStr ($"divide"))) in let! x32 := (Ok ONone) in let! x33 := (Ok ONone) in let! x34 := (Ok ONone) in Ok (VFormula x31 (Some KList) [x1; x16] x32 x33 x34)) = true.
Proof. vm_compute. reflexivity. Qed.

(* term_tests[5], line 772: test terms with groupby 1 *)
Example term_tests_5 : parses_to ($"(sum(foo) / sum(bar)){tag:""tag_value""} by transaction")
  (let! x1 := (let! t := (let! x5 := (let! m := (let! x2 := (Ok (OStr ($"foo"))) in let! x3 := (Ok ONone) in let! x4 := (Ok ONone) in mk_metric x2 x3 x4) in Ok (VMetric m)) in let! x6 := (Ok (OStr ($"sum"))) in let! x7 := (Ok ONone) in let! x8 := (Ok ONone) in let! x9 := (Ok ONone) in mk_timeseries x5 x6 x7 x8 x9) in Ok (VTS t)) in let! x10 := (let! t := (let! x14 := (let! m := (let! x11 := (Ok (OStr ($"bar"))) in let! x12 := (Ok ONone) in let! x13 := (Ok ONone) in mk_metric x11 x12 x13) in Ok (VMetric m)) in let! x15 := (Ok (OStr ($"sum"))) in let! x16 := (Ok ONone) in let! x17 := (Ok ONone) in let! x18 := (Ok ONone) in mk_timeseries x14 x15 x16 x17 x18) in Ok (VTS t)) in let! x19 := (Ok (OStr ($"divide"))) in let! x20 := (Ok ONone) in let! x21 := (let! x22 := (let! x25 := (let! x23 := (Ok (OStr ($"tag"))) in let! x24 := (Ok ONone) in mk_column x23 x24) in let! x26 := (Ok (OOp EQ)) in let! x27 := (Ok (OStr ($"tag_value"))) in mk_condition x25 x26 x27) in Ok (OList [x22])) in let! x28 := (let! x29 := (let! x30 := (Ok (OStr ($"transaction"))) in let! x31 := (Ok ONone) in mk_column x30 x31) in Ok (OList [x29])) in Ok (VFormula x19 (Some KList) [x1; x10] x20 x21 x28)) = true.
Proof. vm_compute. reflexivity. Qed.

(* term_tests[6], line 791: test terms with groupby 2 *)
Example term_tests_6 : parses_to ($"(sum(foo) by transaction / sum(bar) by transaction)")
  (let! x1 := (let! t := (let! x8 := (let! m := (let! x2 := (Ok (OStr ($"foo"))) in let! x3 := (Ok ONone) in let! x4 := (Ok ONone) in mk_metric x2 x3 x4) in Ok (VMetric m)) in let! x9 := (Ok (OStr ($"sum"))) in let! x10 := (Ok ONone) in let! x11 := (Ok ONone) in let! x12 := (let! x5 := (let! x6 := (Ok (OStr ($"transaction"))) in let! x7 := (Ok ONone) in mk_column x6 x7) in Ok (OList [x5])) in mk_timeseries x8 x9 x10 x11 x12) in Ok (VTS t)) in let! x13 := (let! t := (let! x20 := (let! m := (let! x14 := (Ok (OStr ($"bar"))) in let! x15 := (Ok ONone) in let! x16 := (Ok ONone) in mk_metric x14 x15 x16) in Ok (VMetric m)) in let! x21 := (Ok (OStr ($"sum"))) in let! x22 := (Ok ONone) in let! x23 := (Ok ONone) in let! x24 := (let! x17 := (let! x18 := (Ok (OStr ($"transaction"))) in let! x19 := (Ok ONone) in mk_column x18 x19) in Ok (OList [x17])) in mk_timeseries x20 x21 x22 x23 x24) in Ok (VTS t)) in let! x25 := (Ok (OStr ($"divide"))) in let! x26 := (Ok ONone) in let! x27 := (Ok ONone) in let! x28 := (Ok ONone) in Ok (VFormula x25 (Some KList) [x1; x13] x26 x27 x28)) = true.
Proof. vm_compute. reflexivity. Qed.

(* term_tests[7], line 810: test terms with groupby 3 *)
Example term_tests_7 : parses_to ($"(sum(foo) by transaction / sum(bar) by transaction){tag:""tag_value""}")
  (let! x1 := (let! t := (let! x8 := (let! m := (let! x2 := (Ok (OStr ($"foo"))) in let! x3 := (Ok ONone) in let! x4 := (Ok ONone) in mk_metric x2 x3 x4) in Ok (VMetric m)) in let! x9 := (Ok (OStr ($"sum"))) in let! x10 := (Ok ONone) in let! x11 := (Ok ONone) in let! x12 := (let! x5 := (let! x6 := (Ok (OStr ($"transaction"))) in let! x7 := (Ok ONone) in mk_column x6 x7) in Ok (OList [x5])) in mk_timeseries x8 x9 x10 x11 x12) in Ok (VTS t)) in let! x13 := (let! t := (let! x20 := (let! m := (let! x14 := (Ok (OStr ($"bar"))) in let! x15 := (Ok ONone) in let! x16 := (Ok ONone) in mk_metric x14 x15 x16) in Ok (VMetric m)) in let! x21 := (Ok (OStr ($"sum"))) in let! x22 := (Ok ONone) in let! x23 := (Ok ONone) in let! x24 := (let! x17 := (let! x18 := (Ok (OStr ($"transaction"))) in let! x19 := (Ok ONone) in mk_column x18 x19) in Ok (OList [x17])) in mk_timeseries x20 x21 x22 x23 x24) in Ok (VTS t)) in let! x25 := (Ok (OStr ($"divide"))) in let! x26 := (Ok ONone) in let! x27 := (let! x28 := (let! x31 := (let! x29 := (Ok (OStr ($"tag"))) in let! x30 := (Ok ONone) in mk_column x29 x30) in let! x32 := (Ok (OOp EQ)) in let! x33 := (Ok (OStr ($"tag_value"))) in mk_condition x31 x32 x33) in Ok (OList [x28])) in let! x34 := (Ok ONone) in Ok (VFormula x25 (Some KList) [x1; x13] x26 x27 x34)) = true.
Proof. vm_compute. reflexivity. Qed.

(* term_tests[8], line 830: test terms with groupby 4 *)
Example term_tests_8 : parses_to ($"(sum(foo{tag:""tag_value""}) by transaction) / (sum(bar{tag:""tag_value""}) by transaction)")
  (let! x1 := (let! t := (let! x14 := (let! m := (let! x2 := (Ok (OStr ($"foo"))) in let! x3 := (Ok ONone) in let! x4 := (Ok ONone) in mk_metric x2 x3 x4) in Ok (VMetric m)) in let! x15 := (Ok (OStr ($"sum"))) in let! x16 := (Ok ONone) in let! x17 := (let! x5 := (let! x8 := (let! x6 := (Ok (OStr ($"tag"))) in let! x7 := (Ok ONone) in mk_column x6 x7) in let! x9 := (Ok (OOp EQ)) in let! x10 := (Ok (OStr ($"tag_value"))) in mk_condition x8 x9 x10) in Ok (OList [x5])) in let! x18 := (let! x11 := (let! x12 := (Ok (OStr ($"transaction"))) in let! x13 := (Ok ONone) in mk_column x12 x13) in Ok (OList [x11])) in mk_timeseries x14 x15 x16 x17 x18) in Ok (VTS t)) in let! x19 := (let! t := (let! x32 := (let! m := (let! x20 := (Ok (OStr ($"bar"))) in let! x21 := (Ok ONone) in let! x22 := (Ok ONone) in mk_metric x20 x21 x22) in Ok (VMetric m)) in let! x33 := (Ok (OStr ($"sum"))) in let! x34 := (Ok ONone) in let! x35 := (let! x23 := (let! x26 := (let! x24 := (Ok (OStr ($"tag"))) in let! x25 := (Ok ONone) in mk_column x24 x25) in let! x27 := (Ok (OOp EQ)) in let! x28 := (Ok (OStr ($"tag_value"))) in mk_condition x26 x27 x28) in Ok (OList [x23])) in let! x36 := (let! x29 := (let! x30 := (Ok (OStr ($"transaction"))) in let! x31 := (Ok ONone) in mk_column x30 x31) in Ok (OList [x29])) in mk_timeseries x32 x33 x34 x35 x36) in Ok (VTS t)) in let! x37 := (Ok (OStr ($"divide"))) in let! x38 := (Ok ONone) in let! x39 := (Ok ONone) in let! x40 := (Ok ONone) in Ok (VFormula x37 (Some KList) [x1; x19] x38 x39 x40)) = true.
Proof. vm_compute. reflexivity. Qed.

(* term_tests[9], line 851: test terms with groupby 5 *)
Example term_tests_9 : parses_to ($"(sum(foo) / sum(bar)){tag:""tag_value""} by transaction")
  (let! x1 := (let! t := (let! x5 := (let! m := (let! x2 := (Ok (OStr ($"foo"))) in let! x3 := (Ok ONone) in let! x4 := (Ok ONone) in mk_metric x2 x3 x4) in Ok (VMetric m)) in let! x6 := (Ok (OStr ($"sum"))) in let! x7 := (Ok ONone) in let! x8 := (Ok ONone) in let! x9 := (Ok ONone) in mk_timeseries x5 x6 x7 x8 x9) in Ok (VTS t)) in let! x10 := (let! t := (let! x14 := (let! m := (let! x11 := (Ok (OStr ($"bar"))) in let! x12 := (Ok ONone) in let! x13 := (Ok ONone) in mk_metric x11 x12 x13) in Ok (VMetric m)) in let! x15 := (Ok (OStr ($"sum"))) in let! x16 := (Ok ONone) in let! x17 := (Ok ONone) in let! x18 := (Ok ONone) in mk_timeseries x14 x15 x16 x17 x18) in Ok (VTS t)) in let! x19 := (Ok (OStr ($"divide"))) in let! x20 := (Ok ONone) in let! x21 := (let! x22 := (let! x25 := (let! x23 := (Ok (OStr ($"tag"))) in let! x24 := (Ok ONone) in mk_column x23 x24) in let! x26 := (Ok (OOp EQ)) in let! x27 := (Ok (OStr ($"tag_value"))) in mk_condition x25 x26 x27) in Ok (OList [x22])) in let! x28 := (let! x29 := (let! x30 := (Ok (OStr ($"transaction"))) in let! x31 := (Ok ONone) in mk_column x30 x31) in Ok (OList [x29])) in Ok (VFormula x19 (Some KList) [x1; x10] x20 x21 x28)) = true.
Proof. vm_compute. reflexivity. Qed.

(* term_tests[10], line 870: test complex nested terms *)
Example term_tests_10 : parses_to ($"((sum(foo{tag:""tag_value""}){tag2:""tag_value2""} / sum(bar)){tag3:""tag_value3""} + sum(pop)) by transaction")
  (let! x1 := (let! x2 := (let! t := (let! x18 := (let! m := (let! x3 := (Ok (OStr ($"foo"))) in let! x4 := (Ok ONone) in let! x5 := (Ok ONone) in mk_metric x3 x4 x5) in Ok (VMetric m)) in let! x19 := (Ok (OStr ($"sum"))) in let! x20 := (Ok ONone) in let! x21 := (let! x6 := (let! x9 := (let! x7 := (Ok (OStr ($"tag2"))) in let! x8 := (Ok ONone) in mk_column x7 x8) in let! x10 := (Ok (OOp EQ)) in let! x11 := (Ok (OStr ($"tag_value2"))) in mk_condition x9 x10 x11) in let! x12 := (let! x15 := (let! x13 := (Ok (OStr ($"tag"))) in let! x14 := (Ok ONone) in mk_column x13 x14) in let! x16 := (Ok (OOp EQ)) in let! x17 := (Ok (OStr ($"tag_value"))) in mk_condition x15 x16 x17) in Ok (OList [x6; x12])) in let! x22 := (Ok ONone) in mk_timeseries x18 x19 x20 x21 x22) in Ok (VTS t)) in let! x23 := (let! t := (let! x27 := (let! m := (let! x24 := (Ok (OStr ($"bar"))) in let! x25 := (Ok ONone) in let! x26 := (Ok ONone) in mk_metric x24 x25 x26) in Ok (VMetric m)) in let! x28 := (Ok (OStr ($"sum"))) in let! x29 := (Ok ONone) in let! x30 := (Ok ONone) in let! x31 := (Ok ONone) in mk_timeseries x27 x28 x29 x30 x31) in Ok (VTS t)) in let! x32 := (Ok (OStr ($"divide"))) in let! x33 := (Ok ONone) in let! x34 := (let! x35 := (let! x38 := (let! x36 := (Ok (OStr ($"tag3"))) in let! x37 := (Ok ONone) in mk_column x36 x37) in let! x39 := (Ok (OOp EQ)) in let! x40 := (Ok (OStr ($"tag_value3"))) in mk_condition x38 x39 x40) in Ok (OList [x35])) in let! x41 := (Ok ONone) in Ok (VFormula x32 (Some KList) [x2; x23] x33 x34 x41)) in let! x42 := (let! t := (let! x46 := (let! m := (let! x43 := (Ok (OStr ($"pop"))) in let! x44 := (Ok ONone) in let! x45 := (Ok ONone) in mk_metric x43 x44 x45) in Ok (VMetric m)) in let! x47 := (Ok (OStr ($"sum"))) in let! x48 := (Ok ONone) in let! x49 := (Ok ONone) in let! x50 := (Ok ONone) in mk_timeseries x46 x47 x48 x49 x50) in Ok (VTS t)) in let! x51 := (Ok (OStr ($"plus"))) in let! x52 := (Ok ONone) in let! x53 := (Ok ONone) in let! x54 := (let! x55 := (let! x56 := (Ok (OStr ($"transaction"))) in let! x57 := (Ok ONone) in mk_column x56 x57) in Ok (OList [x55])) in Ok (VFormula x51 (Some KList) [x1; x42] x52 x53 x54)) = true.
Proof. vm_compute. reflexivity. Qed.

(* term_tests[11], line 902: test expression with precedence *)
Example term_tests_11 : parses_to ($"count(c:custom/page_click@none) + max(d:custom/app_load@millisecond) / count(c:custom/page_click@none)")
  (let! x1 := (let! t := (let! x5 := (let! m := (let! x2 := (Ok ONone) in let! x3 := (Ok (OStr ($"c:custom/page_click@none"))) in let! x4 := (Ok ONone) in mk_metric x2 x3 x4) in Ok (VMetric m)) in let! x6 := (Ok (OStr ($"count"))) in let! x7 := (Ok ONone) in let! x8 := (Ok ONone) in let! x9 := (Ok ONone) in mk_timeseries x5 x6 x7 x8 x9) in Ok (VTS t)) in let! x10 := (let! x11 := (let! t := (let! x15 := (let! m := (let! x12 := (Ok ONone) in let! x13 := (Ok (OStr ($"d:custom/app_load@millisecond"))) in let! x14 := (Ok ONone) in mk_metric x12 x13 x14) in Ok (VMetric m)) in let! x16 := (Ok (OStr ($"max"))) in let! x17 := (Ok ONone) in let! x18 := (Ok ONone) in let! x19 := (Ok ONone) in mk_timeseries x15 x16 x17 x18 x19) in Ok (VTS t)) in let! x20 := (let! t := (let! x24 := (let! m := (let! x21 := (Ok ONone) in let! x22 := (Ok (OStr ($"c:custom/page_click@none"))) in let! x23 := (Ok ONone) in mk_metric x21 x22 x23) in Ok (VMetric m)) in let! x25 := (Ok (OStr ($"count"))) in let! x26 := (Ok ONone) in let! x27 := (Ok ONone) in let! x28 := (Ok ONone) in mk_timeseries x24 x25 x26 x27 x28) in Ok (VTS t)) in let! x29 := (Ok (OStr ($"divide"))) in let! x30 := (Ok ONone) in let! x31 := (Ok ONone) in let! x32 := (Ok ONone) in Ok (VFormula x29 (Some KList) [x11; x20] x30 x31 x32)) in let! x33 := (Ok (OStr ($"plus"))) in let! x34 := (Ok ONone) in let! x35 := (Ok ONone) in let! x36 := (Ok ONone) in Ok (VFormula x33 (Some KList) [x1; x10] x34 x35 x36)) = true.
Proof. vm_compute. reflexivity. Qed.

(* term_tests[12], line 927: test expression with associativity *)
Example term_tests_12 : parses_to ($"count(c:custom/page_click@none) + max(d:custom/app_load@millisecond) + count(c:custom/page_click@none)")
  (let! x1 := (let! x2 := (let! t := (let! x6 := (let! m := (let! x3 := (Ok ONone) in let! x4 := (Ok (OStr ($"c:custom/page_click@none"))) in let! x5 := (Ok ONone) in mk_metric x3 x4 x5) in Ok (VMetric m)) in let! x7 := (Ok (OStr ($"count"))) in let! x8 := (Ok ONone) in let! x9 := (Ok ONone) in let! x10 := (Ok ONone) in mk_timeseries x6 x7 x8 x9 x10) in Ok (VTS t)) in let! x11 := (let! t := (let! x15 := (let! m := (let! x12 := (Ok ONone) in let! x13 := (Ok (OStr ($"d:custom/app_load@millisecond"))) in let! x14 := (Ok ONone) in mk_metric x12 x13 x14) in Ok (VMetric m)) in let! x16 := (Ok (OStr ($"max"))) in let! x17 := (Ok ONone) in let! x18 := (Ok ONone) in let! x19 := (Ok ONone) in mk_timeseries x15 x16 x17 x18 x19) in Ok (VTS t)) in let! x20 := (Ok (OStr ($"plus"))) in let! x21 := (Ok ONone) in let! x22 := (Ok ONone) in let! x23 := (Ok ONone) in Ok (VFormula x20 (Some KList) [x2; x11] x21 x22 x23)) in let! x24 := (let! t := (let! x28 := (let! m := (let! x25 := (Ok ONone) in let! x26 := (Ok (OStr ($"c:custom/page_click@none"))) in let! x27 := (Ok ONone) in mk_metric x25 x26 x27) in Ok (VMetric m)) in let! x29 := (Ok (OStr ($"count"))) in let! x30 := (Ok ONone) in let! x31 := (Ok ONone) in let! x32 := (Ok ONone) in mk_timeseries x28 x29 x30 x31 x32) in Ok (VTS t)) in let! x33 := (Ok (OStr ($"plus"))) in let! x34 := (Ok ONone) in let! x35 := (Ok ONone) in let! x36 := (Ok ONone) in Ok (VFormula x33 (Some KList) [x1; x24] x34 x35 x36)) = true.
Proof. vm_compute. reflexivity. Qed.

(* term_tests[13], line 952: test expression with single unary on metric *)
Example term_tests_13 : parses_to ($"-count(c:custom/page_click@none)")
  (let! x1 := (let! t := (let! x5 := (let! m := (let! x2 := (Ok ONone) in let! x3 := (Ok (OStr ($"c:custom/page_click@none"))) in let! x4 := (Ok ONone) in mk_metric x2 x3 x4) in Ok (VMetric m)) in let! x6 := (Ok (OStr ($"count"))) in let! x7 := (Ok ONone) in let! x8 := (Ok ONone) in let! x9 := (Ok ONone) in mk_timeseries x5 x6 x7 x8 x9) in Ok (VTS t)) in let! x10 := (Ok (OStr ($"negate"))) in let! x11 := (Ok ONone) in let! x12 := (Ok ONone) in let! x13 := (Ok ONone) in Ok (VFormula x10 (Some KList) [x1] x11 x12 x13)) = true.
Proof. vm_compute. reflexivity. Qed.

(* term_tests[14], line 965: test expression with nested unary on metric *)
Example term_tests_14 : parses_to ($"-(-count(c:custom/page_click@none))")
  (let! x1 := (let! x2 := (let! t := (let! x6 := (let! m := (let! x3 := (Ok ONone) in let! x4 := (Ok (OStr ($"c:custom/page_click@none"))) in let! x5 := (Ok ONone) in mk_metric x3 x4 x5) in Ok (VMetric m)) in let! x7 := (Ok (OStr ($"count"))) in let! x8 := (Ok ONone) in let! x9 := (Ok ONone) in let! x10 := (Ok ONone) in mk_timeseries x6 x7 x8 x9 x10) in Ok (VTS t)) in let! x11 := (Ok (OStr ($"negate"))) in let! x12 := (Ok ONone) in let! x13 := (Ok ONone) in let! x14 := (Ok ONone) in Ok (VFormula x11 (Some KList) [x2] x12 x13 x14)) in let! x15 := (Ok (OStr ($"negate"))) in let! x16 := (Ok ONone) in let! x17 := (Ok ONone) in let! x18 := (Ok ONone) in Ok (VFormula x15 (Some KList) [x1] x16 x17 x18)) = true.
Proof. vm_compute. reflexivity. Qed.

(* term_tests[15], line 983: test expression with unary *)
Example term_tests_15 : parses_to ($"count(c:custom/page_click@none) - -1")
  (let! x1 := (let! t := (let! x5 := (let! m := (let! x2 := (Ok ONone) in let! x3 := (Ok (OStr ($"c:custom/page_click@none"))) in let! x4 := (Ok ONone) in mk_metric x2 x3 x4) in Ok (VMetric m)) in let! x6 := (Ok (OStr ($"count"))) in let! x7 := (Ok ONone) in let! x8 := (Ok ONone) in let! x9 := (Ok ONone) in mk_timeseries x5 x6 x7 x8 x9) in Ok (VTS t)) in let! x10 := (let! x11 := (Ok (OInt (-1))) in Ok (VObj x11)) in let! x12 := (Ok (OStr ($"minus"))) in let! x13 := (Ok ONone) in let! x14 := (Ok ONone) in let! x15 := (Ok ONone) in Ok (VFormula x12 (Some KList) [x1; x10] x13 x14 x15)) = true.
Proof. vm_compute. reflexivity. Qed.

(* term_tests[16], line 997: test expression with unary on parenthesis expression *)
Example term_tests_16 : parses_to ($"-(count(c:custom/page_click@none) + -1)")
  (let! x1 := (let! x2 := (let! t := (let! x6 := (let! m := (let! x3 := (Ok ONone) in let! x4 := (Ok (OStr ($"c:custom/page_click@none"))) in let! x5 := (Ok ONone) in mk_metric x3 x4 x5) in Ok (VMetric m)) in let! x7 := (Ok (OStr ($"count"))) in let! x8 := (Ok ONone) in let! x9 := (Ok ONone) in let! x10 := (Ok ONone) in mk_timeseries x6 x7 x8 x9 x10) in Ok (VTS t)) in let! x11 := (let! x12 := (Ok (OInt (-1))) in Ok (VObj x12)) in let! x13 := (Ok (OStr ($"plus"))) in let! x14 := (Ok ONone) in let! x15 := (Ok ONone) in let! x16 := (Ok ONone) in Ok (VFormula x13 (Some KList) [x2; x11] x14 x15 x16)) in let! x17 := (Ok (OStr ($"negate"))) in let! x18 := (Ok ONone) in let! x19 := (Ok ONone) in let! x20 := (Ok ONone) in Ok (VFormula x17 (Some KList) [x1] x18 x19 x20)) = true.
Proof. vm_compute. reflexivity. Qed.

(* term_tests[17], line 1016: test expression with unary on metric *)
Example term_tests_17 : parses_to ($"count(c:custom/page_click@none) + -max(d:custom/app_load@millisecond)")
  (let! x1 := (let! t := (let! x5 := (let! m := (let! x2 := (Ok ONone) in let! x3 := (Ok (OStr ($"c:custom/page_click@none"))) in let! x4 := (Ok ONone) in mk_metric x2 x3 x4) in Ok (VMetric m)) in let! x6 := (Ok (OStr ($"count"))) in let! x7 := (Ok ONone) in let! x8 := (Ok ONone) in let! x9 := (Ok ONone) in mk_timeseries x5 x6 x7 x8 x9) in Ok (VTS t)) in let! x10 := (let! x11 := (let! t := (let! x15 := (let! m := (let! x12 := (Ok ONone) in let! x13 := (Ok (OStr ($"d:custom/app_load@millisecond"))) in let! x14 := (Ok ONone) in mk_metric x12 x13 x14) in Ok (VMetric m)) in let! x16 := (Ok (OStr ($"max"))) in let! x17 := (Ok ONone) in let! x18 := (Ok ONone) in let! x19 := (Ok ONone) in mk_timeseries x15 x16 x17 x18 x19) in Ok (VTS t)) in let! x20 := (Ok (OStr ($"negate"))) in let! x21 := (Ok ONone) in let! x22 := (Ok ONone) in let! x23 := (Ok ONone) in Ok (VFormula x20 (Some KList) [x11] x21 x22 x23)) in let! x24 := (Ok (OStr ($"plus"))) in let! x25 := (Ok ONone) in let! x26 := (Ok ONone) in let! x27 := (Ok ONone) in Ok (VFormula x24 (Some KList) [x1; x10] x25 x26 x27)) = true.
Proof. vm_compute. reflexivity. Qed.

(* term_tests[18], line 1038: test expression with complex unary *)
Example term_tests_18 : parses_to ($"count(c:custom/page_click@none) + (-1 + -max(d:custom/app_load@millisecond))")
  (let! x1 := (let! t := (let! x5 := (let! m := (let! x2 := (Ok ONone) in let! x3 := (Ok (OStr ($"c:custom/page_click@none"))) in let! x4 := (Ok ONone) in mk_metric x2 x3 x4) in Ok (VMetric m)) in let! x6 := (Ok (OStr ($"count"))) in let! x7 := (Ok ONone) in let! x8 := (Ok ONone) in let! x9 := (Ok ONone) in mk_timeseries x5 x6 x7 x8 x9) in Ok (VTS t)) in let! x10 := (let! x11 := (let! x12 := (Ok (OInt (-1))) in Ok (VObj x12)) in let! x13 := (let! x14 := (let! t := (let! x18 := (let! m := (let! x15 := (Ok ONone) in let! x16 := (Ok (OStr ($"d:custom/app_load@millisecond"))) in let! x17 := (Ok ONone) in mk_metric x15 x16 x17) in Ok (VMetric m)) in let! x19 := (Ok (OStr ($"max"))) in let! x20 := (Ok ONone) in let! x21 := (Ok ONone) in let! x22 := (Ok ONone) in mk_timeseries x18 x19 x20 x21 x22) in Ok (VTS t)) in let! x23 := (Ok (OStr ($"negate"))) in let! x24 := (Ok ONone) in let! x25 := (Ok ONone) in let! x26 := (Ok ONone) in Ok (VFormula x23 (Some KList) [x14] x24 x25 x26)) in let! x27 := (Ok (OStr ($"plus"))) in let! x28 := (Ok ONone) in let! x29 := (Ok ONone) in let! x30 := (Ok ONone) in Ok (VFormula x27 (Some KList) [x11; x13] x28 x29 x30)) in let! x31 := (Ok (OStr ($"plus"))) in let! x32 := (Ok ONone) in let! x33 := (Ok ONone) in let! x34 := (Ok ONone) in Ok (VFormula x31 (Some KList) [x1; x10] x32 x33 x34)) = true.
Proof. vm_compute. reflexivity. Qed.

(* arbitrary_function_tests[0], line 1076: test simple arbitrary function *)
Example arbitrary_function_tests_0 : parses_to ($"simple_function(sum(transaction.duration))")
  (let! x1 := (let! t := (let! x5 := (let! m := (let! x2 := (Ok (OStr ($"transaction.duration"))) in let! x3 := (Ok ONone) in let! x4 := (Ok ONone) in mk_metric x2 x3 x4) in Ok (VMetric m)) in let! x6 := (Ok (OStr ($"sum"))) in let! x7 := (Ok ONone) in let! x8 := (Ok ONone) in let! x9 := (Ok ONone) in mk_timeseries x5 x6 x7 x8 x9) in Ok (VTS t)) in let! x10 := (Ok (OStr ($"simple_function"))) in let! x11 := (Ok ONone) in let! x12 := (Ok ONone) in let! x13 := (Ok ONone) in Ok (VFormula x10 (Some KList) [x1] x11 x12 x13)) = true.
Proof. vm_compute. reflexivity. Qed.

(* arbitrary_function_tests[1], line 1089: test arbitrary function with string parameter *)
Example arbitrary_function_tests_1 : parses_to ($"another_function(""test"", 500)")
  (let! x1 := (let! x2 := (Ok (OStr ($"test"))) in Ok (VObj x2)) in let! x3 := (let! x4 := (Ok (OInt (500))) in Ok (VObj x4)) in let! x5 := (Ok (OStr ($"another_function"))) in let! x6 := (Ok ONone) in let! x7 := (Ok ONone) in let! x8 := (Ok ONone) in Ok (VFormula x5 (Some KList) [x1; x3] x6 x7 x8)) = true.
Proof. vm_compute. reflexivity. Qed.

(* arbitrary_function_tests[2], line 1100: test arbitrary function with inner aggregate *)
Example arbitrary_function_tests_2 : parses_to ($"sum(count(transaction.duration))")
  (let! x1 := (let! t := (let! x5 := (let! m := (let! x2 := (Ok (OStr ($"transaction.duration"))) in let! x3 := (Ok ONone) in let! x4 := (Ok ONone) in mk_metric x2 x3 x4) in Ok (VMetric m)) in let! x6 := (Ok (OStr ($"count"))) in let! x7 := (Ok ONone) in let! x8 := (Ok ONone) in let! x9 := (Ok ONone) in mk_timeseries x5 x6 x7 x8 x9) in Ok (VTS t)) in let! x10 := (Ok (OStr ($"sum"))) in let! x11 := (Ok ONone) in let! x12 := (Ok ONone) in let! x13 := (Ok ONone) in Ok (VFormula x10 (Some KList) [x1] x11 x12 x13)) = true.
Proof. vm_compute. reflexivity. Qed.

(* arbitrary_function_tests[3], line 1113: test arbitrary function with filters and groupby *)
Example arbitrary_function_tests_3 : parses_to ($"apdex(sum(transaction.duration), 500){tag:""tag_value""} by transaction")
  (let! x1 := (let! t := (let! x5 := (let! m := (let! x2 := (Ok (OStr ($"transaction.duration"))) in let! x3 := (Ok ONone) in let! x4 := (Ok ONone) in mk_metric x2 x3 x4) in Ok (VMetric m)) in let! x6 := (Ok (OStr ($"sum"))) in let! x7 := (Ok ONone) in let! x8 := (Ok ONone) in let! x9 := (Ok ONone) in mk_timeseries x5 x6 x7 x8 x9) in Ok (VTS t)) in let! x10 := (let! x11 := (Ok (OInt (500))) in Ok (VObj x11)) in let! x12 := (Ok (OStr ($"apdex"))) in let! x13 := (Ok ONone) in let! x14 := (let! x15 := (let! x18 := (let! x16 := (Ok (OStr ($"tag"))) in let! x17 := (Ok ONone) in mk_column x16 x17) in let! x19 := (Ok (OOp EQ)) in let! x20 := (Ok (OStr ($"tag_value"))) in mk_condition x18 x19 x20) in Ok (OList [x15])) in let! x21 := (let! x22 := (let! x23 := (Ok (OStr ($"transaction"))) in let! x24 := (Ok ONone) in mk_column x23 x24) in Ok (OList [x22])) in Ok (VFormula x12 (Some KList) [x1; x10] x13 x14 x21)) = true.
Proof. vm_compute. reflexivity. Qed.

(* arbitrary_function_tests[4], line 1129: test arbitrary function with curried aggregate *)
Example arbitrary_function_tests_4 : parses_to ($"apdex(quantiles(0.5)(transaction.duration), 500)")
  (let! x1 := (let! t := (let! x6 := (let! m := (let! x2 := (Ok (OStr ($"transaction.duration"))) in let! x3 := (Ok ONone) in let! x4 := (Ok ONone) in mk_metric x2 x3 x4) in Ok (VMetric m)) in let! x7 := (Ok (OStr ($"quantiles"))) in let! x8 := (let! x5 := (Ok (OFloat (FFin false 1%N (-1)))) in Ok (OList [x5])) in let! x9 := (Ok ONone) in let! x10 := (Ok ONone) in mk_timeseries x6 x7 x8 x9 x10) in Ok (VTS t)) in let! x11 := (let! x12 := (Ok (OInt (500))) in Ok (VObj x12)) in let! x13 := (Ok (OStr ($"apdex"))) in let! x14 := (Ok ONone) in let! x15 := (Ok ONone) in let! x16 := (Ok ONone) in Ok (VFormula x13 (Some KList) [x1; x11] x14 x15 x16)) = true.
Proof. vm_compute. reflexivity. Qed.

(* arbitrary_function_tests[5], line 1144: test arbitrary function within arbitrary function *)
Example arbitrary_function_tests_5 : parses_to ($"apdex(failure_rate(sum(transaction.duration)), 500)")
  (let! x1 := (let! x2 := (let! t := (let! x6 := (let! m := (let! x3 := (Ok (OStr ($"transaction.duration"))) in let! x4 := (Ok ONone) in let! x5 := (Ok ONone) in mk_metric x3 x4 x5) in Ok (VMetric m)) in let! x7 := (Ok (OStr ($"sum"))) in let! x8 := (Ok ONone) in let! x9 := (Ok ONone) in let! x10 := (Ok ONone) in mk_timeseries x6 x7 x8 x9 x10) in Ok (VTS t)) in let! x11 := (Ok (OStr ($"failure_rate"))) in let! x12 := (Ok ONone) in let! x13 := (Ok ONone) in let! x14 := (Ok ONone) in Ok (VFormula x11 (Some KList) [x2] x12 x13 x14)) in let! x15 := (let! x16 := (Ok (OInt (500))) in Ok (VObj x16)) in let! x17 := (Ok (OStr ($"apdex"))) in let! x18 := (Ok ONone) in let! x19 := (Ok ONone) in let! x20 := (Ok ONone) in Ok (VFormula x17 (Some KList) [x1; x15] x18 x19 x20)) = true.
Proof. vm_compute. reflexivity. Qed.

(* arbitrary_function_tests[6], line 1163: test arbitrary function with filters and groupby *)
Example arbitrary_function_tests_6 : parses_to ($"topK(sum(transaction.duration), 500, 4.2){tag:""tag_value""} by transaction")
  (let! x1 := (let! t := (let! x5 := (let! m := (let! x2 := (Ok (OStr ($"transaction.duration"))) in let! x3 := (Ok ONone) in let! x4 := (Ok ONone) in mk_metric x2 x3 x4) in Ok (VMetric m)) in let! x6 := (Ok (OStr ($"sum"))) in let! x7 := (Ok ONone) in let! x8 := (Ok ONone) in let! x9 := (Ok ONone) in mk_timeseries x5 x6 x7 x8 x9) in Ok (VTS t)) in let! x10 := (let! x11 := (Ok (OInt (500))) in Ok (VObj x11)) in let! x12 := (let! x13 := (Ok (OFloat (FFin false 4728779608739021%N (-50)))) in Ok (VObj x13)) in let! x14 := (Ok (OStr ($"topK"))) in let! x15 := (Ok ONone) in let! x16 := (let! x17 := (let! x20 := (let! x18 := (Ok (OStr ($"tag"))) in let! x19 := (Ok ONone) in mk_column x18 x19) in let! x21 := (Ok (OOp EQ)) in let! x22 := (Ok (OStr ($"tag_value"))) in mk_condition x20 x21 x22) in Ok (OList [x17])) in let! x23 := (let! x24 := (let! x25 := (Ok (OStr ($"transaction"))) in let! x26 := (Ok ONone) in mk_column x25 x26) in Ok (OList [x24])) in Ok (VFormula x14 (Some KList) [x1; x10; x12] x15 x16 x23)) = true.
Proof. vm_compute. reflexivity. Qed.

(* arbitrary_function_tests[7], line 1180: test arbitrary function with inner terms *)
Example arbitrary_function_tests_7 : parses_to ($"apdex(sum(foo) / sum(bar), 500){tag:""tag_value""} by transaction")
  (let! x1 := (let! x2 := (let! t := (let! x6 := (let! m := (let! x3 := (Ok (OStr ($"foo"))) in let! x4 := (Ok ONone) in let! x5 := (Ok ONone) in mk_metric x3 x4 x5) in Ok (VMetric m)) in let! x7 := (Ok (OStr ($"sum"))) in let! x8 := (Ok ONone) in let! x9 := (Ok ONone) in let! x10 := (Ok ONone) in mk_timeseries x6 x7 x8 x9 x10) in Ok (VTS t)) in let! x11 := (let! t := (let! x15 := (let! m := (let! x12 := (Ok (OStr ($"bar"))) in let! x13 := (Ok ONone) in let! x14 := (Ok ONone) in mk_metric x12 x13 x14) in Ok (VMetric m)) in let! x16 := (Ok (OStr ($"sum"))) in let! x17 := (Ok ONone) in let! x18 := (Ok ONone) in let! x19 := (Ok ONone) in mk_timeseries x15 x16 x17 x18 x19) in Ok (VTS t)) in let! x20 := (Ok (OStr ($"divide"))) in let! x21 := (Ok ONone) in let! x22 := (Ok ONone) in let! x23 := (Ok ONone) in Ok (VFormula x20 (Some KList) [x2; x11] x21 x22 x23)) in let! x24 := (let! x25 := (Ok (OInt (500))) in Ok (VObj x25)) in let! x26 := (Ok (OStr ($"apdex"))) in let! x27 := (Ok ONone) in let! x28 := (let! x29 := (let! x32 := (let! x30 := (Ok (OStr ($"tag"))) in let! x31 := (Ok ONone) in mk_column x30 x31) in let! x33 := (Ok (OOp EQ)) in let! x34 := (Ok (OStr ($"tag_value"))) in mk_condition x32 x33 x34) in Ok (OList [x29])) in let! x35 := (let! x36 := (let! x37 := (Ok (OStr ($"transaction"))) in let! x38 := (Ok ONone) in mk_column x37 x38) in Ok (OList [x36])) in Ok (VFormula x26 (Some KList) [x1; x24] x27 x28 x35)) = true.
Proof. vm_compute. reflexivity. Qed.

(* arbitrary_function_tests[8], line 1205: test arbitrary function as outer terms *)
Example arbitrary_function_tests_8 : parses_to ($"apdex(sum(transaction.duration), 500) * failure_rate(sum(transaction.duration))")
  (let! x1 := (let! x2 := (let! t := (let! x6 := (let! m := (let! x3 := (Ok (OStr ($"transaction.duration"))) in let! x4 := (Ok ONone) in let! x5 := (Ok ONone) in mk_metric x3 x4 x5) in Ok (VMetric m)) in let! x7 := (Ok (OStr ($"sum"))) in let! x8 := (Ok ONone) in let! x9 := (Ok ONone) in let! x10 := (Ok ONone) in mk_timeseries x6 x7 x8 x9 x10) in Ok (VTS t)) in let! x11 := (let! x12 := (Ok (OInt (500))) in Ok (VObj x12)) in let! x13 := (Ok (OStr ($"apdex"))) in let! x14 := (Ok ONone) in let! x15 := (Ok ONone) in let! x16 := (Ok ONone) in Ok (VFormula x13 (Some KList) [x2; x11] x14 x15 x16)) in let! x17 := (let! x18 := (let! t := (let! x22 := (let! m := (let! x19 := (Ok (OStr ($"transaction.duration"))) in let! x20 := (Ok ONone) in let! x21 := (Ok ONone) in mk_metric x19 x20 x21) in Ok (VMetric m)) in let! x23 := (Ok (OStr ($"sum"))) in let! x24 := (Ok ONone) in let! x25 := (Ok ONone) in let! x26 := (Ok ONone) in mk_timeseries x22 x23 x24 x25 x26) in Ok (VTS t)) in let! x27 := (Ok (OStr ($"failure_rate"))) in let! x28 := (Ok ONone) in let! x29 := (Ok ONone) in let! x30 := (Ok ONone) in Ok (VFormula x27 (Some KList) [x18] x28 x29 x30)) in let! x31 := (Ok (OStr ($"multiply"))) in let! x32 := (Ok ONone) in let! x33 := (Ok ONone) in let! x34 := (Ok ONone) in Ok (VFormula x31 (Some KList) [x1; x17] x32 x33 x34)) = true.
Proof. vm_compute. reflexivity. Qed.

(* arbitrary_function_tests[9], line 1233: test arbitrary function with inner timeseries *)
Example arbitrary_function_tests_9 : parses_to ($"rate(count(g:custom/zone.domains@none))")
  (let! x1 := (let! t := (let! x5 := (let! m := (let! x2 := (Ok ONone) in let! x3 := (Ok (OStr ($"g:custom/zone.domains@none"))) in let! x4 := (Ok ONone) in mk_metric x2 x3 x4) in Ok (VMetric m)) in let! x6 := (Ok (OStr ($"count"))) in let! x7 := (Ok ONone) in let! x8 := (Ok ONone) in let! x9 := (Ok ONone) in mk_timeseries x5 x6 x7 x8 x9) in Ok (VTS t)) in let! x10 := (Ok (OStr ($"rate"))) in let! x11 := (Ok ONone) in let! x12 := (Ok ONone) in let! x13 := (Ok ONone) in Ok (VFormula x10 (Some KList) [x1] x11 x12 x13)) = true.
Proof. vm_compute. reflexivity. Qed.

(* arbitrary_function_tests[10], line 1246: test arbitrary function with inner timeseries with params *)
Example arbitrary_function_tests_10 : parses_to ($"rate(count(g:custom/zone.domains@none){hello:world})")
  (let! x1 := (let! t := (let! x11 := (let! m := (let! x2 := (Ok ONone) in let! x3 := (Ok (OStr ($"g:custom/zone.domains@none"))) in let! x4 := (Ok ONone) in mk_metric x2 x3 x4) in Ok (VMetric m)) in let! x12 := (Ok (OStr ($"count"))) in let! x13 := (Ok ONone) in let! x14 := (let! x5 := (let! x8 := (let! x6 := (Ok (OStr ($"hello"))) in let! x7 := (Ok ONone) in mk_column x6 x7) in let! x9 := (Ok (OOp EQ)) in let! x10 := (Ok (OStr ($"world"))) in mk_condition x8 x9 x10) in Ok (OList [x5])) in let! x15 := (Ok ONone) in mk_timeseries x11 x12 x13 x14 x15) in Ok (VTS t)) in let! x16 := (Ok (OStr ($"rate"))) in let! x17 := (Ok ONone) in let! x18 := (Ok ONone) in let! x19 := (Ok ONone) in Ok (VFormula x16 (Some KList) [x1] x17 x18 x19)) = true.
Proof. vm_compute. reflexivity. Qed.

(* arbitrary_function_tests[11], line 1260: test arbitrary function with inner timeseries and params *)
Example arbitrary_function_tests_11 : parses_to ($"rate(count(g:custom/zone.domains@none), 10, ""hello"")")
  (let! x1 := (let! t := (let! x5 := (let! m := (let! x2 := (Ok ONone) in let! x3 := (Ok (OStr ($"g:custom/zone.domains@none"))) in let! x4 := (Ok ONone) in mk_metric x2 x3 x4) in Ok (VMetric m)) in let! x6 := (Ok (OStr ($"count"))) in let! x7 := (Ok ONone) in let! x8 := (Ok ONone) in let! x9 := (Ok ONone) in mk_timeseries x5 x6 x7 x8 x9) in Ok (VTS t)) in let! x10 := (let! x11 := (Ok (OInt (10))) in Ok (VObj x11)) in let! x12 := (let! x13 := (Ok (OStr ($"hello"))) in Ok (VObj x13)) in let! x14 := (Ok (OStr ($"rate"))) in let! x15 := (Ok ONone) in let! x16 := (Ok ONone) in let! x17 := (Ok ONone) in Ok (VFormula x14 (Some KList) [x1; x10; x12] x15 x16 x17)) = true.
Proof. vm_compute. reflexivity. Qed.

(* curried_arbitrary_function_tests[0], line 1287: test curried arbitrary function with string param *)
Example curried_arbitrary_function_tests_0 : parses_to ($"topK(10)(""test.duration"")")
  (let! x1 := (let! x2 := (Ok (OStr ($"test.duration"))) in Ok (VObj x2)) in let! x3 := (Ok (OStr ($"topK"))) in let! x4 := (let! x5 := (Ok (OInt (10))) in Ok (OList [x5])) in let! x6 := (Ok ONone) in let! x7 := (Ok ONone) in Ok (VFormula x3 (Some KList) [x1] x4 x6 x7)) = true.
Proof. vm_compute. reflexivity. Qed.

(* curried_arbitrary_function_tests[1], line 1296: test curried arbitrary function with inner aggregate *)
Example curried_arbitrary_function_tests_1 : parses_to ($"topK(10)(sum(transaction.duration))")
  (let! x1 := (let! t := (let! x5 := (let! m := (let! x2 := (Ok (OStr ($"transaction.duration"))) in let! x3 := (Ok ONone) in let! x4 := (Ok ONone) in mk_metric x2 x3 x4) in Ok (VMetric m)) in let! x6 := (Ok (OStr ($"sum"))) in let! x7 := (Ok ONone) in let! x8 := (Ok ONone) in let! x9 := (Ok ONone) in mk_timeseries x5 x6 x7 x8 x9) in Ok (VTS t)) in let! x10 := (Ok (OStr ($"topK"))) in let! x11 := (let! x12 := (Ok (OInt (10))) in Ok (OList [x12])) in let! x13 := (Ok ONone) in let! x14 := (Ok ONone) in Ok (VFormula x10 (Some KList) [x1] x11 x13 x14)) = true.
Proof. vm_compute. reflexivity. Qed.

(* curried_arbitrary_function_tests[2], line 1310: test curried arbitrary function with inner aggregate and params *)
Example curried_arbitrary_function_tests_2 : parses_to ($"topK(10)(sum(transaction.duration), 500, ""test"")")
  (let! x1 := (let! t := (let! x5 := (let! m := (let! x2 := (Ok (OStr ($"transaction.duration"))) in let! x3 := (Ok ONone) in let! x4 := (Ok ONone) in mk_metric x2 x3 x4) in Ok (VMetric m)) in let! x6 := (Ok (OStr ($"sum"))) in let! x7 := (Ok ONone) in let! x8 := (Ok ONone) in let! x9 := (Ok ONone) in mk_timeseries x5 x6 x7 x8 x9) in Ok (VTS t)) in let! x10 := (let! x11 := (Ok (OInt (500))) in Ok (VObj x11)) in let! x12 := (let! x13 := (Ok (OStr ($"test"))) in Ok (VObj x13)) in let! x14 := (Ok (OStr ($"topK"))) in let! x15 := (let! x16 := (Ok (OInt (10))) in Ok (OList [x16])) in let! x17 := (Ok ONone) in let! x18 := (Ok ONone) in Ok (VFormula x14 (Some KList) [x1; x10; x12] x15 x17 x18)) = true.
Proof. vm_compute. reflexivity. Qed.

(* curried_arbitrary_function_tests[3], line 1326: test curried arbitrary function with multiple inner aggregate params *)
Example curried_arbitrary_function_tests_3 : parses_to ($"topK(10)(sum(transaction.duration), count(transaction.duration))")
  (let! x1 := (let! t := (let! x5 := (let! m := (let! x2 := (Ok (OStr ($"transaction.duration"))) in let! x3 := (Ok ONone) in let! x4 := (Ok ONone) in mk_metric x2 x3 x4) in Ok (VMetric m)) in let! x6 := (Ok (OStr ($"sum"))) in let! x7 := (Ok ONone) in let! x8 := (Ok ONone) in let! x9 := (Ok ONone) in mk_timeseries x5 x6 x7 x8 x9) in Ok (VTS t)) in let! x10 := (let! t := (let! x14 := (let! m := (let! x11 := (Ok (OStr ($"transaction.duration"))) in let! x12 := (Ok ONone) in let! x13 := (Ok ONone) in mk_metric x11 x12 x13) in Ok (VMetric m)) in let! x15 := (Ok (OStr ($"count"))) in let! x16 := (Ok ONone) in let! x17 := (Ok ONone) in let! x18 := (Ok ONone) in mk_timeseries x14 x15 x16 x17 x18) in Ok (VTS t)) in let! x19 := (Ok (OStr ($"topK"))) in let! x20 := (let! x21 := (Ok (OInt (10))) in Ok (OList [x21])) in let! x22 := (Ok ONone) in let! x23 := (Ok ONone) in Ok (VFormula x19 (Some KList) [x1; x10] x20 x22 x23)) = true.
Proof. vm_compute. reflexivity. Qed.

(* curried_arbitrary_function_tests[4], line 1344: test curried arbitrary function with inner aggregate and terms *)
Example curried_arbitrary_function_tests_4 : parses_to ($"topK(10)(sum(transaction.duration) / count(transaction.duration))")
  (let! x1 := (let! x2 := (let! t := (let! x6 := (let! m := (let! x3 := (Ok (OStr ($"transaction.duration"))) in let! x4 := (Ok ONone) in let! x5 := (Ok ONone) in mk_metric x3 x4 x5) in Ok (VMetric m)) in let! x7 := (Ok (OStr ($"sum"))) in let! x8 := (Ok ONone) in let! x9 := (Ok ONone) in let! x10 := (Ok ONone) in mk_timeseries x6 x7 x8 x9 x10) in Ok (VTS t)) in let! x11 := (let! t := (let! x15 := (let! m := (let! x12 := (Ok (OStr ($"transaction.duration"))) in let! x13 := (Ok ONone) in let! x14 := (Ok ONone) in mk_metric x12 x13 x14) in Ok (VMetric m)) in let! x16 := (Ok (OStr ($"count"))) in let! x17 := (Ok ONone) in let! x18 := (Ok ONone) in let! x19 := (Ok ONone) in mk_timeseries x15 x16 x17 x18 x19) in Ok (VTS t)) in let! x20 := (Ok (OStr ($"divide"))) in let! x21 := (Ok ONone) in let! x22 := (Ok ONone) in let! x23 := (Ok ONone) in Ok (VFormula x20 (Some KList) [x2; x11] x21 x22 x23)) in let! x24 := (Ok (OStr ($"topK"))) in let! x25 := (let! x26 := (Ok (OInt (10))) in Ok (OList [x26])) in let! x27 := (Ok ONone) in let! x28 := (Ok ONone) in Ok (VFormula x24 (Some KList) [x1] x25 x27 x28)) = true.
Proof. vm_compute. reflexivity. Qed.

(* curried_arbitrary_function_tests[5], line 1367: test complex curried arbitrary function with inner terms *)
Example curried_arbitrary_function_tests_5 : parses_to ($"topK(10)(sum(transaction.duration{bar:baz}) / count(transaction.duration{foo:foz})) by transaction")
  (let! x1 := (let! x2 := (let! t := (let! x12 := (let! m := (let! x3 := (Ok (OStr ($"transaction.duration"))) in let! x4 := (Ok ONone) in let! x5 := (Ok ONone) in mk_metric x3 x4 x5) in Ok (VMetric m)) in let! x13 := (Ok (OStr ($"sum"))) in let! x14 := (Ok ONone) in let! x15 := (let! x6 := (let! x9 := (let! x7 := (Ok (OStr ($"bar"))) in let! x8 := (Ok ONone) in mk_column x7 x8) in let! x10 := (Ok (OOp EQ)) in let! x11 := (Ok (OStr ($"baz"))) in mk_condition x9 x10 x11) in Ok (OList [x6])) in let! x16 := (Ok ONone) in mk_timeseries x12 x13 x14 x15 x16) in Ok (VTS t)) in let! x17 := (let! t := (let! x27 := (let! m := (let! x18 := (Ok (OStr ($"transaction.duration"))) in let! x19 := (Ok ONone) in let! x20 := (Ok ONone) in mk_metric x18 x19 x20) in Ok (VMetric m)) in let! x28 := (Ok (OStr ($"count"))) in let! x29 := (Ok ONone) in let! x30 := (let! x21 := (let! x24 := (let! x22 := (Ok (OStr ($"foo"))) in let! x23 := (Ok ONone) in mk_column x22 x23) in let! x25 := (Ok (OOp EQ)) in let! x26 := (Ok (OStr ($"foz"))) in mk_condition x24 x25 x26) in Ok (OList [x21])) in let! x31 := (Ok ONone) in mk_timeseries x27 x28 x29 x30 x31) in Ok (VTS t)) in let! x32 := (Ok (OStr ($"divide"))) in let! x33 := (Ok ONone) in let! x34 := (Ok ONone) in let! x35 := (Ok ONone) in Ok (VFormula x32 (Some KList) [x2; x17] x33 x34 x35)) in let! x36 := (Ok (OStr ($"topK"))) in let! x37 := (let! x38 := (Ok (OInt (10))) in Ok (OList [x38])) in let! x39 := (Ok ONone) in let! x40 := (let! x41 := (let! x42 := (Ok (OStr ($"transaction"))) in let! x43 := (Ok ONone) in mk_column x42 x43) in Ok (OList [x41])) in Ok (VFormula x36 (Some KList) [x1] x37 x39 x40)) = true.
Proof. vm_compute. reflexivity. Qed.

(* curried_arbitrary_function_tests[6], line 1393: test nested curried arbitrary function *)
Example curried_arbitrary_function_tests_6 : parses_to ($"topK(10)(topK(5)(transaction.duration){bar:baz})")
  (let! x1 := (let! t := (let! x12 := (let! m := (let! x2 := (Ok (OStr ($"transaction.duration"))) in let! x3 := (Ok ONone) in let! x4 := (Ok ONone) in mk_metric x2 x3 x4) in Ok (VMetric m)) in let! x13 := (Ok (OStr ($"topK"))) in let! x14 := (let! x5 := (Ok (OInt (5))) in Ok (OList [x5])) in let! x15 := (let! x6 := (let! x9 := (let! x7 := (Ok (OStr ($"bar"))) in let! x8 := (Ok ONone) in mk_column x7 x8) in let! x10 := (Ok (OOp EQ)) in let! x11 := (Ok (OStr ($"baz"))) in mk_condition x9 x10 x11) in Ok (OList [x6])) in let! x16 := (Ok ONone) in mk_timeseries x12 x13 x14 x15 x16) in Ok (VTS t)) in let! x17 := (Ok (OStr ($"topK"))) in let! x18 := (let! x19 := (Ok (OInt (10))) in Ok (OList [x19])) in let! x20 := (Ok ONone) in let! x21 := (Ok ONone) in Ok (VFormula x17 (Some KList) [x1] x18 x20 x21)) = true.
Proof. vm_compute. reflexivity. Qed.

(* curried_arbitrary_function_tests[7], line 1409: test curried arbitrary function with inner arbitrary function *)
Example curried_arbitrary_function_tests_7 : parses_to ($"topK(10)(apdex(sum(transaction.duration), 500){bar:baz})")
  (let! x1 := (let! x2 := (let! t := (let! x6 := (let! m := (let! x3 := (Ok (OStr ($"transaction.duration"))) in let! x4 := (Ok ONone) in let! x5 := (Ok ONone) in mk_metric x3 x4 x5) in Ok (VMetric m)) in let! x7 := (Ok (OStr ($"sum"))) in let! x8 := (Ok ONone) in let! x9 := (Ok ONone) in let! x10 := (Ok ONone) in mk_timeseries x6 x7 x8 x9 x10) in Ok (VTS t)) in let! x11 := (let! x12 := (Ok (OInt (500))) in Ok (VObj x12)) in let! x13 := (Ok (OStr ($"apdex"))) in let! x14 := (Ok ONone) in let! x15 := (let! x16 := (let! x19 := (let! x17 := (Ok (OStr ($"bar"))) in let! x18 := (Ok ONone) in mk_column x17 x18) in let! x20 := (Ok (OOp EQ)) in let! x21 := (Ok (OStr ($"baz"))) in mk_condition x19 x20 x21) in Ok (OList [x16])) in let! x22 := (Ok ONone) in Ok (VFormula x13 (Some KList) [x2; x11] x14 x15 x22)) in let! x23 := (Ok (OStr ($"topK"))) in let! x24 := (let! x25 := (Ok (OInt (10))) in Ok (OList [x25])) in let! x26 := (Ok ONone) in let! x27 := (Ok ONone) in Ok (VFormula x23 (Some KList) [x1] x24 x26 x27)) = true.
Proof. vm_compute. reflexivity. Qed.
