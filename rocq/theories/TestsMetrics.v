(** GENERATED by tools/gen_tests_sdk.py from /repo/tests: the repository's own tests, run on
    the model. These are tests of the model, not properties. *)
From Verif Require Import PyBase DateTime Objects Exprs Translate Optimizer Query Metrics Mql MetricsQuery Json Request Concrete.
#[local] Existing Instance demoRT.
#[local] Instance testST : PyStr := {| str_other := fun _ => [] |}.
Open Scope Z_scope.

Definition same_str (r : result str) (s : str) : bool := match r with Ok x => str_eqb x s | Raise _ => false end.
(** == s, or the given exception (the tests check the class and the text; here the class) *)
Definition fails {A} (r : result A) (f : exn -> bool) : bool := match r with Ok _ => false | Raise e => f e end.
Definition passes {A} (r : result A) : bool := match r with Ok _ => true | Raise _ => false end.
Definition equals (a b : result obj) : bool := match a, b with Ok x, Ok y => py_eq x y | _, _ => false end.
(** dictionaries: equal up to the order of keys (compared as sorted JSON) *)
Definition same_dict (a b : result obj) : bool :=
  match (let! x := a in json_pretty true 0 x), (let! y := b in json_pretty true 0 y) with
  | Ok s, Ok t => str_eqb s t
  | _, _ => false
  end.

(* test_timeseries.py, line 16:  *)
Example t1_test_timeseries : same_str (let! m := (let! x1 := (Ok (OStr ($"transaction.duration"))) in let! x2 := (Ok (OStr ($"d:transactions/duration@millisecond"))) in let! x3 := (Ok (OInt (123))) in mk_metric x1 x2 x3) in print_metric m) ($"d:transactions/duration@millisecond") = true.
Proof. vm_compute. reflexivity. Qed.

(* test_timeseries.py, line 23:  *)
Example t2_test_timeseries : passes (let! x1 := (Ok (OStr ($"transaction.duration"))) in let! x2 := (Ok (OStr ($"d:transactions/duration@millisecond"))) in let! x3 := (Ok ONone) in mk_metric x1 x2 x3) = true.
Proof. vm_compute. reflexivity. Qed.

(* test_timeseries.py, line 30:  *)
Example t3_test_timeseries : same_str (let! m := (let! x1 := (Ok (OStr ($"transaction.duration"))) in let! x2 := (Ok ONone) in let! x3 := (Ok (OInt (123))) in mk_metric x1 x2 x3) in print_metric m) ($"transaction.duration") = true.
Proof. vm_compute. reflexivity. Qed.

(* test_timeseries.py, line 37:  *)
Example t4_test_timeseries : same_str (let! m := (let! x1 := (Ok ONone) in let! x2 := (Ok (OStr ($"d:transactions/duration@millisecond"))) in let! x3 := (Ok (OInt (123))) in mk_metric x1 x2 x3) in print_metric m) ($"d:transactions/duration@millisecond") = true.
Proof. vm_compute. reflexivity. Qed.

(* test_timeseries.py, line 44:  *)
Example t5_test_timeseries : passes (let! x1 := (Ok (OStr ($"transaction.duration"))) in let! x2 := (Ok ONone) in let! x3 := (Ok ONone) in mk_metric x1 x2 x3) = true.
Proof. vm_compute. reflexivity. Qed.

(* test_timeseries.py, line 51:  *)
Example t6_test_timeseries : passes (let! x1 := (Ok ONone) in let! x2 := (Ok (OStr ($"d:transactions/duration@millisecond"))) in let! x3 := (Ok ONone) in mk_metric x1 x2 x3) = true.
Proof. vm_compute. reflexivity. Qed.

(* test_timeseries.py, line 58:  *)
Example t7_test_timeseries : fails (let! x1 := (Ok ONone) in let! x2 := (Ok ONone) in let! x3 := (Ok (OInt (123))) in mk_metric x1 x2 x3) (fun e => match e with InvalidTimeseriesError => true | _ => false end) = true.
Proof. vm_compute. reflexivity. Qed.

(* test_timeseries.py, line 65:  *)
Example t8_test_timeseries : fails (let! x1 := (Ok ONone) in let! x2 := (Ok ONone) in let! x3 := (Ok ONone) in mk_metric x1 x2 x3) (fun e => match e with InvalidTimeseriesError => true | _ => false end) = true.
Proof. vm_compute. reflexivity. Qed.

(* test_timeseries.py, line 72:  *)
Example t9_test_timeseries : fails (let! x1 := (Ok (OInt (123))) in let! x2 := (Ok (OStr ($"d:transactions/duration@millisecond"))) in let! x3 := (Ok (OInt (123))) in mk_metric x1 x2 x3) (fun e => match e with InvalidTimeseriesError => true | _ => false end) = true.
Proof. vm_compute. reflexivity. Qed.

(* test_timeseries.py, line 79:  *)
Example t10_test_timeseries : fails (let! x1 := (Ok (OStr ($"transaction.duration"))) in let! x2 := (Ok (OInt (123))) in let! x3 := (Ok (OInt (123))) in mk_metric x1 x2 x3) (fun e => match e with InvalidTimeseriesError => true | _ => false end) = true.
Proof. vm_compute. reflexivity. Qed.

(* test_timeseries.py, line 86:  *)
Example t11_test_timeseries : fails (let! x1 := (Ok (OStr ($"transaction.duration"))) in let! x2 := (Ok (OStr ($"d:transactions/duration@millisecond"))) in let! x3 := (Ok (OStr ($"wrong"))) in mk_metric x1 x2 x3) (fun e => match e with InvalidTimeseriesError => true | _ => false end) = true.
Proof. vm_compute. reflexivity. Qed.

(* test_timeseries.py, line 119: simple test *)
Example t12_test_timeseries : same_str (let! v := (let! t := (let! x4 := (let! m := (let! x1 := (Ok (OStr ($"duration"))) in let! x2 := (Ok ONone) in let! x3 := (Ok ONone) in mk_metric x1 x2 x3) in Ok (VMetric m)) in let! x5 := (Ok (OStr ($"count"))) in let! x6 := (Ok ONone) in let! x7 := (Ok ONone) in let! x8 := (Ok ONone) in mk_timeseries x4 x5 x6 x7 x8) in Ok (VTS t)) in print_mval v) ($"count(duration)") = true.
Proof. vm_compute. reflexivity. Qed.

(* test_timeseries.py, line 125: aggregate params *)
Example t13_test_timeseries : same_str (let! v := (let! t := (let! x5 := (let! m := (let! x1 := (Ok (OStr ($"duration"))) in let! x2 := (Ok ONone) in let! x3 := (Ok ONone) in mk_metric x1 x2 x3) in Ok (VMetric m)) in let! x6 := (Ok (OStr ($"quantile"))) in let! x7 := (let! x4 := (Ok (OFloat (FFin false 4278419646001971%N (-52)))) in Ok (OList [x4])) in let! x8 := (Ok ONone) in let! x9 := (Ok ONone) in mk_timeseries x5 x6 x7 x8 x9) in Ok (VTS t)) in print_mval v) ($"quantile(0.95)(duration)") = true.
Proof. vm_compute. reflexivity. Qed.

(* test_timeseries.py, line 131: filter *)
Example t14_test_timeseries : same_str (let! v := (let! t := (let! x11 := (let! m := (let! x1 := (Ok (OStr ($"duration"))) in let! x2 := (Ok ONone) in let! x3 := (Ok ONone) in mk_metric x1 x2 x3) in Ok (VMetric m)) in let! x12 := (Ok (OStr ($"quantile"))) in let! x13 := (let! x4 := (Ok (OFloat (FFin false 4278419646001971%N (-52)))) in Ok (OList [x4])) in let! x14 := (let! x5 := (let! x8 := (let! x6 := (Ok (OStr ($"tags[release]"))) in let! x7 := (Ok ONone) in mk_column x6 x7) in let! x9 := (Ok (OOp EQ)) in let! x10 := (Ok (OStr ($"1.2.3"))) in mk_condition x8 x9 x10) in Ok (OList [x5])) in let! x15 := (Ok ONone) in mk_timeseries x11 x12 x13 x14 x15) in Ok (VTS t)) in print_mval v) ($"quantile(0.95)(duration){tags[release]:""1.2.3""}") = true.
Proof. vm_compute. reflexivity. Qed.

(* test_timeseries.py, line 143: filters *)
Example t15_test_timeseries : same_str (let! v := (let! t := (let! x17 := (let! m := (let! x1 := (Ok (OStr ($"duration"))) in let! x2 := (Ok ONone) in let! x3 := (Ok ONone) in mk_metric x1 x2 x3) in Ok (VMetric m)) in let! x18 := (Ok (OStr ($"quantile"))) in let! x19 := (let! x4 := (Ok (OFloat (FFin false 4278419646001971%N (-52)))) in Ok (OList [x4])) in let! x20 := (let! x5 := (let! x8 := (let! x6 := (Ok (OStr ($"tags[release]"))) in let! x7 := (Ok ONone) in mk_column x6 x7) in let! x9 := (Ok (OOp EQ)) in let! x10 := (Ok (OStr ($"1.2.3"))) in mk_condition x8 x9 x10) in let! x11 := (let! x14 := (let! x12 := (Ok (OStr ($"tags[highway]"))) in let! x13 := (Ok ONone) in mk_column x12 x13) in let! x15 := (Ok (OOp EQ)) in let! x16 := (Ok (OStr ($"401"))) in mk_condition x14 x15 x16) in Ok (OList [x5; x11])) in let! x21 := (Ok ONone) in mk_timeseries x17 x18 x19 x20 x21) in Ok (VTS t)) in print_mval v) ($"quantile(0.95)(duration){tags[release]:""1.2.3"" AND tags[highway]:""401""}") = true.
Proof. vm_compute. reflexivity. Qed.

(* test_timeseries.py, line 158: boolean condition filters *)
Example t16_test_timeseries : same_str (let! v := (let! t := (let! x19 := (let! m := (let! x1 := (Ok (OStr ($"duration"))) in let! x2 := (Ok ONone) in let! x3 := (Ok ONone) in mk_metric x1 x2 x3) in Ok (VMetric m)) in let! x20 := (Ok (OStr ($"quantile"))) in let! x21 := (let! x4 := (Ok (OFloat (FFin false 4278419646001971%N (-52)))) in Ok (OList [x4])) in let! x22 := (let! x5 := (let! x18 := (let! x6 := (let! x9 := (let! x7 := (Ok (OStr ($"tags[release]"))) in let! x8 := (Ok ONone) in mk_column x7 x8) in let! x10 := (Ok (OOp EQ)) in let! x11 := (Ok (OStr ($"1.2.3"))) in mk_condition x9 x10 x11) in let! x12 := (let! x15 := (let! x13 := (Ok (OStr ($"tags[highway]"))) in let! x14 := (Ok ONone) in mk_column x13 x14) in let! x16 := (Ok (OOp EQ)) in let! x17 := (Ok (OStr ($"401"))) in mk_condition x15 x16 x17) in Ok (OList [x6; x12])) in mk_or x18) in Ok (OList [x5])) in let! x23 := (Ok ONone) in mk_timeseries x19 x20 x21 x22 x23) in Ok (VTS t)) in print_mval v) ($"quantile(0.95)(duration){(tags[release]:""1.2.3"" OR tags[highway]:""401"")}") = true.
Proof. vm_compute. reflexivity. Qed.

(* test_timeseries.py, line 177: groupby *)
Example t17_test_timeseries : same_str (let! v := (let! t := (let! x20 := (let! m := (let! x1 := (Ok (OStr ($"duration"))) in let! x2 := (Ok ONone) in let! x3 := (Ok ONone) in mk_metric x1 x2 x3) in Ok (VMetric m)) in let! x21 := (Ok (OStr ($"quantile"))) in let! x22 := (let! x4 := (Ok (OFloat (FFin false 4278419646001971%N (-52)))) in Ok (OList [x4])) in let! x23 := (let! x5 := (let! x8 := (let! x6 := (Ok (OStr ($"tags[release]"))) in let! x7 := (Ok ONone) in mk_column x6 x7) in let! x9 := (Ok (OOp EQ)) in let! x10 := (Ok (OStr ($"1.2.3"))) in mk_condition x8 x9 x10) in let! x11 := (let! x14 := (let! x12 := (Ok (OStr ($"tags[highway]"))) in let! x13 := (Ok ONone) in mk_column x12 x13) in let! x15 := (Ok (OOp EQ)) in let! x16 := (Ok (OStr ($"401"))) in mk_condition x14 x15 x16) in Ok (OList [x5; x11])) in let! x24 := (let! x17 := (let! x18 := (Ok (OStr ($"tags[transaction]"))) in let! x19 := (Ok ONone) in mk_column x18 x19) in Ok (OList [x17])) in mk_timeseries x20 x21 x22 x23 x24) in Ok (VTS t)) in print_mval v) ($"quantile(0.95)(duration){tags[release]:""1.2.3"" AND tags[highway]:""401""} by (tags[transaction])") = true.
Proof. vm_compute. reflexivity. Qed.

(* test_timeseries.py, line 192: groupbys *)
Example t18_test_timeseries : same_str (let! v := (let! t := (let! x23 := (let! m := (let! x1 := (Ok (OStr ($"duration"))) in let! x2 := (Ok ONone) in let! x3 := (Ok ONone) in mk_metric x1 x2 x3) in Ok (VMetric m)) in let! x24 := (Ok (OStr ($"quantile"))) in let! x25 := (let! x4 := (Ok (OFloat (FFin false 4278419646001971%N (-52)))) in Ok (OList [x4])) in let! x26 := (let! x5 := (let! x8 := (let! x6 := (Ok (OStr ($"tags[release]"))) in let! x7 := (Ok ONone) in mk_column x6 x7) in let! x9 := (Ok (OOp EQ)) in let! x10 := (Ok (OStr ($"1.2.3"))) in mk_condition x8 x9 x10) in let! x11 := (let! x14 := (let! x12 := (Ok (OStr ($"tags[highway]"))) in let! x13 := (Ok ONone) in mk_column x12 x13) in let! x15 := (Ok (OOp EQ)) in let! x16 := (Ok (OStr ($"401"))) in mk_condition x14 x15 x16) in Ok (OList [x5; x11])) in let! x27 := (let! x17 := (let! x18 := (Ok (OStr ($"tags[transaction]"))) in let! x19 := (Ok ONone) in mk_column x18 x19) in let! x20 := (let! x21 := (Ok (OStr ($"tags[device]"))) in let! x22 := (Ok ONone) in mk_column x21 x22) in Ok (OList [x17; x20])) in mk_timeseries x23 x24 x25 x26 x27) in Ok (VTS t)) in print_mval v) ($"quantile(0.95)(duration){tags[release]:""1.2.3"" AND tags[highway]:""401""} by (tags[transaction], tags[device])") = true.
Proof. vm_compute. reflexivity. Qed.

(* test_timeseries.py, line 207: aliased groupbys *)
Example t19_test_timeseries : same_str (let! v := (let! t := (let! x27 := (let! m := (let! x1 := (Ok (OStr ($"duration"))) in let! x2 := (Ok ONone) in let! x3 := (Ok ONone) in mk_metric x1 x2 x3) in Ok (VMetric m)) in let! x28 := (Ok (OStr ($"quantile"))) in let! x29 := (let! x4 := (Ok (OFloat (FFin false 4278419646001971%N (-52)))) in Ok (OList [x4])) in let! x30 := (let! x5 := (let! x8 := (let! x6 := (Ok (OStr ($"tags[release]"))) in let! x7 := (Ok ONone) in mk_column x6 x7) in let! x9 := (Ok (OOp EQ)) in let! x10 := (Ok (OStr ($"1.2.3"))) in mk_condition x8 x9 x10) in let! x11 := (let! x14 := (let! x12 := (Ok (OStr ($"tags[highway]"))) in let! x13 := (Ok ONone) in mk_column x12 x13) in let! x15 := (Ok (OOp EQ)) in let! x16 := (Ok (OStr ($"401"))) in mk_condition x14 x15 x16) in Ok (OList [x5; x11])) in let! x31 := (let! x17 := (let! x20 := (let! x18 := (Ok (OStr ($"tags[transaction]"))) in let! x19 := (Ok ONone) in mk_column x18 x19) in let! x21 := (Ok (OStr ($"transaction"))) in mk_aliased x20 x21) in let! x22 := (let! x25 := (let! x23 := (Ok (OStr ($"tags[device]"))) in let! x24 := (Ok ONone) in mk_column x23 x24) in let! x26 := (Ok (OStr ($"device"))) in mk_aliased x25 x26) in Ok (OList [x17; x22])) in mk_timeseries x27 x28 x29 x30 x31) in Ok (VTS t)) in print_mval v) ($"quantile(0.95)(duration){tags[release]:""1.2.3"" AND tags[highway]:""401""} by (tags[transaction] AS `transaction`, tags[device] AS `device`)") = true.
Proof. vm_compute. reflexivity. Qed.

(* test_timeseries.py, line 225: invalid aggregate *)
Example t20_test_timeseries : fails (let! t := (let! x4 := (let! m := (let! x1 := (Ok (OStr ($"duration"))) in let! x2 := (Ok ONone) in let! x3 := (Ok ONone) in mk_metric x1 x2 x3) in Ok (VMetric m)) in let! x5 := (Ok (OInt (456))) in let! x6 := (Ok ONone) in let! x7 := (Ok ONone) in let! x8 := (Ok ONone) in mk_timeseries x4 x5 x6 x7 x8) in Ok (VTS t)) (fun e => match e with InvalidTimeseriesError => true | _ => false end) = true.
Proof. vm_compute. reflexivity. Qed.

(* test_timeseries.py, line 231: invalid aggregate param *)
Example t21_test_timeseries : fails (let! t := (let! x4 := (let! m := (let! x1 := (Ok (OStr ($"duration"))) in let! x2 := (Ok ONone) in let! x3 := (Ok ONone) in mk_metric x1 x2 x3) in Ok (VMetric m)) in let! x5 := (Ok (OStr ($"count"))) in let! x6 := (Ok (OInt (6))) in let! x7 := (Ok ONone) in let! x8 := (Ok ONone) in mk_timeseries x4 x5 x6 x7 x8) in Ok (VTS t)) (fun e => match e with InvalidTimeseriesError => true | _ => false end) = true.
Proof. vm_compute. reflexivity. Qed.

(* test_timeseries.py, line 237: invalid aggregate params *)
Example t22_test_timeseries : fails (let! t := (let! x7 := (let! m := (let! x1 := (Ok (OStr ($"duration"))) in let! x2 := (Ok ONone) in let! x3 := (Ok ONone) in mk_metric x1 x2 x3) in Ok (VMetric m)) in let! x8 := (Ok (OStr ($"count"))) in let! x9 := (let! x4 := (let! x5 := (Ok (OStr ($"test"))) in let! x6 := (Ok ONone) in mk_column x5 x6) in Ok (OList [x4])) in let! x10 := (Ok ONone) in let! x11 := (Ok ONone) in mk_timeseries x7 x8 x9 x10 x11) in Ok (VTS t)) (fun e => match e with InvalidTimeseriesError => true | _ => false end) = true.
Proof. vm_compute. reflexivity. Qed.

(* test_timeseries.py, line 249: invalid filter *)
Example t23_test_timeseries : fails (let! t := (let! x4 := (let! m := (let! x1 := (Ok (OStr ($"duration"))) in let! x2 := (Ok ONone) in let! x3 := (Ok ONone) in mk_metric x1 x2 x3) in Ok (VMetric m)) in let! x5 := (Ok (OStr ($"count"))) in let! x6 := (Ok ONone) in let! x7 := (Ok (OInt (6))) in let! x8 := (Ok ONone) in mk_timeseries x4 x5 x6 x7 x8) in Ok (VTS t)) (fun e => match e with InvalidTimeseriesError => true | _ => false end) = true.
Proof. vm_compute. reflexivity. Qed.

(* test_timeseries.py, line 255: invalid filters *)
Example t24_test_timeseries : fails (let! t := (let! x7 := (let! m := (let! x1 := (Ok (OStr ($"duration"))) in let! x2 := (Ok ONone) in let! x3 := (Ok ONone) in mk_metric x1 x2 x3) in Ok (VMetric m)) in let! x8 := (Ok (OStr ($"count"))) in let! x9 := (Ok ONone) in let! x10 := (let! x4 := (let! x5 := (Ok (OStr ($"test"))) in let! x6 := (Ok ONone) in mk_column x5 x6) in Ok (OList [x4])) in let! x11 := (Ok ONone) in mk_timeseries x7 x8 x9 x10 x11) in Ok (VTS t)) (fun e => match e with InvalidTimeseriesError => true | _ => false end) = true.
Proof. vm_compute. reflexivity. Qed.

(* test_timeseries.py, line 267: invalid groupby *)
Example t25_test_timeseries : fails (let! t := (let! x4 := (let! m := (let! x1 := (Ok (OStr ($"duration"))) in let! x2 := (Ok ONone) in let! x3 := (Ok ONone) in mk_metric x1 x2 x3) in Ok (VMetric m)) in let! x5 := (Ok (OStr ($"count"))) in let! x6 := (Ok ONone) in let! x7 := (Ok ONone) in let! x8 := (Ok (OInt (3))) in mk_timeseries x4 x5 x6 x7 x8) in Ok (VTS t)) (fun e => match e with InvalidTimeseriesError => true | _ => false end) = true.
Proof. vm_compute. reflexivity. Qed.

(* test_timeseries.py, line 273: invalid groupbys *)
Example t26_test_timeseries : fails (let! t := (let! x5 := (let! m := (let! x1 := (Ok (OStr ($"duration"))) in let! x2 := (Ok ONone) in let! x3 := (Ok ONone) in mk_metric x1 x2 x3) in Ok (VMetric m)) in let! x6 := (Ok (OStr ($"count"))) in let! x7 := (Ok ONone) in let! x8 := (Ok ONone) in let! x9 := (let! x4 := (Ok (OOther 1)) in Ok (OList [x4])) in mk_timeseries x5 x6 x7 x8 x9) in Ok (VTS t)) (fun e => match e with InvalidTimeseriesError => true | _ => false end) = true.
Proof. vm_compute. reflexivity. Qed.

(* test_formula.py, line 23: timeseries and number formula test *)
Example t27_test_formula : passes (let! v := (let! x1 := (let! t := (let! x5 := (let! m := (let! x2 := (Ok (OStr ($"foo"))) in let! x3 := (Ok ONone) in let! x4 := (Ok ONone) in mk_metric x2 x3 x4) in Ok (VMetric m)) in let! x6 := (Ok (OStr ($"sum"))) in let! x7 := (Ok ONone) in let! x8 := (Ok ONone) in let! x9 := (Ok ONone) in mk_timeseries x5 x6 x7 x8 x9) in Ok (VTS t)) in let! x10 := (let! x11 := (Ok (OInt (1))) in Ok (VObj x11)) in let! x12 := (Ok (OStr ($"plus"))) in let! x13 := (Ok ONone) in let! x14 := (Ok ONone) in let! x15 := (Ok ONone) in Ok (VFormula x12 (Some KList) [x1; x10] x13 x14 x15)) in mval_validate v) = true.
Proof. vm_compute. reflexivity. Qed.

(* test_formula.py, line 39: filters in formula *)
Example t28_test_formula : passes (let! v := (let! x1 := (let! t := (let! x5 := (let! m := (let! x2 := (Ok (OStr ($"foo"))) in let! x3 := (Ok ONone) in let! x4 := (Ok ONone) in mk_metric x2 x3 x4) in Ok (VMetric m)) in let! x6 := (Ok (OStr ($"sum"))) in let! x7 := (Ok ONone) in let! x8 := (Ok ONone) in let! x9 := (Ok ONone) in mk_timeseries x5 x6 x7 x8 x9) in Ok (VTS t)) in let! x10 := (let! x11 := (Ok (OInt (1))) in Ok (VObj x11)) in let! x12 := (Ok (OStr ($"plus"))) in let! x13 := (Ok ONone) in let! x14 := (let! x15 := (let! x18 := (let! x16 := (Ok (OStr ($"tags[transaction]"))) in let! x17 := (Ok ONone) in mk_column x16 x17) in let! x19 := (Ok (OOp EQ)) in let! x20 := (Ok (OStr ($"foo"))) in mk_condition x18 x19 x20) in Ok (OList [x15])) in let! x21 := (Ok ONone) in Ok (VFormula x12 (Some KList) [x1; x10] x13 x14 x21)) in mval_validate v) = true.
Proof. vm_compute. reflexivity. Qed.

(* test_formula.py, line 55: groupby in formula *)
Example t29_test_formula : passes (let! v := (let! x1 := (let! t := (let! x5 := (let! m := (let! x2 := (Ok (OStr ($"foo"))) in let! x3 := (Ok ONone) in let! x4 := (Ok ONone) in mk_metric x2 x3 x4) in Ok (VMetric m)) in let! x6 := (Ok (OStr ($"sum"))) in let! x7 := (Ok ONone) in let! x8 := (Ok ONone) in let! x9 := (Ok ONone) in mk_timeseries x5 x6 x7 x8 x9) in Ok (VTS t)) in let! x10 := (let! x11 := (Ok (OInt (1))) in Ok (VObj x11)) in let! x12 := (Ok (OStr ($"plus"))) in let! x13 := (Ok ONone) in let! x14 := (Ok ONone) in let! x15 := (let! x16 := (let! x17 := (Ok (OStr ($"tags[status_code]"))) in let! x18 := (Ok ONone) in mk_column x17 x18) in Ok (OList [x16])) in Ok (VFormula x12 (Some KList) [x1; x10] x13 x14 x15)) in mval_validate v) = true.
Proof. vm_compute. reflexivity. Qed.

(* test_formula.py, line 71: timeseries in formula *)
Example t30_test_formula : passes (let! v := (let! x1 := (let! t := (let! x5 := (let! m := (let! x2 := (Ok (OStr ($"foo"))) in let! x3 := (Ok ONone) in let! x4 := (Ok ONone) in mk_metric x2 x3 x4) in Ok (VMetric m)) in let! x6 := (Ok (OStr ($"sum"))) in let! x7 := (Ok ONone) in let! x8 := (Ok ONone) in let! x9 := (Ok ONone) in mk_timeseries x5 x6 x7 x8 x9) in Ok (VTS t)) in let! x10 := (let! t := (let! x14 := (let! m := (let! x11 := (Ok (OStr ($"bar"))) in let! x12 := (Ok ONone) in let! x13 := (Ok ONone) in mk_metric x11 x12 x13) in Ok (VMetric m)) in let! x15 := (Ok (OStr ($"sum"))) in let! x16 := (Ok ONone) in let! x17 := (Ok ONone) in let! x18 := (Ok ONone) in mk_timeseries x14 x15 x16 x17 x18) in Ok (VTS t)) in let! x19 := (Ok (OStr ($"plus"))) in let! x20 := (Ok ONone) in let! x21 := (Ok ONone) in let! x22 := (Ok ONone) in Ok (VFormula x19 (Some KList) [x1; x10] x20 x21 x22)) in mval_validate v) = true.
Proof. vm_compute. reflexivity. Qed.

(* test_formula.py, line 90: timeseries in formula have the same groupby *)
Example t31_test_formula : passes (let! v := (let! x1 := (let! t := (let! x8 := (let! m := (let! x2 := (Ok (OStr ($"foo"))) in let! x3 := (Ok ONone) in let! x4 := (Ok ONone) in mk_metric x2 x3 x4) in Ok (VMetric m)) in let! x9 := (Ok (OStr ($"sum"))) in let! x10 := (Ok ONone) in let! x11 := (Ok ONone) in let! x12 := (let! x5 := (let! x6 := (Ok (OStr ($"transaction"))) in let! x7 := (Ok ONone) in mk_column x6 x7) in Ok (OList [x5])) in mk_timeseries x8 x9 x10 x11 x12) in Ok (VTS t)) in let! x13 := (let! t := (let! x20 := (let! m := (let! x14 := (Ok (OStr ($"foo"))) in let! x15 := (Ok ONone) in let! x16 := (Ok ONone) in mk_metric x14 x15 x16) in Ok (VMetric m)) in let! x21 := (Ok (OStr ($"avg"))) in let! x22 := (Ok ONone) in let! x23 := (Ok ONone) in let! x24 := (let! x17 := (let! x18 := (Ok (OStr ($"transaction"))) in let! x19 := (Ok ONone) in mk_column x18 x19) in Ok (OList [x17])) in mk_timeseries x20 x21 x22 x23 x24) in Ok (VTS t)) in let! x25 := (Ok (OStr ($"divide"))) in let! x26 := (Ok ONone) in let! x27 := (Ok ONone) in let! x28 := (Ok ONone) in Ok (VFormula x25 (Some KList) [x1; x13] x26 x27 x28)) in mval_validate v) = true.
Proof. vm_compute. reflexivity. Qed.

(* test_formula.py, line 109: invalid operator type *)
Example t32_test_formula : fails (let! v := (let! x1 := (let! t := (let! x5 := (let! m := (let! x2 := (Ok (OStr ($"foo"))) in let! x3 := (Ok ONone) in let! x4 := (Ok ONone) in mk_metric x2 x3 x4) in Ok (VMetric m)) in let! x6 := (Ok (OStr ($"sum"))) in let! x7 := (Ok ONone) in let! x8 := (Ok ONone) in let! x9 := (Ok ONone) in mk_timeseries x5 x6 x7 x8 x9) in Ok (VTS t)) in let! x10 := (let! x11 := (Ok (OInt (1))) in Ok (VObj x11)) in let! x12 := (Ok (OInt (42))) in let! x13 := (Ok ONone) in let! x14 := (Ok ONone) in let! x15 := (Ok ONone) in Ok (VFormula x12 (Some KList) [x1; x10] x13 x14 x15)) in mval_validate v) (fun e => match e with InvalidFormulaError => true | _ => false end) = true.
Proof. vm_compute. reflexivity. Qed.

(* test_formula.py, line 125: invalid parameters *)
Example t33_test_formula : fails (let! v := (let! n := (Ok (OStr ($"plus"))) in Ok (VFormula n None [] ONone ONone ONone)) in mval_validate v) (fun e => match e with InvalidFormulaError => true | _ => false end) = true.
Proof. vm_compute. reflexivity. Qed.

(* test_formula.py, line 130: unsupported parameter for operator *)
Example t34_test_formula : fails (let! v := (let! x1 := (let! t := (let! x5 := (let! m := (let! x2 := (Ok (OStr ($"foo"))) in let! x3 := (Ok ONone) in let! x4 := (Ok ONone) in mk_metric x2 x3 x4) in Ok (VMetric m)) in let! x6 := (Ok (OStr ($"sum"))) in let! x7 := (Ok ONone) in let! x8 := (Ok ONone) in let! x9 := (Ok ONone) in mk_timeseries x5 x6 x7 x8 x9) in Ok (VTS t)) in let! x10 := (let! x11 := (Ok (OStr ($"foo"))) in Ok (VObj x11)) in let! x12 := (Ok (OStr ($"multiply"))) in let! x13 := (Ok ONone) in let! x14 := (Ok ONone) in let! x15 := (Ok ONone) in Ok (VFormula x12 (Some KList) [x1; x10] x13 x14 x15)) in mval_validate v) (fun e => match e with InvalidFormulaError => true | _ => false end) = true.
Proof. vm_compute. reflexivity. Qed.

(* test_formula.py, line 146: different groupby *)
Example t35_test_formula : fails (let! v := (let! x1 := (let! t := (let! x14 := (let! m := (let! x2 := (Ok (OStr ($"transaction.duration"))) in let! x3 := (Ok (OStr ($"d:transactions/duration@millisecond"))) in let! x4 := (Ok (OInt (1123))) in mk_metric x2 x3 x4) in Ok (VMetric m)) in let! x15 := (Ok (OStr ($"sum"))) in let! x16 := (Ok ONone) in let! x17 := (let! x5 := (let! x8 := (let! x6 := (Ok (OStr ($"tags[referrer]"))) in let! x7 := (Ok ONone) in mk_column x6 x7) in let! x9 := (Ok (OOp EQ)) in let! x10 := (Ok (OStr ($"foo"))) in mk_condition x8 x9 x10) in Ok (OList [x5])) in let! x18 := (let! x11 := (let! x12 := (Ok (OStr ($"tags[status_code]"))) in let! x13 := (Ok ONone) in mk_column x12 x13) in Ok (OList [x11])) in mk_timeseries x14 x15 x16 x17 x18) in Ok (VTS t)) in let! x19 := (let! t := (let! x32 := (let! m := (let! x20 := (Ok (OStr ($"transaction.duration"))) in let! x21 := (Ok (OStr ($"d:transactions/duration@millisecond"))) in let! x22 := (Ok (OInt (123))) in mk_metric x20 x21 x22) in Ok (VMetric m)) in let! x33 := (Ok (OStr ($"sum"))) in let! x34 := (Ok ONone) in let! x35 := (let! x23 := (let! x26 := (let! x24 := (Ok (OStr ($"tags[referrer]"))) in let! x25 := (Ok ONone) in mk_column x24 x25) in let! x27 := (Ok (OOp EQ)) in let! x28 := (Ok (OStr ($"bar"))) in mk_condition x26 x27 x28) in Ok (OList [x23])) in let! x36 := (let! x29 := (let! x30 := (Ok (OStr ($"tags[platform]"))) in let! x31 := (Ok ONone) in mk_column x30 x31) in Ok (OList [x29])) in mk_timeseries x32 x33 x34 x35 x36) in Ok (VTS t)) in let! x37 := (Ok (OStr ($"plus"))) in let! x38 := (Ok ONone) in let! x39 := (let! x40 := (let! x43 := (let! x41 := (Ok (OStr ($"tags[status_code]"))) in let! x42 := (Ok ONone) in mk_column x41 x42) in let! x44 := (Ok (OOp EQ)) in let! x45 := (Ok (OInt (200))) in mk_condition x43 x44 x45) in Ok (OList [x40])) in let! x46 := (let! x47 := (let! x48 := (Ok (OStr ($"tags[release]"))) in let! x49 := (Ok ONone) in mk_column x48 x49) in Ok (OList [x47])) in Ok (VFormula x37 (Some KList) [x1; x19] x38 x39 x46)) in mval_validate v) (fun e => match e with InvalidFormulaError => true | _ => false end) = true.
Proof. vm_compute. reflexivity. Qed.

(* test_formula.py, line 177: no simple math *)
Example t36_test_formula : fails (let! v := (let! x1 := (let! x2 := (Ok (OInt (100))) in Ok (VObj x2)) in let! x3 := (let! x4 := (Ok (OInt (100))) in Ok (VObj x4)) in let! x5 := (Ok (OStr ($"plus"))) in let! x6 := (Ok ONone) in let! x7 := (let! x8 := (let! x11 := (let! x9 := (Ok (OStr ($"tags[status_code]"))) in let! x10 := (Ok ONone) in mk_column x9 x10) in let! x12 := (Ok (OOp EQ)) in let! x13 := (Ok (OInt (200))) in mk_condition x11 x12 x13) in Ok (OList [x8])) in let! x14 := (let! x15 := (let! x16 := (Ok (OStr ($"tags[release]"))) in let! x17 := (Ok ONone) in mk_column x16 x17) in Ok (OList [x15])) in Ok (VFormula x5 (Some KList) [x1; x3] x6 x7 x14)) in mval_validate v) (fun e => match e with InvalidFormulaError => true | _ => false end) = true.
Proof. vm_compute. reflexivity. Qed.

(* test_formula.py, line 205: basic formula *)
Example t37_test_formula : same_str (let! v := (let! x1 := (let! t := (let! x11 := (let! m := (let! x2 := (Ok (OStr ($"transaction.duration"))) in let! x3 := (Ok (OStr ($"d:transactions/duration@millisecond"))) in let! x4 := (Ok (OInt (1123))) in mk_metric x2 x3 x4) in Ok (VMetric m)) in let! x12 := (Ok (OStr ($"sum"))) in let! x13 := (Ok ONone) in let! x14 := (let! x5 := (let! x8 := (let! x6 := (Ok (OStr ($"tags[referrer]"))) in let! x7 := (Ok ONone) in mk_column x6 x7) in let! x9 := (Ok (OOp EQ)) in let! x10 := (Ok (OStr ($"foo"))) in mk_condition x8 x9 x10) in Ok (OList [x5])) in let! x15 := (Ok ONone) in mk_timeseries x11 x12 x13 x14 x15) in Ok (VTS t)) in let! x16 := (let! x17 := (Ok (OInt (100))) in Ok (VObj x17)) in let! x18 := (Ok (OStr ($"multiply"))) in let! x19 := (Ok ONone) in let! x20 := (Ok ONone) in let! x21 := (Ok ONone) in Ok (VFormula x18 (Some KList) [x1; x16] x19 x20 x21)) in print_mval v) ($"(sum(d:transactions/duration@millisecond){tags[referrer]:""foo""} * 100)") = true.
Proof. vm_compute. reflexivity. Qed.

(* test_formula.py, line 227: basic timeseries formula *)
Example t38_test_formula : same_str (let! v := (let! x1 := (let! t := (let! x11 := (let! m := (let! x2 := (Ok (OStr ($"transaction.duration"))) in let! x3 := (Ok (OStr ($"d:transactions/duration@millisecond"))) in let! x4 := (Ok (OInt (1123))) in mk_metric x2 x3 x4) in Ok (VMetric m)) in let! x12 := (Ok (OStr ($"sum"))) in let! x13 := (Ok ONone) in let! x14 := (let! x5 := (let! x8 := (let! x6 := (Ok (OStr ($"tags[referrer]"))) in let! x7 := (Ok ONone) in mk_column x6 x7) in let! x9 := (Ok (OOp EQ)) in let! x10 := (Ok (OStr ($"foo"))) in mk_condition x8 x9 x10) in Ok (OList [x5])) in let! x15 := (Ok ONone) in mk_timeseries x11 x12 x13 x14 x15) in Ok (VTS t)) in let! x16 := (let! t := (let! x26 := (let! m := (let! x17 := (Ok (OStr ($"transaction.duration"))) in let! x18 := (Ok (OStr ($"d:transactions/duration@millisecond"))) in let! x19 := (Ok (OInt (123))) in mk_metric x17 x18 x19) in Ok (VMetric m)) in let! x27 := (Ok (OStr ($"sum"))) in let! x28 := (Ok ONone) in let! x29 := (let! x20 := (let! x23 := (let! x21 := (Ok (OStr ($"tags[referrer]"))) in let! x22 := (Ok ONone) in mk_column x21 x22) in let! x24 := (Ok (OOp EQ)) in let! x25 := (Ok (OStr ($"bar"))) in mk_condition x23 x24 x25) in Ok (OList [x20])) in let! x30 := (Ok ONone) in mk_timeseries x26 x27 x28 x29 x30) in Ok (VTS t)) in let! x31 := (Ok (OStr ($"plus"))) in let! x32 := (Ok ONone) in let! x33 := (Ok ONone) in let! x34 := (Ok ONone) in Ok (VFormula x31 (Some KList) [x1; x16] x32 x33 x34)) in print_mval v) ($"(sum(d:transactions/duration@millisecond){tags[referrer]:""foo""} + sum(d:transactions/duration@millisecond){tags[referrer]:""bar""})") = true.
Proof. vm_compute. reflexivity. Qed.

(* test_formula.py, line 257: formula with filters *)
Example t39_test_formula : same_str (let! v := (let! x1 := (let! t := (let! x11 := (let! m := (let! x2 := (Ok (OStr ($"transaction.duration"))) in let! x3 := (Ok (OStr ($"d:transactions/duration@millisecond"))) in let! x4 := (Ok (OInt (1123))) in mk_metric x2 x3 x4) in Ok (VMetric m)) in let! x12 := (Ok (OStr ($"sum"))) in let! x13 := (Ok ONone) in let! x14 := (let! x5 := (let! x8 := (let! x6 := (Ok (OStr ($"tags[referrer]"))) in let! x7 := (Ok ONone) in mk_column x6 x7) in let! x9 := (Ok (OOp EQ)) in let! x10 := (Ok (OStr ($"foo"))) in mk_condition x8 x9 x10) in Ok (OList [x5])) in let! x15 := (Ok ONone) in mk_timeseries x11 x12 x13 x14 x15) in Ok (VTS t)) in let! x16 := (let! t := (let! x26 := (let! m := (let! x17 := (Ok (OStr ($"transaction.duration"))) in let! x18 := (Ok (OStr ($"d:transactions/duration@millisecond"))) in let! x19 := (Ok (OInt (123))) in mk_metric x17 x18 x19) in Ok (VMetric m)) in let! x27 := (Ok (OStr ($"sum"))) in let! x28 := (Ok ONone) in let! x29 := (let! x20 := (let! x23 := (let! x21 := (Ok (OStr ($"tags[referrer]"))) in let! x22 := (Ok ONone) in mk_column x21 x22) in let! x24 := (Ok (OOp EQ)) in let! x25 := (Ok (OStr ($"bar"))) in mk_condition x23 x24 x25) in Ok (OList [x20])) in let! x30 := (Ok ONone) in mk_timeseries x26 x27 x28 x29 x30) in Ok (VTS t)) in let! x31 := (Ok (OStr ($"plus"))) in let! x32 := (Ok ONone) in let! x33 := (let! x34 := (let! x37 := (let! x35 := (Ok (OStr ($"tags[status_code]"))) in let! x36 := (Ok ONone) in mk_column x35 x36) in let! x38 := (Ok (OOp EQ)) in let! x39 := (Ok (OInt (200))) in mk_condition x37 x38 x39) in Ok (OList [x34])) in let! x40 := (Ok ONone) in Ok (VFormula x31 (Some KList) [x1; x16] x32 x33 x40)) in print_mval v) ($"(sum(d:transactions/duration@millisecond){tags[referrer]:""foo""} + sum(d:transactions/duration@millisecond){tags[referrer]:""bar""}){tags[status_code]:200}") = true.
Proof. vm_compute. reflexivity. Qed.

(* test_formula.py, line 287: group bys *)
Example t40_test_formula : same_str (let! v := (let! x1 := (let! t := (let! x14 := (let! m := (let! x2 := (Ok (OStr ($"transaction.duration"))) in let! x3 := (Ok (OStr ($"d:transactions/duration@millisecond"))) in let! x4 := (Ok (OInt (1123))) in mk_metric x2 x3 x4) in Ok (VMetric m)) in let! x15 := (Ok (OStr ($"sum"))) in let! x16 := (Ok ONone) in let! x17 := (let! x5 := (let! x8 := (let! x6 := (Ok (OStr ($"tags[referrer]"))) in let! x7 := (Ok ONone) in mk_column x6 x7) in let! x9 := (Ok (OOp EQ)) in let! x10 := (Ok (OStr ($"foo"))) in mk_condition x8 x9 x10) in Ok (OList [x5])) in let! x18 := (let! x11 := (let! x12 := (Ok (OStr ($"tags[status_code]"))) in let! x13 := (Ok ONone) in mk_column x12 x13) in Ok (OList [x11])) in mk_timeseries x14 x15 x16 x17 x18) in Ok (VTS t)) in let! x19 := (let! t := (let! x32 := (let! m := (let! x20 := (Ok (OStr ($"transaction.duration"))) in let! x21 := (Ok (OStr ($"d:transactions/duration@millisecond"))) in let! x22 := (Ok (OInt (123))) in mk_metric x20 x21 x22) in Ok (VMetric m)) in let! x33 := (Ok (OStr ($"sum"))) in let! x34 := (Ok ONone) in let! x35 := (let! x23 := (let! x26 := (let! x24 := (Ok (OStr ($"tags[referrer]"))) in let! x25 := (Ok ONone) in mk_column x24 x25) in let! x27 := (Ok (OOp EQ)) in let! x28 := (Ok (OStr ($"bar"))) in mk_condition x26 x27 x28) in Ok (OList [x23])) in let! x36 := (let! x29 := (let! x30 := (Ok (OStr ($"tags[status_code]"))) in let! x31 := (Ok ONone) in mk_column x30 x31) in Ok (OList [x29])) in mk_timeseries x32 x33 x34 x35 x36) in Ok (VTS t)) in let! x37 := (Ok (OStr ($"plus"))) in let! x38 := (Ok ONone) in let! x39 := (let! x40 := (let! x43 := (let! x41 := (Ok (OStr ($"tags[status_code]"))) in let! x42 := (Ok ONone) in mk_column x41 x42) in let! x44 := (Ok (OOp EQ)) in let! x45 := (Ok (OInt (200))) in mk_condition x43 x44 x45) in Ok (OList [x40])) in let! x46 := (let! x47 := (let! x48 := (Ok (OStr ($"tags[release]"))) in let! x49 := (Ok ONone) in mk_column x48 x49) in Ok (OList [x47])) in Ok (VFormula x37 (Some KList) [x1; x19] x38 x39 x46)) in print_mval v) ($"(sum(d:transactions/duration@millisecond){tags[referrer]:""foo""} by (tags[status_code]) + sum(d:transactions/duration@millisecond){tags[referrer]:""bar""} by (tags[status_code])){tags[status_code]:200} by (tags[release])") = true.
Proof. vm_compute. reflexivity. Qed.

(* test_formula_printer.py, line 13: test_terms *)
Example t41_test_formula_printer : same_str (let! v := (let! x1 := (let! t := (let! x5 := (let! m := (let! x2 := (Ok (OStr ($"foo"))) in let! x3 := (Ok ONone) in let! x4 := (Ok ONone) in mk_metric x2 x3 x4) in Ok (VMetric m)) in let! x6 := (Ok (OStr ($"sum"))) in let! x7 := (Ok ONone) in let! x8 := (Ok ONone) in let! x9 := (Ok ONone) in mk_timeseries x5 x6 x7 x8 x9) in Ok (VTS t)) in let! x10 := (let! x11 := (Ok (OInt (1000))) in Ok (VObj x11)) in let! x12 := (Ok (OStr ($"divide"))) in let! x13 := (Ok ONone) in let! x14 := (Ok ONone) in let! x15 := (Ok ONone) in Ok (VFormula x12 (Some KList) [x1; x10] x13 x14 x15)) in print_mval v) ($"(sum(foo) / 1000)") = true.
Proof. vm_compute. reflexivity. Qed.

(* test_formula_printer.py, line 13: test_terms *)
Example t42_test_formula_printer : match (let! x1 := (let! t := (let! x5 := (let! m := (let! x2 := (Ok (OStr ($"foo"))) in let! x3 := (Ok ONone) in let! x4 := (Ok ONone) in mk_metric x2 x3 x4) in Ok (VMetric m)) in let! x6 := (Ok (OStr ($"sum"))) in let! x7 := (Ok ONone) in let! x8 := (Ok ONone) in let! x9 := (Ok ONone) in mk_timeseries x5 x6 x7 x8 x9) in Ok (VTS t)) in let! x10 := (let! x11 := (Ok (OInt (1000))) in Ok (VObj x11)) in let! x12 := (Ok (OStr ($"divide"))) in let! x13 := (Ok ONone) in let! x14 := (Ok ONone) in let! x15 := (Ok ONone) in Ok (VFormula x12 (Some KList) [x1; x10] x13 x14 x15)), parse_mql ($"(sum(foo) / 1000)") with Ok (VFormula _ _ _ _ f g), Ok (VFormula _ _ _ _ f1 g1) => py_eq f f1 && py_eq g g1 | _, _ => false end = true.
Proof. vm_compute. reflexivity. Qed.

(* test_formula_printer.py, line 27: test two aggregate terms *)
Example t43_test_formula_printer : same_str (let! v := (let! x1 := (let! t := (let! x5 := (let! m := (let! x2 := (Ok (OStr ($"foo"))) in let! x3 := (Ok ONone) in let! x4 := (Ok ONone) in mk_metric x2 x3 x4) in Ok (VMetric m)) in let! x6 := (Ok (OStr ($"sum"))) in let! x7 := (Ok ONone) in let! x8 := (Ok ONone) in let! x9 := (Ok ONone) in mk_timeseries x5 x6 x7 x8 x9) in Ok (VTS t)) in let! x10 := (let! t := (let! x14 := (let! m := (let! x11 := (Ok (OStr ($"bar"))) in let! x12 := (Ok ONone) in let! x13 := (Ok ONone) in mk_metric x11 x12 x13) in Ok (VMetric m)) in let! x15 := (Ok (OStr ($"max"))) in let! x16 := (Ok ONone) in let! x17 := (Ok ONone) in let! x18 := (Ok ONone) in mk_timeseries x14 x15 x16 x17 x18) in Ok (VTS t)) in let! x19 := (Ok (OStr ($"multiply"))) in let! x20 := (Ok ONone) in let! x21 := (Ok ONone) in let! x22 := (Ok ONone) in Ok (VFormula x19 (Some KList) [x1; x10] x20 x21 x22)) in print_mval v) ($"(sum(foo) * max(bar))") = true.
Proof. vm_compute. reflexivity. Qed.

(* test_formula_printer.py, line 27: test two aggregate terms *)
Example t44_test_formula_printer : match (let! x1 := (let! t := (let! x5 := (let! m := (let! x2 := (Ok (OStr ($"foo"))) in let! x3 := (Ok ONone) in let! x4 := (Ok ONone) in mk_metric x2 x3 x4) in Ok (VMetric m)) in let! x6 := (Ok (OStr ($"sum"))) in let! x7 := (Ok ONone) in let! x8 := (Ok ONone) in let! x9 := (Ok ONone) in mk_timeseries x5 x6 x7 x8 x9) in Ok (VTS t)) in let! x10 := (let! t := (let! x14 := (let! m := (let! x11 := (Ok (OStr ($"bar"))) in let! x12 := (Ok ONone) in let! x13 := (Ok ONone) in mk_metric x11 x12 x13) in Ok (VMetric m)) in let! x15 := (Ok (OStr ($"max"))) in let! x16 := (Ok ONone) in let! x17 := (Ok ONone) in let! x18 := (Ok ONone) in mk_timeseries x14 x15 x16 x17 x18) in Ok (VTS t)) in let! x19 := (Ok (OStr ($"multiply"))) in let! x20 := (Ok ONone) in let! x21 := (Ok ONone) in let! x22 := (Ok ONone) in Ok (VFormula x19 (Some KList) [x1; x10] x20 x21 x22)), parse_mql ($"(sum(foo) * max(bar))") with Ok (VFormula _ _ _ _ f g), Ok (VFormula _ _ _ _ f1 g1) => py_eq f f1 && py_eq g g1 | _, _ => false end = true.
Proof. vm_compute. reflexivity. Qed.

(* test_formula_printer.py, line 44: test nested terms *)
Example t45_test_formula_printer : same_str (let! v := (let! x1 := (let! x2 := (let! t := (let! x6 := (let! m := (let! x3 := (Ok (OStr ($"foo"))) in let! x4 := (Ok ONone) in let! x5 := (Ok ONone) in mk_metric x3 x4 x5) in Ok (VMetric m)) in let! x7 := (Ok (OStr ($"sum"))) in let! x8 := (Ok ONone) in let! x9 := (Ok ONone) in let! x10 := (Ok ONone) in mk_timeseries x6 x7 x8 x9 x10) in Ok (VTS t)) in let! x11 := (let! t := (let! x15 := (let! m := (let! x12 := (Ok (OStr ($"bar"))) in let! x13 := (Ok ONone) in let! x14 := (Ok ONone) in mk_metric x12 x13 x14) in Ok (VMetric m)) in let! x16 := (Ok (OStr ($"sum"))) in let! x17 := (Ok ONone) in let! x18 := (Ok ONone) in let! x19 := (Ok ONone) in mk_timeseries x15 x16 x17 x18 x19) in Ok (VTS t)) in let! x20 := (Ok (OStr ($"multiply"))) in let! x21 := (Ok ONone) in let! x22 := (Ok ONone) in let! x23 := (Ok ONone) in Ok (VFormula x20 (Some KList) [x2; x11] x21 x22 x23)) in let! x24 := (let! x25 := (Ok (OFloat (FFin false 1000%N (0)))) in Ok (VObj x25)) in let! x26 := (Ok (OStr ($"divide"))) in let! x27 := (Ok ONone) in let! x28 := (Ok ONone) in let! x29 := (Ok ONone) in Ok (VFormula x26 (Some KList) [x1; x24] x27 x28 x29)) in print_mval v) ($"((sum(foo) * sum(bar)) / 1000.0)") = true.
Proof. vm_compute. reflexivity. Qed.

(* test_formula_printer.py, line 44: test nested terms *)
Example t46_test_formula_printer : match (let! x1 := (let! x2 := (let! t := (let! x6 := (let! m := (let! x3 := (Ok (OStr ($"foo"))) in let! x4 := (Ok ONone) in let! x5 := (Ok ONone) in mk_metric x3 x4 x5) in Ok (VMetric m)) in let! x7 := (Ok (OStr ($"sum"))) in let! x8 := (Ok ONone) in let! x9 := (Ok ONone) in let! x10 := (Ok ONone) in mk_timeseries x6 x7 x8 x9 x10) in Ok (VTS t)) in let! x11 := (let! t := (let! x15 := (let! m := (let! x12 := (Ok (OStr ($"bar"))) in let! x13 := (Ok ONone) in let! x14 := (Ok ONone) in mk_metric x12 x13 x14) in Ok (VMetric m)) in let! x16 := (Ok (OStr ($"sum"))) in let! x17 := (Ok ONone) in let! x18 := (Ok ONone) in let! x19 := (Ok ONone) in mk_timeseries x15 x16 x17 x18 x19) in Ok (VTS t)) in let! x20 := (Ok (OStr ($"multiply"))) in let! x21 := (Ok ONone) in let! x22 := (Ok ONone) in let! x23 := (Ok ONone) in Ok (VFormula x20 (Some KList) [x2; x11] x21 x22 x23)) in let! x24 := (let! x25 := (Ok (OFloat (FFin false 1000%N (0)))) in Ok (VObj x25)) in let! x26 := (Ok (OStr ($"divide"))) in let! x27 := (Ok ONone) in let! x28 := (Ok ONone) in let! x29 := (Ok ONone) in Ok (VFormula x26 (Some KList) [x1; x24] x27 x28 x29)), parse_mql ($"((sum(foo) * sum(bar)) / 1000.0)") with Ok (VFormula _ _ _ _ f g), Ok (VFormula _ _ _ _ f1 g1) => py_eq f f1 && py_eq g g1 | _, _ => false end = true.
Proof. vm_compute. reflexivity. Qed.

(* test_formula_printer.py, line 67: test terms with filter *)
Example t47_test_formula_printer : same_str (let! v := (let! x1 := (let! t := (let! x5 := (let! m := (let! x2 := (Ok (OStr ($"foo"))) in let! x3 := (Ok ONone) in let! x4 := (Ok ONone) in mk_metric x2 x3 x4) in Ok (VMetric m)) in let! x6 := (Ok (OStr ($"sum"))) in let! x7 := (Ok ONone) in let! x8 := (Ok ONone) in let! x9 := (Ok ONone) in mk_timeseries x5 x6 x7 x8 x9) in Ok (VTS t)) in let! x10 := (let! t := (let! x14 := (let! m := (let! x11 := (Ok (OStr ($"bar"))) in let! x12 := (Ok ONone) in let! x13 := (Ok ONone) in mk_metric x11 x12 x13) in Ok (VMetric m)) in let! x15 := (Ok (OStr ($"sum"))) in let! x16 := (Ok ONone) in let! x17 := (Ok ONone) in let! x18 := (Ok ONone) in mk_timeseries x14 x15 x16 x17 x18) in Ok (VTS t)) in let! x19 := (Ok (OStr ($"divide"))) in let! x20 := (Ok ONone) in let! x21 := (let! x22 := (let! x25 := (let! x23 := (Ok (OStr ($"tag"))) in let! x24 := (Ok ONone) in mk_column x23 x24) in let! x26 := (Ok (OOp EQ)) in let! x27 := (Ok (OStr ($"tag_value"))) in mk_condition x25 x26 x27) in Ok (OList [x22])) in let! x28 := (Ok ONone) in Ok (VFormula x19 (Some KList) [x1; x10] x20 x21 x28)) in print_mval v) ($"(sum(foo) / sum(bar)){tag:""tag_value""}") = true.
Proof. vm_compute. reflexivity. Qed.

(* test_formula_printer.py, line 67: test terms with filter *)
Example t48_test_formula_printer : match (let! x1 := (let! t := (let! x5 := (let! m := (let! x2 := (Ok (OStr ($"foo"))) in let! x3 := (Ok ONone) in let! x4 := (Ok ONone) in mk_metric x2 x3 x4) in Ok (VMetric m)) in let! x6 := (Ok (OStr ($"sum"))) in let! x7 := (Ok ONone) in let! x8 := (Ok ONone) in let! x9 := (Ok ONone) in mk_timeseries x5 x6 x7 x8 x9) in Ok (VTS t)) in let! x10 := (let! t := (let! x14 := (let! m := (let! x11 := (Ok (OStr ($"bar"))) in let! x12 := (Ok ONone) in let! x13 := (Ok ONone) in mk_metric x11 x12 x13) in Ok (VMetric m)) in let! x15 := (Ok (OStr ($"sum"))) in let! x16 := (Ok ONone) in let! x17 := (Ok ONone) in let! x18 := (Ok ONone) in mk_timeseries x14 x15 x16 x17 x18) in Ok (VTS t)) in let! x19 := (Ok (OStr ($"divide"))) in let! x20 := (Ok ONone) in let! x21 := (let! x22 := (let! x25 := (let! x23 := (Ok (OStr ($"tag"))) in let! x24 := (Ok ONone) in mk_column x23 x24) in let! x26 := (Ok (OOp EQ)) in let! x27 := (Ok (OStr ($"tag_value"))) in mk_condition x25 x26 x27) in Ok (OList [x22])) in let! x28 := (Ok ONone) in Ok (VFormula x19 (Some KList) [x1; x10] x20 x21 x28)), parse_mql ($"(sum(foo) / sum(bar)){tag:""tag_value""}") with Ok (VFormula _ _ _ _ f g), Ok (VFormula _ _ _ _ f1 g1) => py_eq f f1 && py_eq g g1 | _, _ => false end = true.
Proof. vm_compute. reflexivity. Qed.

(* test_formula_printer.py, line 85: test terms with filters *)
Example t49_test_formula_printer : same_str (let! v := (let! x1 := (let! t := (let! x11 := (let! m := (let! x2 := (Ok (OStr ($"foo"))) in let! x3 := (Ok ONone) in let! x4 := (Ok ONone) in mk_metric x2 x3 x4) in Ok (VMetric m)) in let! x12 := (Ok (OStr ($"sum"))) in let! x13 := (Ok ONone) in let! x14 := (let! x5 := (let! x8 := (let! x6 := (Ok (OStr ($"tag"))) in let! x7 := (Ok ONone) in mk_column x6 x7) in let! x9 := (Ok (OOp EQ)) in let! x10 := (Ok (OStr ($"tag_value"))) in mk_condition x8 x9 x10) in Ok (OList [x5])) in let! x15 := (Ok ONone) in mk_timeseries x11 x12 x13 x14 x15) in Ok (VTS t)) in let! x16 := (let! t := (let! x26 := (let! m := (let! x17 := (Ok (OStr ($"bar"))) in let! x18 := (Ok ONone) in let! x19 := (Ok ONone) in mk_metric x17 x18 x19) in Ok (VMetric m)) in let! x27 := (Ok (OStr ($"sum"))) in let! x28 := (Ok ONone) in let! x29 := (let! x20 := (let! x23 := (let! x21 := (Ok (OStr ($"tag"))) in let! x22 := (Ok ONone) in mk_column x21 x22) in let! x24 := (Ok (OOp EQ)) in let! x25 := (Ok (OStr ($"tag_value"))) in mk_condition x23 x24 x25) in Ok (OList [x20])) in let! x30 := (Ok ONone) in mk_timeseries x26 x27 x28 x29 x30) in Ok (VTS t)) in let! x31 := (Ok (OStr ($"divide"))) in let! x32 := (Ok ONone) in let! x33 := (Ok ONone) in let! x34 := (Ok ONone) in Ok (VFormula x31 (Some KList) [x1; x16] x32 x33 x34)) in print_mval v) ($"(sum(foo){tag:""tag_value""} / sum(bar){tag:""tag_value""})") = true.
Proof. vm_compute. reflexivity. Qed.

(* test_formula_printer.py, line 85: test terms with filters *)
Example t50_test_formula_printer : match (let! x1 := (let! t := (let! x11 := (let! m := (let! x2 := (Ok (OStr ($"foo"))) in let! x3 := (Ok ONone) in let! x4 := (Ok ONone) in mk_metric x2 x3 x4) in Ok (VMetric m)) in let! x12 := (Ok (OStr ($"sum"))) in let! x13 := (Ok ONone) in let! x14 := (let! x5 := (let! x8 := (let! x6 := (Ok (OStr ($"tag"))) in let! x7 := (Ok ONone) in mk_column x6 x7) in let! x9 := (Ok (OOp EQ)) in let! x10 := (Ok (OStr ($"tag_value"))) in mk_condition x8 x9 x10) in Ok (OList [x5])) in let! x15 := (Ok ONone) in mk_timeseries x11 x12 x13 x14 x15) in Ok (VTS t)) in let! x16 := (let! t := (let! x26 := (let! m := (let! x17 := (Ok (OStr ($"bar"))) in let! x18 := (Ok ONone) in let! x19 := (Ok ONone) in mk_metric x17 x18 x19) in Ok (VMetric m)) in let! x27 := (Ok (OStr ($"sum"))) in let! x28 := (Ok ONone) in let! x29 := (let! x20 := (let! x23 := (let! x21 := (Ok (OStr ($"tag"))) in let! x22 := (Ok ONone) in mk_column x21 x22) in let! x24 := (Ok (OOp EQ)) in let! x25 := (Ok (OStr ($"tag_value"))) in mk_condition x23 x24 x25) in Ok (OList [x20])) in let! x30 := (Ok ONone) in mk_timeseries x26 x27 x28 x29 x30) in Ok (VTS t)) in let! x31 := (Ok (OStr ($"divide"))) in let! x32 := (Ok ONone) in let! x33 := (Ok ONone) in let! x34 := (Ok ONone) in Ok (VFormula x31 (Some KList) [x1; x16] x32 x33 x34)), parse_mql ($"(sum(foo){tag:""tag_value""} / sum(bar){tag:""tag_value""})") with Ok (VFormula _ _ _ _ f g), Ok (VFormula _ _ _ _ f1 g1) => py_eq f f1 && py_eq g g1 | _, _ => false end = true.
Proof. vm_compute. reflexivity. Qed.

(* test_formula_printer.py, line 104: test terms with filters and groupby *)
Example t51_test_formula_printer : same_str (let! v := (let! x1 := (let! t := (let! x5 := (let! m := (let! x2 := (Ok (OStr ($"foo"))) in let! x3 := (Ok ONone) in let! x4 := (Ok ONone) in mk_metric x2 x3 x4) in Ok (VMetric m)) in let! x6 := (Ok (OStr ($"sum"))) in let! x7 := (Ok ONone) in let! x8 := (Ok ONone) in let! x9 := (Ok ONone) in mk_timeseries x5 x6 x7 x8 x9) in Ok (VTS t)) in let! x10 := (let! t := (let! x14 := (let! m := (let! x11 := (Ok (OStr ($"bar"))) in let! x12 := (Ok ONone) in let! x13 := (Ok ONone) in mk_metric x11 x12 x13) in Ok (VMetric m)) in let! x15 := (Ok (OStr ($"sum"))) in let! x16 := (Ok ONone) in let! x17 := (Ok ONone) in let! x18 := (Ok ONone) in mk_timeseries x14 x15 x16 x17 x18) in Ok (VTS t)) in let! x19 := (Ok (OStr ($"divide"))) in let! x20 := (Ok ONone) in let! x21 := (let! x22 := (let! x25 := (let! x23 := (Ok (OStr ($"tag"))) in let! x24 := (Ok ONone) in mk_column x23 x24) in let! x26 := (Ok (OOp EQ)) in let! x27 := (Ok (OStr ($"tag_value"))) in mk_condition x25 x26 x27) in Ok (OList [x22])) in let! x28 := (let! x29 := (let! x30 := (Ok (OStr ($"transaction"))) in let! x31 := (Ok ONone) in mk_column x30 x31) in Ok (OList [x29])) in Ok (VFormula x19 (Some KList) [x1; x10] x20 x21 x28)) in print_mval v) ($"(sum(foo) / sum(bar)){tag:""tag_value""} by (transaction)") = true.
Proof. vm_compute. reflexivity. Qed.

(* test_formula_printer.py, line 104: test terms with filters and groupby *)
Example t52_test_formula_printer : match (let! x1 := (let! t := (let! x5 := (let! m := (let! x2 := (Ok (OStr ($"foo"))) in let! x3 := (Ok ONone) in let! x4 := (Ok ONone) in mk_metric x2 x3 x4) in Ok (VMetric m)) in let! x6 := (Ok (OStr ($"sum"))) in let! x7 := (Ok ONone) in let! x8 := (Ok ONone) in let! x9 := (Ok ONone) in mk_timeseries x5 x6 x7 x8 x9) in Ok (VTS t)) in let! x10 := (let! t := (let! x14 := (let! m := (let! x11 := (Ok (OStr ($"bar"))) in let! x12 := (Ok ONone) in let! x13 := (Ok ONone) in mk_metric x11 x12 x13) in Ok (VMetric m)) in let! x15 := (Ok (OStr ($"sum"))) in let! x16 := (Ok ONone) in let! x17 := (Ok ONone) in let! x18 := (Ok ONone) in mk_timeseries x14 x15 x16 x17 x18) in Ok (VTS t)) in let! x19 := (Ok (OStr ($"divide"))) in let! x20 := (Ok ONone) in let! x21 := (let! x22 := (let! x25 := (let! x23 := (Ok (OStr ($"tag"))) in let! x24 := (Ok ONone) in mk_column x23 x24) in let! x26 := (Ok (OOp EQ)) in let! x27 := (Ok (OStr ($"tag_value"))) in mk_condition x25 x26 x27) in Ok (OList [x22])) in let! x28 := (let! x29 := (let! x30 := (Ok (OStr ($"transaction"))) in let! x31 := (Ok ONone) in mk_column x30 x31) in Ok (OList [x29])) in Ok (VFormula x19 (Some KList) [x1; x10] x20 x21 x28)), parse_mql ($"(sum(foo) / sum(bar)){tag:""tag_value""} by (transaction)") with Ok (VFormula _ _ _ _ f g), Ok (VFormula _ _ _ _ f1 g1) => py_eq f f1 && py_eq g g1 | _, _ => false end = true.
Proof. vm_compute. reflexivity. Qed.

(* test_formula_printer.py, line 123: test terms with filters and groupbys *)
Example t53_test_formula_printer : same_str (let! v := (let! x1 := (let! t := (let! x8 := (let! m := (let! x2 := (Ok (OStr ($"foo"))) in let! x3 := (Ok ONone) in let! x4 := (Ok ONone) in mk_metric x2 x3 x4) in Ok (VMetric m)) in let! x9 := (Ok (OStr ($"sum"))) in let! x10 := (Ok ONone) in let! x11 := (Ok ONone) in let! x12 := (let! x5 := (let! x6 := (Ok (OStr ($"transaction"))) in let! x7 := (Ok ONone) in mk_column x6 x7) in Ok (OList [x5])) in mk_timeseries x8 x9 x10 x11 x12) in Ok (VTS t)) in let! x13 := (let! t := (let! x20 := (let! m := (let! x14 := (Ok (OStr ($"bar"))) in let! x15 := (Ok ONone) in let! x16 := (Ok ONone) in mk_metric x14 x15 x16) in Ok (VMetric m)) in let! x21 := (Ok (OStr ($"sum"))) in let! x22 := (Ok ONone) in let! x23 := (Ok ONone) in let! x24 := (let! x17 := (let! x18 := (Ok (OStr ($"transaction"))) in let! x19 := (Ok ONone) in mk_column x18 x19) in Ok (OList [x17])) in mk_timeseries x20 x21 x22 x23 x24) in Ok (VTS t)) in let! x25 := (Ok (OStr ($"divide"))) in let! x26 := (Ok ONone) in let! x27 := (Ok ONone) in let! x28 := (Ok ONone) in Ok (VFormula x25 (Some KList) [x1; x13] x26 x27 x28)) in print_mval v) ($"(sum(foo) by (transaction) / sum(bar) by (transaction))") = true.
Proof. vm_compute. reflexivity. Qed.

(* test_formula_printer.py, line 123: test terms with filters and groupbys *)
Example t54_test_formula_printer : match (let! x1 := (let! t := (let! x8 := (let! m := (let! x2 := (Ok (OStr ($"foo"))) in let! x3 := (Ok ONone) in let! x4 := (Ok ONone) in mk_metric x2 x3 x4) in Ok (VMetric m)) in let! x9 := (Ok (OStr ($"sum"))) in let! x10 := (Ok ONone) in let! x11 := (Ok ONone) in let! x12 := (let! x5 := (let! x6 := (Ok (OStr ($"transaction"))) in let! x7 := (Ok ONone) in mk_column x6 x7) in Ok (OList [x5])) in mk_timeseries x8 x9 x10 x11 x12) in Ok (VTS t)) in let! x13 := (let! t := (let! x20 := (let! m := (let! x14 := (Ok (OStr ($"bar"))) in let! x15 := (Ok ONone) in let! x16 := (Ok ONone) in mk_metric x14 x15 x16) in Ok (VMetric m)) in let! x21 := (Ok (OStr ($"sum"))) in let! x22 := (Ok ONone) in let! x23 := (Ok ONone) in let! x24 := (let! x17 := (let! x18 := (Ok (OStr ($"transaction"))) in let! x19 := (Ok ONone) in mk_column x18 x19) in Ok (OList [x17])) in mk_timeseries x20 x21 x22 x23 x24) in Ok (VTS t)) in let! x25 := (Ok (OStr ($"divide"))) in let! x26 := (Ok ONone) in let! x27 := (Ok ONone) in let! x28 := (Ok ONone) in Ok (VFormula x25 (Some KList) [x1; x13] x26 x27 x28)), parse_mql ($"(sum(foo) by (transaction) / sum(bar) by (transaction))") with Ok (VFormula _ _ _ _ f g), Ok (VFormula _ _ _ _ f1 g1) => py_eq f f1 && py_eq g g1 | _, _ => false end = true.
Proof. vm_compute. reflexivity. Qed.

(* test_formula_printer.py, line 142: test terms with inner groupbys and outer filter *)
Example t55_test_formula_printer : same_str (let! v := (let! x1 := (let! t := (let! x8 := (let! m := (let! x2 := (Ok (OStr ($"foo"))) in let! x3 := (Ok ONone) in let! x4 := (Ok ONone) in mk_metric x2 x3 x4) in Ok (VMetric m)) in let! x9 := (Ok (OStr ($"sum"))) in let! x10 := (Ok ONone) in let! x11 := (Ok ONone) in let! x12 := (let! x5 := (let! x6 := (Ok (OStr ($"transaction"))) in let! x7 := (Ok ONone) in mk_column x6 x7) in Ok (OList [x5])) in mk_timeseries x8 x9 x10 x11 x12) in Ok (VTS t)) in let! x13 := (let! t := (let! x20 := (let! m := (let! x14 := (Ok (OStr ($"bar"))) in let! x15 := (Ok ONone) in let! x16 := (Ok ONone) in mk_metric x14 x15 x16) in Ok (VMetric m)) in let! x21 := (Ok (OStr ($"sum"))) in let! x22 := (Ok ONone) in let! x23 := (Ok ONone) in let! x24 := (let! x17 := (let! x18 := (Ok (OStr ($"transaction"))) in let! x19 := (Ok ONone) in mk_column x18 x19) in Ok (OList [x17])) in mk_timeseries x20 x21 x22 x23 x24) in Ok (VTS t)) in let! x25 := (Ok (OStr ($"divide"))) in let! x26 := (Ok ONone) in let! x27 := (let! x28 := (let! x31 := (let! x29 := (Ok (OStr ($"tag"))) in let! x30 := (Ok ONone) in mk_column x29 x30) in let! x32 := (Ok (OOp EQ)) in let! x33 := (Ok (OStr ($"tag_value"))) in mk_condition x31 x32 x33) in Ok (OList [x28])) in let! x34 := (Ok ONone) in Ok (VFormula x25 (Some KList) [x1; x13] x26 x27 x34)) in print_mval v) ($"(sum(foo) by (transaction) / sum(bar) by (transaction)){tag:""tag_value""}") = true.
Proof. vm_compute. reflexivity. Qed.

(* test_formula_printer.py, line 142: test terms with inner groupbys and outer filter *)
Example t56_test_formula_printer : match (let! x1 := (let! t := (let! x8 := (let! m := (let! x2 := (Ok (OStr ($"foo"))) in let! x3 := (Ok ONone) in let! x4 := (Ok ONone) in mk_metric x2 x3 x4) in Ok (VMetric m)) in let! x9 := (Ok (OStr ($"sum"))) in let! x10 := (Ok ONone) in let! x11 := (Ok ONone) in let! x12 := (let! x5 := (let! x6 := (Ok (OStr ($"transaction"))) in let! x7 := (Ok ONone) in mk_column x6 x7) in Ok (OList [x5])) in mk_timeseries x8 x9 x10 x11 x12) in Ok (VTS t)) in let! x13 := (let! t := (let! x20 := (let! m := (let! x14 := (Ok (OStr ($"bar"))) in let! x15 := (Ok ONone) in let! x16 := (Ok ONone) in mk_metric x14 x15 x16) in Ok (VMetric m)) in let! x21 := (Ok (OStr ($"sum"))) in let! x22 := (Ok ONone) in let! x23 := (Ok ONone) in let! x24 := (let! x17 := (let! x18 := (Ok (OStr ($"transaction"))) in let! x19 := (Ok ONone) in mk_column x18 x19) in Ok (OList [x17])) in mk_timeseries x20 x21 x22 x23 x24) in Ok (VTS t)) in let! x25 := (Ok (OStr ($"divide"))) in let! x26 := (Ok ONone) in let! x27 := (let! x28 := (let! x31 := (let! x29 := (Ok (OStr ($"tag"))) in let! x30 := (Ok ONone) in mk_column x29 x30) in let! x32 := (Ok (OOp EQ)) in let! x33 := (Ok (OStr ($"tag_value"))) in mk_condition x31 x32 x33) in Ok (OList [x28])) in let! x34 := (Ok ONone) in Ok (VFormula x25 (Some KList) [x1; x13] x26 x27 x34)), parse_mql ($"(sum(foo) by (transaction) / sum(bar) by (transaction)){tag:""tag_value""}") with Ok (VFormula _ _ _ _ f g), Ok (VFormula _ _ _ _ f1 g1) => py_eq f f1 && py_eq g g1 | _, _ => false end = true.
Proof. vm_compute. reflexivity. Qed.

(* test_formula_printer.py, line 162: test terms with inner groupbys and inner filter *)
Example t57_test_formula_printer : same_str (let! v := (let! x1 := (let! t := (let! x14 := (let! m := (let! x2 := (Ok (OStr ($"foo"))) in let! x3 := (Ok ONone) in let! x4 := (Ok ONone) in mk_metric x2 x3 x4) in Ok (VMetric m)) in let! x15 := (Ok (OStr ($"sum"))) in let! x16 := (Ok ONone) in let! x17 := (let! x5 := (let! x8 := (let! x6 := (Ok (OStr ($"tag"))) in let! x7 := (Ok ONone) in mk_column x6 x7) in let! x9 := (Ok (OOp EQ)) in let! x10 := (Ok (OStr ($"tag_value"))) in mk_condition x8 x9 x10) in Ok (OList [x5])) in let! x18 := (let! x11 := (let! x12 := (Ok (OStr ($"transaction"))) in let! x13 := (Ok ONone) in mk_column x12 x13) in Ok (OList [x11])) in mk_timeseries x14 x15 x16 x17 x18) in Ok (VTS t)) in let! x19 := (let! t := (let! x32 := (let! m := (let! x20 := (Ok (OStr ($"bar"))) in let! x21 := (Ok ONone) in let! x22 := (Ok ONone) in mk_metric x20 x21 x22) in Ok (VMetric m)) in let! x33 := (Ok (OStr ($"sum"))) in let! x34 := (Ok ONone) in let! x35 := (let! x23 := (let! x26 := (let! x24 := (Ok (OStr ($"tag"))) in let! x25 := (Ok ONone) in mk_column x24 x25) in let! x27 := (Ok (OOp EQ)) in let! x28 := (Ok (OStr ($"tag_value"))) in mk_condition x26 x27 x28) in Ok (OList [x23])) in let! x36 := (let! x29 := (let! x30 := (Ok (OStr ($"transaction"))) in let! x31 := (Ok ONone) in mk_column x30 x31) in Ok (OList [x29])) in mk_timeseries x32 x33 x34 x35 x36) in Ok (VTS t)) in let! x37 := (Ok (OStr ($"divide"))) in let! x38 := (Ok ONone) in let! x39 := (Ok ONone) in let! x40 := (Ok ONone) in Ok (VFormula x37 (Some KList) [x1; x19] x38 x39 x40)) in print_mval v) ($"(sum(foo){tag:""tag_value""} by (transaction) / sum(bar){tag:""tag_value""} by (transaction))") = true.
Proof. vm_compute. reflexivity. Qed.

(* test_formula_printer.py, line 162: test terms with inner groupbys and inner filter *)
Example t58_test_formula_printer : match (let! x1 := (let! t := (let! x14 := (let! m := (let! x2 := (Ok (OStr ($"foo"))) in let! x3 := (Ok ONone) in let! x4 := (Ok ONone) in mk_metric x2 x3 x4) in Ok (VMetric m)) in let! x15 := (Ok (OStr ($"sum"))) in let! x16 := (Ok ONone) in let! x17 := (let! x5 := (let! x8 := (let! x6 := (Ok (OStr ($"tag"))) in let! x7 := (Ok ONone) in mk_column x6 x7) in let! x9 := (Ok (OOp EQ)) in let! x10 := (Ok (OStr ($"tag_value"))) in mk_condition x8 x9 x10) in Ok (OList [x5])) in let! x18 := (let! x11 := (let! x12 := (Ok (OStr ($"transaction"))) in let! x13 := (Ok ONone) in mk_column x12 x13) in Ok (OList [x11])) in mk_timeseries x14 x15 x16 x17 x18) in Ok (VTS t)) in let! x19 := (let! t := (let! x32 := (let! m := (let! x20 := (Ok (OStr ($"bar"))) in let! x21 := (Ok ONone) in let! x22 := (Ok ONone) in mk_metric x20 x21 x22) in Ok (VMetric m)) in let! x33 := (Ok (OStr ($"sum"))) in let! x34 := (Ok ONone) in let! x35 := (let! x23 := (let! x26 := (let! x24 := (Ok (OStr ($"tag"))) in let! x25 := (Ok ONone) in mk_column x24 x25) in let! x27 := (Ok (OOp EQ)) in let! x28 := (Ok (OStr ($"tag_value"))) in mk_condition x26 x27 x28) in Ok (OList [x23])) in let! x36 := (let! x29 := (let! x30 := (Ok (OStr ($"transaction"))) in let! x31 := (Ok ONone) in mk_column x30 x31) in Ok (OList [x29])) in mk_timeseries x32 x33 x34 x35 x36) in Ok (VTS t)) in let! x37 := (Ok (OStr ($"divide"))) in let! x38 := (Ok ONone) in let! x39 := (Ok ONone) in let! x40 := (Ok ONone) in Ok (VFormula x37 (Some KList) [x1; x19] x38 x39 x40)), parse_mql ($"(sum(foo){tag:""tag_value""} by (transaction) / sum(bar){tag:""tag_value""} by (transaction))") with Ok (VFormula _ _ _ _ f g), Ok (VFormula _ _ _ _ f1 g1) => py_eq f f1 && py_eq g g1 | _, _ => false end = true.
Proof. vm_compute. reflexivity. Qed.

(* test_formula_printer.py, line 183: test terms with outer groupbys and outer filter *)
Example t59_test_formula_printer : same_str (let! v := (let! x1 := (let! t := (let! x5 := (let! m := (let! x2 := (Ok (OStr ($"foo"))) in let! x3 := (Ok ONone) in let! x4 := (Ok ONone) in mk_metric x2 x3 x4) in Ok (VMetric m)) in let! x6 := (Ok (OStr ($"sum"))) in let! x7 := (Ok ONone) in let! x8 := (Ok ONone) in let! x9 := (Ok ONone) in mk_timeseries x5 x6 x7 x8 x9) in Ok (VTS t)) in let! x10 := (let! t := (let! x14 := (let! m := (let! x11 := (Ok (OStr ($"bar"))) in let! x12 := (Ok ONone) in let! x13 := (Ok ONone) in mk_metric x11 x12 x13) in Ok (VMetric m)) in let! x15 := (Ok (OStr ($"sum"))) in let! x16 := (Ok ONone) in let! x17 := (Ok ONone) in let! x18 := (Ok ONone) in mk_timeseries x14 x15 x16 x17 x18) in Ok (VTS t)) in let! x19 := (Ok (OStr ($"divide"))) in let! x20 := (Ok ONone) in let! x21 := (let! x22 := (let! x25 := (let! x23 := (Ok (OStr ($"tag"))) in let! x24 := (Ok ONone) in mk_column x23 x24) in let! x26 := (Ok (OOp EQ)) in let! x27 := (Ok (OStr ($"tag_value"))) in mk_condition x25 x26 x27) in Ok (OList [x22])) in let! x28 := (let! x29 := (let! x30 := (Ok (OStr ($"transaction"))) in let! x31 := (Ok ONone) in mk_column x30 x31) in Ok (OList [x29])) in Ok (VFormula x19 (Some KList) [x1; x10] x20 x21 x28)) in print_mval v) ($"(sum(foo) / sum(bar)){tag:""tag_value""} by (transaction)") = true.
Proof. vm_compute. reflexivity. Qed.

(* test_formula_printer.py, line 183: test terms with outer groupbys and outer filter *)
Example t60_test_formula_printer : match (let! x1 := (let! t := (let! x5 := (let! m := (let! x2 := (Ok (OStr ($"foo"))) in let! x3 := (Ok ONone) in let! x4 := (Ok ONone) in mk_metric x2 x3 x4) in Ok (VMetric m)) in let! x6 := (Ok (OStr ($"sum"))) in let! x7 := (Ok ONone) in let! x8 := (Ok ONone) in let! x9 := (Ok ONone) in mk_timeseries x5 x6 x7 x8 x9) in Ok (VTS t)) in let! x10 := (let! t := (let! x14 := (let! m := (let! x11 := (Ok (OStr ($"bar"))) in let! x12 := (Ok ONone) in let! x13 := (Ok ONone) in mk_metric x11 x12 x13) in Ok (VMetric m)) in let! x15 := (Ok (OStr ($"sum"))) in let! x16 := (Ok ONone) in let! x17 := (Ok ONone) in let! x18 := (Ok ONone) in mk_timeseries x14 x15 x16 x17 x18) in Ok (VTS t)) in let! x19 := (Ok (OStr ($"divide"))) in let! x20 := (Ok ONone) in let! x21 := (let! x22 := (let! x25 := (let! x23 := (Ok (OStr ($"tag"))) in let! x24 := (Ok ONone) in mk_column x23 x24) in let! x26 := (Ok (OOp EQ)) in let! x27 := (Ok (OStr ($"tag_value"))) in mk_condition x25 x26 x27) in Ok (OList [x22])) in let! x28 := (let! x29 := (let! x30 := (Ok (OStr ($"transaction"))) in let! x31 := (Ok ONone) in mk_column x30 x31) in Ok (OList [x29])) in Ok (VFormula x19 (Some KList) [x1; x10] x20 x21 x28)), parse_mql ($"(sum(foo) / sum(bar)){tag:""tag_value""} by (transaction)") with Ok (VFormula _ _ _ _ f g), Ok (VFormula _ _ _ _ f1 g1) => py_eq f f1 && py_eq g g1 | _, _ => false end = true.
Proof. vm_compute. reflexivity. Qed.

(* test_formula_printer.py, line 202: test complex nested terms *)
Example t61_test_formula_printer : same_str (let! v := (let! x1 := (let! x2 := (let! t := (let! x18 := (let! m := (let! x3 := (Ok (OStr ($"foo"))) in let! x4 := (Ok ONone) in let! x5 := (Ok ONone) in mk_metric x3 x4 x5) in Ok (VMetric m)) in let! x19 := (Ok (OStr ($"sum"))) in let! x20 := (Ok ONone) in let! x21 := (let! x6 := (let! x9 := (let! x7 := (Ok (OStr ($"tag2"))) in let! x8 := (Ok ONone) in mk_column x7 x8) in let! x10 := (Ok (OOp EQ)) in let! x11 := (Ok (OStr ($"tag_value2"))) in mk_condition x9 x10 x11) in let! x12 := (let! x15 := (let! x13 := (Ok (OStr ($"tag"))) in let! x14 := (Ok ONone) in mk_column x13 x14) in let! x16 := (Ok (OOp EQ)) in let! x17 := (Ok (OStr ($"tag_value"))) in mk_condition x15 x16 x17) in Ok (OList [x6; x12])) in let! x22 := (Ok ONone) in mk_timeseries x18 x19 x20 x21 x22) in Ok (VTS t)) in let! x23 := (let! t := (let! x27 := (let! m := (let! x24 := (Ok (OStr ($"bar"))) in let! x25 := (Ok ONone) in let! x26 := (Ok ONone) in mk_metric x24 x25 x26) in Ok (VMetric m)) in let! x28 := (Ok (OStr ($"sum"))) in let! x29 := (Ok ONone) in let! x30 := (Ok ONone) in let! x31 := (Ok ONone) in mk_timeseries x27 x28 x29 x30 x31) in Ok (VTS t)) in let! x32 := (Ok (OStr ($"divide"))) in let! x33 := (Ok ONone) in let! x34 := (let! x35 := (let! x38 := (let! x36 := (Ok (OStr ($"tag3"))) in let! x37 := (Ok ONone) in mk_column x36 x37) in let! x39 := (Ok (OOp EQ)) in let! x40 := (Ok (OStr ($"tag_value3"))) in mk_condition x38 x39 x40) in Ok (OList [x35])) in let! x41 := (Ok ONone) in Ok (VFormula x32 (Some KList) [x2; x23] x33 x34 x41)) in let! x42 := (let! t := (let! x46 := (let! m := (let! x43 := (Ok (OStr ($"pop"))) in let! x44 := (Ok ONone) in let! x45 := (Ok ONone) in mk_metric x43 x44 x45) in Ok (VMetric m)) in let! x47 := (Ok (OStr ($"sum"))) in let! x48 := (Ok ONone) in let! x49 := (Ok ONone) in let! x50 := (Ok ONone) in mk_timeseries x46 x47 x48 x49 x50) in Ok (VTS t)) in let! x51 := (Ok (OStr ($"multiply"))) in let! x52 := (Ok ONone) in let! x53 := (Ok ONone) in let! x54 := (let! x55 := (let! x56 := (Ok (OStr ($"transaction"))) in let! x57 := (Ok ONone) in mk_column x56 x57) in Ok (OList [x55])) in Ok (VFormula x51 (Some KList) [x1; x42] x52 x53 x54)) in print_mval v) ($"((sum(foo){tag2:""tag_value2"" AND tag:""tag_value""} / sum(bar)){tag3:""tag_value3""} * sum(pop)) by (transaction)") = true.
Proof. vm_compute. reflexivity. Qed.

(* test_formula_printer.py, line 202: test complex nested terms *)
Example t62_test_formula_printer : match (let! x1 := (let! x2 := (let! t := (let! x18 := (let! m := (let! x3 := (Ok (OStr ($"foo"))) in let! x4 := (Ok ONone) in let! x5 := (Ok ONone) in mk_metric x3 x4 x5) in Ok (VMetric m)) in let! x19 := (Ok (OStr ($"sum"))) in let! x20 := (Ok ONone) in let! x21 := (let! x6 := (let! x9 := (let! x7 := (Ok (OStr ($"tag2"))) in let! x8 := (Ok ONone) in mk_column x7 x8) in let! x10 := (Ok (OOp EQ)) in let! x11 := (Ok (OStr ($"tag_value2"))) in mk_condition x9 x10 x11) in let! x12 := (let! x15 := (let! x13 := (Ok (OStr ($"tag"))) in let! x14 := (Ok ONone) in mk_column x13 x14) in let! x16 := (Ok (OOp EQ)) in let! x17 := (Ok (OStr ($"tag_value"))) in mk_condition x15 x16 x17) in Ok (OList [x6; x12])) in let! x22 := (Ok ONone) in mk_timeseries x18 x19 x20 x21 x22) in Ok (VTS t)) in let! x23 := (let! t := (let! x27 := (let! m := (let! x24 := (Ok (OStr ($"bar"))) in let! x25 := (Ok ONone) in let! x26 := (Ok ONone) in mk_metric x24 x25 x26) in Ok (VMetric m)) in let! x28 := (Ok (OStr ($"sum"))) in let! x29 := (Ok ONone) in let! x30 := (Ok ONone) in let! x31 := (Ok ONone) in mk_timeseries x27 x28 x29 x30 x31) in Ok (VTS t)) in let! x32 := (Ok (OStr ($"divide"))) in let! x33 := (Ok ONone) in let! x34 := (let! x35 := (let! x38 := (let! x36 := (Ok (OStr ($"tag3"))) in let! x37 := (Ok ONone) in mk_column x36 x37) in let! x39 := (Ok (OOp EQ)) in let! x40 := (Ok (OStr ($"tag_value3"))) in mk_condition x38 x39 x40) in Ok (OList [x35])) in let! x41 := (Ok ONone) in Ok (VFormula x32 (Some KList) [x2; x23] x33 x34 x41)) in let! x42 := (let! t := (let! x46 := (let! m := (let! x43 := (Ok (OStr ($"pop"))) in let! x44 := (Ok ONone) in let! x45 := (Ok ONone) in mk_metric x43 x44 x45) in Ok (VMetric m)) in let! x47 := (Ok (OStr ($"sum"))) in let! x48 := (Ok ONone) in let! x49 := (Ok ONone) in let! x50 := (Ok ONone) in mk_timeseries x46 x47 x48 x49 x50) in Ok (VTS t)) in let! x51 := (Ok (OStr ($"multiply"))) in let! x52 := (Ok ONone) in let! x53 := (Ok ONone) in let! x54 := (let! x55 := (let! x56 := (Ok (OStr ($"transaction"))) in let! x57 := (Ok ONone) in mk_column x56 x57) in Ok (OList [x55])) in Ok (VFormula x51 (Some KList) [x1; x42] x52 x53 x54)), parse_mql ($"((sum(foo){tag2:""tag_value2"" AND tag:""tag_value""} / sum(bar)){tag3:""tag_value3""} * sum(pop)) by (transaction)") with Ok (VFormula _ _ _ _ f g), Ok (VFormula _ _ _ _ f1 g1) => py_eq f f1 && py_eq g g1 | _, _ => false end = true.
Proof. vm_compute. reflexivity. Qed.

(* test_formula_printer.py, line 234: test complex nested terms with OR condition *)
Example t63_test_formula_printer : same_str (let! v := (let! x1 := (let! x2 := (let! t := (let! x26 := (let! m := (let! x3 := (Ok (OStr ($"foo"))) in let! x4 := (Ok ONone) in let! x5 := (Ok ONone) in mk_metric x3 x4 x5) in Ok (VMetric m)) in let! x27 := (Ok (OStr ($"sum"))) in let! x28 := (Ok ONone) in let! x29 := (let! x6 := (let! x9 := (let! x7 := (Ok (OStr ($"tag2"))) in let! x8 := (Ok ONone) in mk_column x7 x8) in let! x10 := (Ok (OOp EQ)) in let! x11 := (Ok (OStr ($"tag_value2"))) in mk_condition x9 x10 x11) in let! x12 := (let! x25 := (let! x13 := (let! x16 := (let! x14 := (Ok (OStr ($"tag"))) in let! x15 := (Ok ONone) in mk_column x14 x15) in let! x17 := (Ok (OOp EQ)) in let! x18 := (Ok (OStr ($"tag_value"))) in mk_condition x16 x17 x18) in let! x19 := (let! x22 := (let! x20 := (Ok (OStr ($"tag"))) in let! x21 := (Ok ONone) in mk_column x20 x21) in let! x23 := (Ok (OOp EQ)) in let! x24 := (Ok (OStr ($"tag_valueor"))) in mk_condition x22 x23 x24) in Ok (OList [x13; x19])) in mk_or x25) in Ok (OList [x6; x12])) in let! x30 := (Ok ONone) in mk_timeseries x26 x27 x28 x29 x30) in Ok (VTS t)) in let! x31 := (let! t := (let! x35 := (let! m := (let! x32 := (Ok (OStr ($"bar"))) in let! x33 := (Ok ONone) in let! x34 := (Ok ONone) in mk_metric x32 x33 x34) in Ok (VMetric m)) in let! x36 := (Ok (OStr ($"sum"))) in let! x37 := (Ok ONone) in let! x38 := (Ok ONone) in let! x39 := (Ok ONone) in mk_timeseries x35 x36 x37 x38 x39) in Ok (VTS t)) in let! x40 := (Ok (OStr ($"divide"))) in let! x41 := (Ok ONone) in let! x42 := (let! x43 := (let! x46 := (let! x44 := (Ok (OStr ($"tag3"))) in let! x45 := (Ok ONone) in mk_column x44 x45) in let! x47 := (Ok (OOp EQ)) in let! x48 := (Ok (OStr ($"tag_value3"))) in mk_condition x46 x47 x48) in Ok (OList [x43])) in let! x49 := (Ok ONone) in Ok (VFormula x40 (Some KList) [x2; x31] x41 x42 x49)) in let! x50 := (let! t := (let! x54 := (let! m := (let! x51 := (Ok (OStr ($"pop"))) in let! x52 := (Ok ONone) in let! x53 := (Ok ONone) in mk_metric x51 x52 x53) in Ok (VMetric m)) in let! x55 := (Ok (OStr ($"sum"))) in let! x56 := (Ok ONone) in let! x57 := (Ok ONone) in let! x58 := (Ok ONone) in mk_timeseries x54 x55 x56 x57 x58) in Ok (VTS t)) in let! x59 := (Ok (OStr ($"multiply"))) in let! x60 := (Ok ONone) in let! x61 := (Ok ONone) in let! x62 := (let! x63 := (let! x64 := (Ok (OStr ($"transaction"))) in let! x65 := (Ok ONone) in mk_column x64 x65) in Ok (OList [x63])) in Ok (VFormula x59 (Some KList) [x1; x50] x60 x61 x62)) in print_mval v) ($"((sum(foo){tag2:""tag_value2"" AND (tag:""tag_value"" OR tag:""tag_valueor"")} / sum(bar)){tag3:""tag_value3""} * sum(pop)) by (transaction)") = true.
Proof. vm_compute. reflexivity. Qed.

(* test_formula_printer.py, line 234: test complex nested terms with OR condition *)
Example t64_test_formula_printer : match (let! x1 := (let! x2 := (let! t := (let! x26 := (let! m := (let! x3 := (Ok (OStr ($"foo"))) in let! x4 := (Ok ONone) in let! x5 := (Ok ONone) in mk_metric x3 x4 x5) in Ok (VMetric m)) in let! x27 := (Ok (OStr ($"sum"))) in let! x28 := (Ok ONone) in let! x29 := (let! x6 := (let! x9 := (let! x7 := (Ok (OStr ($"tag2"))) in let! x8 := (Ok ONone) in mk_column x7 x8) in let! x10 := (Ok (OOp EQ)) in let! x11 := (Ok (OStr ($"tag_value2"))) in mk_condition x9 x10 x11) in let! x12 := (let! x25 := (let! x13 := (let! x16 := (let! x14 := (Ok (OStr ($"tag"))) in let! x15 := (Ok ONone) in mk_column x14 x15) in let! x17 := (Ok (OOp EQ)) in let! x18 := (Ok (OStr ($"tag_value"))) in mk_condition x16 x17 x18) in let! x19 := (let! x22 := (let! x20 := (Ok (OStr ($"tag"))) in let! x21 := (Ok ONone) in mk_column x20 x21) in let! x23 := (Ok (OOp EQ)) in let! x24 := (Ok (OStr ($"tag_valueor"))) in mk_condition x22 x23 x24) in Ok (OList [x13; x19])) in mk_or x25) in Ok (OList [x6; x12])) in let! x30 := (Ok ONone) in mk_timeseries x26 x27 x28 x29 x30) in Ok (VTS t)) in let! x31 := (let! t := (let! x35 := (let! m := (let! x32 := (Ok (OStr ($"bar"))) in let! x33 := (Ok ONone) in let! x34 := (Ok ONone) in mk_metric x32 x33 x34) in Ok (VMetric m)) in let! x36 := (Ok (OStr ($"sum"))) in let! x37 := (Ok ONone) in let! x38 := (Ok ONone) in let! x39 := (Ok ONone) in mk_timeseries x35 x36 x37 x38 x39) in Ok (VTS t)) in let! x40 := (Ok (OStr ($"divide"))) in let! x41 := (Ok ONone) in let! x42 := (let! x43 := (let! x46 := (let! x44 := (Ok (OStr ($"tag3"))) in let! x45 := (Ok ONone) in mk_column x44 x45) in let! x47 := (Ok (OOp EQ)) in let! x48 := (Ok (OStr ($"tag_value3"))) in mk_condition x46 x47 x48) in Ok (OList [x43])) in let! x49 := (Ok ONone) in Ok (VFormula x40 (Some KList) [x2; x31] x41 x42 x49)) in let! x50 := (let! t := (let! x54 := (let! m := (let! x51 := (Ok (OStr ($"pop"))) in let! x52 := (Ok ONone) in let! x53 := (Ok ONone) in mk_metric x51 x52 x53) in Ok (VMetric m)) in let! x55 := (Ok (OStr ($"sum"))) in let! x56 := (Ok ONone) in let! x57 := (Ok ONone) in let! x58 := (Ok ONone) in mk_timeseries x54 x55 x56 x57 x58) in Ok (VTS t)) in let! x59 := (Ok (OStr ($"multiply"))) in let! x60 := (Ok ONone) in let! x61 := (Ok ONone) in let! x62 := (let! x63 := (let! x64 := (Ok (OStr ($"transaction"))) in let! x65 := (Ok ONone) in mk_column x64 x65) in Ok (OList [x63])) in Ok (VFormula x59 (Some KList) [x1; x50] x60 x61 x62)), parse_mql ($"((sum(foo){tag2:""tag_value2"" AND (tag:""tag_value"" OR tag:""tag_valueor"")} / sum(bar)){tag3:""tag_value3""} * sum(pop)) by (transaction)") with Ok (VFormula _ _ _ _ f g), Ok (VFormula _ _ _ _ f1 g1) => py_eq f f1 && py_eq g g1 | _, _ => false end = true.
Proof. vm_compute. reflexivity. Qed.

(* test_formula_printer.py, line 271: test arbitrary function with filters and groupby *)
Example t65_test_formula_printer : same_str (let! v := (let! x1 := (let! t := (let! x5 := (let! m := (let! x2 := (Ok (OStr ($"foo"))) in let! x3 := (Ok ONone) in let! x4 := (Ok ONone) in mk_metric x2 x3 x4) in Ok (VMetric m)) in let! x6 := (Ok (OStr ($"sum"))) in let! x7 := (Ok ONone) in let! x8 := (Ok ONone) in let! x9 := (Ok ONone) in mk_timeseries x5 x6 x7 x8 x9) in Ok (VTS t)) in let! x10 := (let! x11 := (Ok (OInt (500))) in Ok (VObj x11)) in let! x12 := (Ok (OStr ($"apdex"))) in let! x13 := (Ok ONone) in let! x14 := (let! x15 := (let! x18 := (let! x16 := (Ok (OStr ($"tag"))) in let! x17 := (Ok ONone) in mk_column x16 x17) in let! x19 := (Ok (OOp EQ)) in let! x20 := (Ok (OStr ($"tag_value"))) in mk_condition x18 x19 x20) in Ok (OList [x15])) in let! x21 := (let! x22 := (let! x23 := (Ok (OStr ($"transaction"))) in let! x24 := (Ok ONone) in mk_column x23 x24) in Ok (OList [x22])) in Ok (VFormula x12 (Some KList) [x1; x10] x13 x14 x21)) in print_mval v) ($"apdex(sum(foo), 500){tag:""tag_value""} by (transaction)") = true.
Proof. vm_compute. reflexivity. Qed.

(* test_formula_printer.py, line 271: test arbitrary function with filters and groupby *)
Example t66_test_formula_printer : match (let! x1 := (let! t := (let! x5 := (let! m := (let! x2 := (Ok (OStr ($"foo"))) in let! x3 := (Ok ONone) in let! x4 := (Ok ONone) in mk_metric x2 x3 x4) in Ok (VMetric m)) in let! x6 := (Ok (OStr ($"sum"))) in let! x7 := (Ok ONone) in let! x8 := (Ok ONone) in let! x9 := (Ok ONone) in mk_timeseries x5 x6 x7 x8 x9) in Ok (VTS t)) in let! x10 := (let! x11 := (Ok (OInt (500))) in Ok (VObj x11)) in let! x12 := (Ok (OStr ($"apdex"))) in let! x13 := (Ok ONone) in let! x14 := (let! x15 := (let! x18 := (let! x16 := (Ok (OStr ($"tag"))) in let! x17 := (Ok ONone) in mk_column x16 x17) in let! x19 := (Ok (OOp EQ)) in let! x20 := (Ok (OStr ($"tag_value"))) in mk_condition x18 x19 x20) in Ok (OList [x15])) in let! x21 := (let! x22 := (let! x23 := (Ok (OStr ($"transaction"))) in let! x24 := (Ok ONone) in mk_column x23 x24) in Ok (OList [x22])) in Ok (VFormula x12 (Some KList) [x1; x10] x13 x14 x21)), parse_mql ($"apdex(sum(foo), 500){tag:""tag_value""} by (transaction)") with Ok (VFormula _ _ _ _ f g), Ok (VFormula _ _ _ _ f1 g1) => py_eq f f1 && py_eq g g1 | _, _ => false end = true.
Proof. vm_compute. reflexivity. Qed.

(* test_formula_printer.py, line 287: test arbitrary function with filters, groupby, and terms *)
Example t67_test_formula_printer : same_str (let! v := (let! x1 := (let! x2 := (let! t := (let! x6 := (let! m := (let! x3 := (Ok (OStr ($"foo"))) in let! x4 := (Ok ONone) in let! x5 := (Ok ONone) in mk_metric x3 x4 x5) in Ok (VMetric m)) in let! x7 := (Ok (OStr ($"sum"))) in let! x8 := (Ok ONone) in let! x9 := (Ok ONone) in let! x10 := (Ok ONone) in mk_timeseries x6 x7 x8 x9 x10) in Ok (VTS t)) in let! x11 := (let! t := (let! x15 := (let! m := (let! x12 := (Ok (OStr ($"bar"))) in let! x13 := (Ok ONone) in let! x14 := (Ok ONone) in mk_metric x12 x13 x14) in Ok (VMetric m)) in let! x16 := (Ok (OStr ($"sum"))) in let! x17 := (Ok ONone) in let! x18 := (Ok ONone) in let! x19 := (Ok ONone) in mk_timeseries x15 x16 x17 x18 x19) in Ok (VTS t)) in let! x20 := (Ok (OStr ($"divide"))) in let! x21 := (Ok ONone) in let! x22 := (Ok ONone) in let! x23 := (Ok ONone) in Ok (VFormula x20 (Some KList) [x2; x11] x21 x22 x23)) in let! x24 := (let! x25 := (Ok (OInt (500))) in Ok (VObj x25)) in let! x26 := (Ok (OStr ($"apdex"))) in let! x27 := (Ok ONone) in let! x28 := (let! x29 := (let! x32 := (let! x30 := (Ok (OStr ($"tag"))) in let! x31 := (Ok ONone) in mk_column x30 x31) in let! x33 := (Ok (OOp EQ)) in let! x34 := (Ok (OStr ($"tag_value"))) in mk_condition x32 x33 x34) in Ok (OList [x29])) in let! x35 := (let! x36 := (let! x37 := (Ok (OStr ($"transaction"))) in let! x38 := (Ok ONone) in mk_column x37 x38) in Ok (OList [x36])) in Ok (VFormula x26 (Some KList) [x1; x24] x27 x28 x35)) in print_mval v) ($"apdex((sum(foo) / sum(bar)), 500){tag:""tag_value""} by (transaction)") = true.
Proof. vm_compute. reflexivity. Qed.

(* test_formula_printer.py, line 287: test arbitrary function with filters, groupby, and terms *)
Example t68_test_formula_printer : match (let! x1 := (let! x2 := (let! t := (let! x6 := (let! m := (let! x3 := (Ok (OStr ($"foo"))) in let! x4 := (Ok ONone) in let! x5 := (Ok ONone) in mk_metric x3 x4 x5) in Ok (VMetric m)) in let! x7 := (Ok (OStr ($"sum"))) in let! x8 := (Ok ONone) in let! x9 := (Ok ONone) in let! x10 := (Ok ONone) in mk_timeseries x6 x7 x8 x9 x10) in Ok (VTS t)) in let! x11 := (let! t := (let! x15 := (let! m := (let! x12 := (Ok (OStr ($"bar"))) in let! x13 := (Ok ONone) in let! x14 := (Ok ONone) in mk_metric x12 x13 x14) in Ok (VMetric m)) in let! x16 := (Ok (OStr ($"sum"))) in let! x17 := (Ok ONone) in let! x18 := (Ok ONone) in let! x19 := (Ok ONone) in mk_timeseries x15 x16 x17 x18 x19) in Ok (VTS t)) in let! x20 := (Ok (OStr ($"divide"))) in let! x21 := (Ok ONone) in let! x22 := (Ok ONone) in let! x23 := (Ok ONone) in Ok (VFormula x20 (Some KList) [x2; x11] x21 x22 x23)) in let! x24 := (let! x25 := (Ok (OInt (500))) in Ok (VObj x25)) in let! x26 := (Ok (OStr ($"apdex"))) in let! x27 := (Ok ONone) in let! x28 := (let! x29 := (let! x32 := (let! x30 := (Ok (OStr ($"tag"))) in let! x31 := (Ok ONone) in mk_column x30 x31) in let! x33 := (Ok (OOp EQ)) in let! x34 := (Ok (OStr ($"tag_value"))) in mk_condition x32 x33 x34) in Ok (OList [x29])) in let! x35 := (let! x36 := (let! x37 := (Ok (OStr ($"transaction"))) in let! x38 := (Ok ONone) in mk_column x37 x38) in Ok (OList [x36])) in Ok (VFormula x26 (Some KList) [x1; x24] x27 x28 x35)), parse_mql ($"apdex((sum(foo) / sum(bar)), 500){tag:""tag_value""} by (transaction)") with Ok (VFormula _ _ _ _ f g), Ok (VFormula _ _ _ _ f1 g1) => py_eq f f1 && py_eq g g1 | _, _ => false end = true.
Proof. vm_compute. reflexivity. Qed.

(* test_formula_printer.py, line 312: test arbitrary function with filters, groupby, and terms *)
Example t69_test_formula_printer : same_str (let! v := (let! x1 := (let! t := (let! x5 := (let! m := (let! x2 := (Ok (OStr ($"foo"))) in let! x3 := (Ok ONone) in let! x4 := (Ok ONone) in mk_metric x2 x3 x4) in Ok (VMetric m)) in let! x6 := (Ok (OStr ($"sum"))) in let! x7 := (Ok ONone) in let! x8 := (Ok ONone) in let! x9 := (Ok ONone) in mk_timeseries x5 x6 x7 x8 x9) in Ok (VTS t)) in let! x10 := (let! x11 := (Ok (OInt (500))) in Ok (VObj x11)) in let! x12 := (let! x13 := (Ok (OStr ($"random"))) in Ok (VObj x13)) in let! x14 := (let! x15 := (Ok (OStr ($"test"))) in Ok (VObj x15)) in let! x16 := (let! x17 := (Ok (OFloat (FFin false 4728779608739021%N (-50)))) in Ok (VObj x17)) in let! x18 := (Ok (OStr ($"topK"))) in let! x19 := (Ok ONone) in let! x20 := (let! x21 := (let! x24 := (let! x22 := (Ok (OStr ($"tag"))) in let! x23 := (Ok ONone) in mk_column x22 x23) in let! x25 := (Ok (OOp EQ)) in let! x26 := (Ok (OStr ($"tag_value"))) in mk_condition x24 x25 x26) in Ok (OList [x21])) in let! x27 := (let! x28 := (let! x29 := (Ok (OStr ($"transaction"))) in let! x30 := (Ok ONone) in mk_column x29 x30) in Ok (OList [x28])) in Ok (VFormula x18 (Some KList) [x1; x10; x12; x14; x16] x19 x20 x27)) in print_mval v) ($"topK(sum(foo), 500, random, test, 4.2){tag:""tag_value""} by (transaction)") = true.
Proof. vm_compute. reflexivity. Qed.

(* test_formula_printer.py, line 312: test arbitrary function with filters, groupby, and terms *)
Example t70_test_formula_printer : match (let! x1 := (let! t := (let! x5 := (let! m := (let! x2 := (Ok (OStr ($"foo"))) in let! x3 := (Ok ONone) in let! x4 := (Ok ONone) in mk_metric x2 x3 x4) in Ok (VMetric m)) in let! x6 := (Ok (OStr ($"sum"))) in let! x7 := (Ok ONone) in let! x8 := (Ok ONone) in let! x9 := (Ok ONone) in mk_timeseries x5 x6 x7 x8 x9) in Ok (VTS t)) in let! x10 := (let! x11 := (Ok (OInt (500))) in Ok (VObj x11)) in let! x12 := (let! x13 := (Ok (OStr ($"random"))) in Ok (VObj x13)) in let! x14 := (let! x15 := (Ok (OStr ($"test"))) in Ok (VObj x15)) in let! x16 := (let! x17 := (Ok (OFloat (FFin false 4728779608739021%N (-50)))) in Ok (VObj x17)) in let! x18 := (Ok (OStr ($"topK"))) in let! x19 := (Ok ONone) in let! x20 := (let! x21 := (let! x24 := (let! x22 := (Ok (OStr ($"tag"))) in let! x23 := (Ok ONone) in mk_column x22 x23) in let! x25 := (Ok (OOp EQ)) in let! x26 := (Ok (OStr ($"tag_value"))) in mk_condition x24 x25 x26) in Ok (OList [x21])) in let! x27 := (let! x28 := (let! x29 := (Ok (OStr ($"transaction"))) in let! x30 := (Ok ONone) in mk_column x29 x30) in Ok (OList [x28])) in Ok (VFormula x18 (Some KList) [x1; x10; x12; x14; x16] x19 x20 x27)), parse_mql ($"topK(sum(foo), 500, random, test, 4.2){tag:""tag_value""} by (transaction)") with Ok (VFormula _ _ _ _ f g), Ok (VFormula _ _ _ _ f1 g1) => py_eq f f1 && py_eq g g1 | _, _ => false end = true.
Proof. vm_compute. reflexivity. Qed.

(* test_formula_printer.py, line 331: test arbitrary functions *)
Example t71_test_formula_printer : same_str (let! v := (let! x1 := (let! x2 := (let! t := (let! x6 := (let! m := (let! x3 := (Ok (OStr ($"foo"))) in let! x4 := (Ok ONone) in let! x5 := (Ok ONone) in mk_metric x3 x4 x5) in Ok (VMetric m)) in let! x7 := (Ok (OStr ($"sum"))) in let! x8 := (Ok ONone) in let! x9 := (Ok ONone) in let! x10 := (Ok ONone) in mk_timeseries x6 x7 x8 x9 x10) in Ok (VTS t)) in let! x11 := (let! x12 := (Ok (OInt (500))) in Ok (VObj x12)) in let! x13 := (Ok (OStr ($"apdex"))) in let! x14 := (Ok ONone) in let! x15 := (Ok ONone) in let! x16 := (Ok ONone) in Ok (VFormula x13 (Some KList) [x2; x11] x14 x15 x16)) in let! x17 := (let! x18 := (let! t := (let! x22 := (let! m := (let! x19 := (Ok (OStr ($"foo"))) in let! x20 := (Ok ONone) in let! x21 := (Ok ONone) in mk_metric x19 x20 x21) in Ok (VMetric m)) in let! x23 := (Ok (OStr ($"sum"))) in let! x24 := (Ok ONone) in let! x25 := (Ok ONone) in let! x26 := (Ok ONone) in mk_timeseries x22 x23 x24 x25 x26) in Ok (VTS t)) in let! x27 := (let! x28 := (Ok (OInt (400))) in Ok (VObj x28)) in let! x29 := (Ok (OStr ($"apdex"))) in let! x30 := (Ok ONone) in let! x31 := (Ok ONone) in let! x32 := (Ok ONone) in Ok (VFormula x29 (Some KList) [x18; x27] x30 x31 x32)) in let! x33 := (Ok (OStr ($"multiply"))) in let! x34 := (Ok ONone) in let! x35 := (let! x36 := (let! x39 := (let! x37 := (Ok (OStr ($"tag"))) in let! x38 := (Ok ONone) in mk_column x37 x38) in let! x40 := (Ok (OOp EQ)) in let! x41 := (Ok (OStr ($"tag_value"))) in mk_condition x39 x40 x41) in Ok (OList [x36])) in let! x42 := (let! x43 := (let! x44 := (Ok (OStr ($"transaction"))) in let! x45 := (Ok ONone) in mk_column x44 x45) in Ok (OList [x43])) in Ok (VFormula x33 (Some KList) [x1; x17] x34 x35 x42)) in print_mval v) ($"(apdex(sum(foo), 500) * apdex(sum(foo), 400)){tag:""tag_value""} by (transaction)") = true.
Proof. vm_compute. reflexivity. Qed.

(* test_formula_printer.py, line 331: test arbitrary functions *)
Example t72_test_formula_printer : match (let! x1 := (let! x2 := (let! t := (let! x6 := (let! m := (let! x3 := (Ok (OStr ($"foo"))) in let! x4 := (Ok ONone) in let! x5 := (Ok ONone) in mk_metric x3 x4 x5) in Ok (VMetric m)) in let! x7 := (Ok (OStr ($"sum"))) in let! x8 := (Ok ONone) in let! x9 := (Ok ONone) in let! x10 := (Ok ONone) in mk_timeseries x6 x7 x8 x9 x10) in Ok (VTS t)) in let! x11 := (let! x12 := (Ok (OInt (500))) in Ok (VObj x12)) in let! x13 := (Ok (OStr ($"apdex"))) in let! x14 := (Ok ONone) in let! x15 := (Ok ONone) in let! x16 := (Ok ONone) in Ok (VFormula x13 (Some KList) [x2; x11] x14 x15 x16)) in let! x17 := (let! x18 := (let! t := (let! x22 := (let! m := (let! x19 := (Ok (OStr ($"foo"))) in let! x20 := (Ok ONone) in let! x21 := (Ok ONone) in mk_metric x19 x20 x21) in Ok (VMetric m)) in let! x23 := (Ok (OStr ($"sum"))) in let! x24 := (Ok ONone) in let! x25 := (Ok ONone) in let! x26 := (Ok ONone) in mk_timeseries x22 x23 x24 x25 x26) in Ok (VTS t)) in let! x27 := (let! x28 := (Ok (OInt (400))) in Ok (VObj x28)) in let! x29 := (Ok (OStr ($"apdex"))) in let! x30 := (Ok ONone) in let! x31 := (Ok ONone) in let! x32 := (Ok ONone) in Ok (VFormula x29 (Some KList) [x18; x27] x30 x31 x32)) in let! x33 := (Ok (OStr ($"multiply"))) in let! x34 := (Ok ONone) in let! x35 := (let! x36 := (let! x39 := (let! x37 := (Ok (OStr ($"tag"))) in let! x38 := (Ok ONone) in mk_column x37 x38) in let! x40 := (Ok (OOp EQ)) in let! x41 := (Ok (OStr ($"tag_value"))) in mk_condition x39 x40 x41) in Ok (OList [x36])) in let! x42 := (let! x43 := (let! x44 := (Ok (OStr ($"transaction"))) in let! x45 := (Ok ONone) in mk_column x44 x45) in Ok (OList [x43])) in Ok (VFormula x33 (Some KList) [x1; x17] x34 x35 x42)), parse_mql ($"(apdex(sum(foo), 500) * apdex(sum(foo), 400)){tag:""tag_value""} by (transaction)") with Ok (VFormula _ _ _ _ f g), Ok (VFormula _ _ _ _ f1 g1) => py_eq f f1 && py_eq g g1 | _, _ => false end = true.
Proof. vm_compute. reflexivity. Qed.

(* test_formula_printer.py, line 362: test arbitrary functions *)
Example t73_test_formula_printer : same_str (let! v := (let! x1 := (let! t := (let! x6 := (let! m := (let! x2 := (Ok (OStr ($"foo"))) in let! x3 := (Ok ONone) in let! x4 := (Ok ONone) in mk_metric x2 x3 x4) in Ok (VMetric m)) in let! x7 := (Ok (OStr ($"quantiles"))) in let! x8 := (let! x5 := (Ok (OFloat (FFin false 1%N (-1)))) in Ok (OList [x5])) in let! x9 := (Ok ONone) in let! x10 := (Ok ONone) in mk_timeseries x6 x7 x8 x9 x10) in Ok (VTS t)) in let! x11 := (let! x12 := (Ok (OInt (500))) in Ok (VObj x12)) in let! x13 := (Ok (OStr ($"apdex"))) in let! x14 := (Ok ONone) in let! x15 := (let! x16 := (let! x19 := (let! x17 := (Ok (OStr ($"tag"))) in let! x18 := (Ok ONone) in mk_column x17 x18) in let! x20 := (Ok (OOp EQ)) in let! x21 := (Ok (OStr ($"tag_value"))) in mk_condition x19 x20 x21) in Ok (OList [x16])) in let! x22 := (let! x23 := (let! x24 := (Ok (OStr ($"transaction"))) in let! x25 := (Ok ONone) in mk_column x24 x25) in Ok (OList [x23])) in Ok (VFormula x13 (Some KList) [x1; x11] x14 x15 x22)) in print_mval v) ($"apdex(quantiles(0.5)(foo), 500){tag:""tag_value""} by (transaction)") = true.
Proof. vm_compute. reflexivity. Qed.

(* test_formula_printer.py, line 362: test arbitrary functions *)
Example t74_test_formula_printer : match (let! x1 := (let! t := (let! x6 := (let! m := (let! x2 := (Ok (OStr ($"foo"))) in let! x3 := (Ok ONone) in let! x4 := (Ok ONone) in mk_metric x2 x3 x4) in Ok (VMetric m)) in let! x7 := (Ok (OStr ($"quantiles"))) in let! x8 := (let! x5 := (Ok (OFloat (FFin false 1%N (-1)))) in Ok (OList [x5])) in let! x9 := (Ok ONone) in let! x10 := (Ok ONone) in mk_timeseries x6 x7 x8 x9 x10) in Ok (VTS t)) in let! x11 := (let! x12 := (Ok (OInt (500))) in Ok (VObj x12)) in let! x13 := (Ok (OStr ($"apdex"))) in let! x14 := (Ok ONone) in let! x15 := (let! x16 := (let! x19 := (let! x17 := (Ok (OStr ($"tag"))) in let! x18 := (Ok ONone) in mk_column x17 x18) in let! x20 := (Ok (OOp EQ)) in let! x21 := (Ok (OStr ($"tag_value"))) in mk_condition x19 x20 x21) in Ok (OList [x16])) in let! x22 := (let! x23 := (let! x24 := (Ok (OStr ($"transaction"))) in let! x25 := (Ok ONone) in mk_column x24 x25) in Ok (OList [x23])) in Ok (VFormula x13 (Some KList) [x1; x11] x14 x15 x22)), parse_mql ($"apdex(quantiles(0.5)(foo), 500){tag:""tag_value""} by (transaction)") with Ok (VFormula _ _ _ _ f g), Ok (VFormula _ _ _ _ f1 g1) => py_eq f f1 && py_eq g g1 | _, _ => false end = true.
Proof. vm_compute. reflexivity. Qed.

(* test_metrics_expressions.py, line 14: 1 *)
Example t75_test_metrics_expressions : same_dict (let! r := (let! x1 := (Ok (OInt (60))) in let! x2 := (Ok ONone) in let! x3 := (Ok ONone) in let! x4 := (Ok (OInt (60))) in mk_rollup x1 x2 x3 x4) in Ok (rollup_dict r)) (let! x5 := (Ok (OInt (60))) in let! x6 := (Ok (OInt (60))) in let! x7 := (Ok ONone) in let! x8 := (Ok ONone) in Ok (ODict [($"granularity"); ($"interval"); ($"orderby"); ($"with_totals")] [x5; x6; x7; x8])) = true.
Proof. vm_compute. reflexivity. Qed.

(* test_metrics_expressions.py, line 23: 2 *)
Example t76_test_metrics_expressions : same_dict (let! r := (let! x1 := (Ok (OInt (3600))) in let! x2 := (Ok ONone) in let! x3 := (Ok ONone) in let! x4 := (Ok (OInt (60))) in mk_rollup x1 x2 x3 x4) in Ok (rollup_dict r)) (let! x5 := (Ok (OInt (60))) in let! x6 := (Ok (OInt (3600))) in let! x7 := (Ok ONone) in let! x8 := (Ok ONone) in Ok (ODict [($"granularity"); ($"interval"); ($"orderby"); ($"with_totals")] [x5; x6; x7; x8])) = true.
Proof. vm_compute. reflexivity. Qed.

(* test_metrics_expressions.py, line 32: 3 *)
Example t77_test_metrics_expressions : fails (let! x1 := (Ok ONone) in let! x2 := (Ok ONone) in let! x3 := (Ok ONone) in let! x4 := (Ok (OInt (60))) in mk_rollup x1 x2 x3 x4) is_invalid_expression = true.
Proof. vm_compute. reflexivity. Qed.

(* test_metrics_expressions.py, line 41: 4 *)
Example t78_test_metrics_expressions : same_dict (let! r := (let! x1 := (Ok ONone) in let! x2 := (Ok (OBool true)) in let! x3 := (Ok (ODir ASC)) in let! x4 := (Ok (OInt (60))) in mk_rollup x1 x2 x3 x4) in Ok (rollup_dict r)) (let! x5 := (Ok (OInt (60))) in let! x6 := (Ok ONone) in let! x7 := (Ok (OStr ($"ASC"))) in let! x8 := (Ok (OStr ($"True"))) in Ok (ODict [($"granularity"); ($"interval"); ($"orderby"); ($"with_totals")] [x5; x6; x7; x8])) = true.
Proof. vm_compute. reflexivity. Qed.

(* test_metrics_expressions.py, line 50: 5 *)
Example t79_test_metrics_expressions : fails (let! x1 := (Ok (OStr ($"61"))) in let! x2 := (Ok ONone) in let! x3 := (Ok ONone) in let! x4 := (Ok (OInt (60))) in mk_rollup x1 x2 x3 x4) is_invalid_expression = true.
Proof. vm_compute. reflexivity. Qed.

(* test_metrics_expressions.py, line 59: 6 *)
Example t80_test_metrics_expressions : fails (let! x2 := (Ok ONone) in let! x3 := (let! x1 := (Ok (OBool true)) in mk_totals x1) in let! x4 := (Ok ONone) in let! x5 := (Ok (OInt (60))) in mk_rollup x2 x3 x4 x5) is_invalid_expression = true.
Proof. vm_compute. reflexivity. Qed.

(* test_metrics_expressions.py, line 68: 7 *)
Example t81_test_metrics_expressions : same_dict (let! r := (let! x1 := (Ok (OInt (60))) in let! x2 := (Ok (OBool true)) in let! x3 := (Ok ONone) in let! x4 := (Ok (OInt (60))) in mk_rollup x1 x2 x3 x4) in Ok (rollup_dict r)) (let! x5 := (Ok (OInt (60))) in let! x6 := (Ok (OInt (60))) in let! x7 := (Ok ONone) in let! x8 := (Ok (OStr ($"True"))) in Ok (ODict [($"granularity"); ($"interval"); ($"orderby"); ($"with_totals")] [x5; x6; x7; x8])) = true.
Proof. vm_compute. reflexivity. Qed.

(* test_metrics_expressions.py, line 77: 8 *)
Example t82_test_metrics_expressions : fails (let! x1 := (Ok ONone) in let! x2 := (Ok (OStr ($"False"))) in let! x3 := (Ok ONone) in let! x4 := (Ok (OInt (60))) in mk_rollup x1 x2 x3 x4) is_invalid_expression = true.
Proof. vm_compute. reflexivity. Qed.

(* test_metrics_expressions.py, line 86: 9 *)
Example t83_test_metrics_expressions : fails (let! x1 := (Ok (OInt (60))) in let! x2 := (Ok ONone) in let! x3 := (Ok (OInt (6))) in let! x4 := (Ok (OInt (60))) in mk_rollup x1 x2 x3 x4) is_invalid_expression = true.
Proof. vm_compute. reflexivity. Qed.

(* test_metrics_expressions.py, line 95: 10 *)
Example t84_test_metrics_expressions : same_dict (let! r := (let! x1 := (Ok (OInt (60))) in let! x2 := (Ok ONone) in let! x3 := (Ok ONone) in let! x4 := (Ok ONone) in mk_rollup x1 x2 x3 x4) in Ok (rollup_dict r)) (let! x5 := (Ok ONone) in let! x6 := (Ok (OInt (60))) in let! x7 := (Ok ONone) in let! x8 := (Ok ONone) in Ok (ODict [($"granularity"); ($"interval"); ($"orderby"); ($"with_totals")] [x5; x6; x7; x8])) = true.
Proof. vm_compute. reflexivity. Qed.

(* test_metrics_expressions.py, line 104: 11 *)
Example t85_test_metrics_expressions : fails (let! x1 := (Ok (OInt (60))) in let! x2 := (Ok ONone) in let! x3 := (Ok (OInt (6))) in let! x4 := (Ok (OStr ($"60"))) in mk_rollup x1 x2 x3 x4) is_invalid_expression = true.
Proof. vm_compute. reflexivity. Qed.

(* test_metrics_expressions.py, line 113: 12 *)
Example t86_test_metrics_expressions : fails (let! x1 := (Ok (OInt (60))) in let! x2 := (Ok ONone) in let! x3 := (Ok ONone) in let! x4 := (Ok (OInt (61))) in mk_rollup x1 x2 x3 x4) is_invalid_expression = true.
Proof. vm_compute. reflexivity. Qed.

(* test_metrics_expressions.py, line 122: 13 *)
Example t87_test_metrics_expressions : fails (let! x1 := (Ok (OInt (60))) in let! x2 := (Ok ONone) in let! x3 := (Ok ONone) in let! x4 := (Ok (OInt (3600))) in mk_rollup x1 x2 x3 x4) is_invalid_expression = true.
Proof. vm_compute. reflexivity. Qed.

(* test_metrics_expressions.py, line 158:  *)
Example t88_test_metrics_expressions : same_dict (let! r := (let! x3 := (let! x1 := (Ok (OInt (1))) in Ok (OList [x1])) in let! x4 := (let! x2 := (Ok (OInt (11))) in Ok (OList [x2])) in let! x5 := (Ok (OStr ($"transactions"))) in mk_scope x3 x4 x5) in Ok (scope_dict r)) (let! x6 := (let! x7 := (Ok (OInt (1))) in Ok (OList [x7])) in let! x8 := (let! x9 := (Ok (OInt (11))) in Ok (OList [x9])) in let! x10 := (Ok (OStr ($"transactions"))) in Ok (ODict [($"org_ids"); ($"project_ids"); ($"use_case_id")] [x6; x8; x10])) = true.
Proof. vm_compute. reflexivity. Qed.

(* test_metrics_expressions.py, line 165:  *)
Example t89_test_metrics_expressions : same_dict (let! r := (let! x5 := (let! x1 := (Ok (OInt (1))) in let! x2 := (Ok (OInt (2))) in Ok (OList [x1; x2])) in let! x6 := (let! x3 := (Ok (OInt (11))) in let! x4 := (Ok (OInt (12))) in Ok (OList [x3; x4])) in let! x7 := (Ok (OStr ($"transactions"))) in mk_scope x5 x6 x7) in Ok (scope_dict r)) (let! x8 := (let! x9 := (Ok (OInt (1))) in let! x10 := (Ok (OInt (2))) in Ok (OList [x9; x10])) in let! x11 := (let! x12 := (Ok (OInt (11))) in let! x13 := (Ok (OInt (12))) in Ok (OList [x12; x13])) in let! x14 := (Ok (OStr ($"transactions"))) in Ok (ODict [($"org_ids"); ($"project_ids"); ($"use_case_id")] [x8; x11; x14])) = true.
Proof. vm_compute. reflexivity. Qed.

(* test_metrics_expressions.py, line 172:  *)
Example t90_test_metrics_expressions : passes (let! x5 := (let! x1 := (Ok (OInt (1))) in let! x2 := (Ok (OInt (2))) in Ok (OList [x1; x2])) in let! x6 := (let! x3 := (Ok (OInt (11))) in let! x4 := (Ok (OInt (12))) in Ok (OList [x3; x4])) in let! x7 := (Ok ONone) in mk_scope x5 x6 x7) = true.
Proof. vm_compute. reflexivity. Qed.

(* test_metrics_expressions.py, line 173:  *)
Example t91_test_metrics_expressions : fails (let! x3 := (Ok (OStr ($"1"))) in let! x4 := (let! x1 := (Ok (OInt (11))) in let! x2 := (Ok (OInt (12))) in Ok (OList [x1; x2])) in let! x5 := (Ok (OStr ($"transactions"))) in mk_scope x3 x4 x5) is_invalid_expression = true.
Proof. vm_compute. reflexivity. Qed.

(* test_metrics_expressions.py, line 180:  *)
Example t92_test_metrics_expressions : fails (let! x5 := (let! x1 := (Ok (OInt (1))) in let! x2 := (Ok (OStr ($"2"))) in Ok (OList [x1; x2])) in let! x6 := (let! x3 := (Ok (OInt (11))) in let! x4 := (Ok (OInt (12))) in Ok (OList [x3; x4])) in let! x7 := (Ok (OStr ($"transactions"))) in mk_scope x5 x6 x7) is_invalid_expression = true.
Proof. vm_compute. reflexivity. Qed.

(* test_metrics_expressions.py, line 187:  *)
Example t93_test_metrics_expressions : fails (let! x3 := (Ok ONone) in let! x4 := (let! x1 := (Ok (OInt (11))) in let! x2 := (Ok (OInt (12))) in Ok (OList [x1; x2])) in let! x5 := (Ok (OStr ($"transactions"))) in mk_scope x3 x4 x5) is_invalid_expression = true.
Proof. vm_compute. reflexivity. Qed.

(* test_metrics_expressions.py, line 194:  *)
Example t94_test_metrics_expressions : fails (let! x3 := (let! x1 := (Ok (OInt (1))) in let! x2 := (Ok (OInt (2))) in Ok (OList [x1; x2])) in let! x4 := (Ok (OStr ($"12"))) in let! x5 := (Ok (OStr ($"transactions"))) in mk_scope x3 x4 x5) is_invalid_expression = true.
Proof. vm_compute. reflexivity. Qed.

(* test_metrics_expressions.py, line 201:  *)
Example t95_test_metrics_expressions : fails (let! x5 := (let! x1 := (Ok (OInt (1))) in let! x2 := (Ok (OInt (2))) in Ok (OList [x1; x2])) in let! x6 := (let! x3 := (Ok (OInt (11))) in let! x4 := (Ok (OStr ($"12"))) in Ok (OList [x3; x4])) in let! x7 := (Ok (OStr ($"transactions"))) in mk_scope x5 x6 x7) is_invalid_expression = true.
Proof. vm_compute. reflexivity. Qed.

(* test_metrics_expressions.py, line 208:  *)
Example t96_test_metrics_expressions : fails (let! x3 := (let! x1 := (Ok (OInt (1))) in let! x2 := (Ok (OInt (2))) in Ok (OList [x1; x2])) in let! x4 := (Ok ONone) in let! x5 := (Ok (OStr ($"transactions"))) in mk_scope x3 x4 x5) is_invalid_expression = true.
Proof. vm_compute. reflexivity. Qed.

(* test_metrics_expressions.py, line 215:  *)
Example t97_test_metrics_expressions : fails (let! x5 := (let! x1 := (Ok (OInt (1))) in let! x2 := (Ok (OInt (2))) in Ok (OList [x1; x2])) in let! x6 := (let! x3 := (Ok (OInt (11))) in let! x4 := (Ok (OInt (12))) in Ok (OList [x3; x4])) in let! x7 := (Ok (OInt (111))) in mk_scope x5 x6 x7) is_invalid_expression = true.
Proof. vm_compute. reflexivity. Qed.

(* test_metrics_mql_query.py, line 23: basic mri query *)
Example t98_test_metrics_mql_query : passes (let! q := (let! x1 := (let! t := (let! x5 := (let! m := (let! x2 := (Ok ONone) in let! x3 := (Ok (OStr ($"d:transactions/duration@millisecond"))) in let! x4 := (Ok ONone) in mk_metric x2 x3 x4) in Ok (VMetric m)) in let! x6 := (Ok (OStr ($"max"))) in let! x7 := (Ok ONone) in let! x8 := (Ok ONone) in let! x9 := (Ok ONone) in mk_timeseries x5 x6 x7 x8 x9) in Ok (VTS t)) in let! x10 := (let! x11 := (Ok (ODateTime (mkDT (mkDate 2023 1 2) 3 4 5 0 (Some 0)))) in Ok (VObj x11)) in let! x12 := (let! x13 := (Ok (ODateTime (mkDT (mkDate 2023 1 16) 3 4 5 0 (Some 0)))) in Ok (VObj x13)) in let! x14 := (let! t := (let! x15 := (Ok (OInt (3600))) in let! x16 := (Ok ONone) in let! x17 := (Ok ONone) in let! x18 := (Ok (OInt (3600))) in mk_rollup x15 x16 x17 x18) in Ok (VRollup t)) in let! x19 := (let! t := (let! x22 := (let! x20 := (Ok (OInt (1))) in Ok (OList [x20])) in let! x23 := (let! x21 := (Ok (OInt (11))) in Ok (OList [x21])) in let! x24 := (Ok (OStr ($"transactions"))) in mk_scope x22 x23 x24) in Ok (VScope t)) in let! x25 := (Ok VNone) in let! x26 := (Ok VNone) in let! x27 := (Ok VNone) in let! x28 := (let! x29 := (Ok (ODict [] [])) in Ok (VObj x29)) in Ok (mkMQ x1 x10 x12 x14 x19 x25 x26 x27 x28)) in mq_validate q) = true.
Proof. vm_compute. reflexivity. Qed.

(* test_metrics_mql_query.py, line 23: basic mri query *)
Example t99_test_metrics_mql_query : same_str (let! q := (let! x1 := (let! t := (let! x5 := (let! m := (let! x2 := (Ok ONone) in let! x3 := (Ok (OStr ($"d:transactions/duration@millisecond"))) in let! x4 := (Ok ONone) in mk_metric x2 x3 x4) in Ok (VMetric m)) in let! x6 := (Ok (OStr ($"max"))) in let! x7 := (Ok ONone) in let! x8 := (Ok ONone) in let! x9 := (Ok ONone) in mk_timeseries x5 x6 x7 x8 x9) in Ok (VTS t)) in let! x10 := (let! x11 := (Ok (ODateTime (mkDT (mkDate 2023 1 2) 3 4 5 0 (Some 0)))) in Ok (VObj x11)) in let! x12 := (let! x13 := (Ok (ODateTime (mkDT (mkDate 2023 1 16) 3 4 5 0 (Some 0)))) in Ok (VObj x13)) in let! x14 := (let! t := (let! x15 := (Ok (OInt (3600))) in let! x16 := (Ok ONone) in let! x17 := (Ok ONone) in let! x18 := (Ok (OInt (3600))) in mk_rollup x15 x16 x17 x18) in Ok (VRollup t)) in let! x19 := (let! t := (let! x22 := (let! x20 := (Ok (OInt (1))) in Ok (OList [x20])) in let! x23 := (let! x21 := (Ok (OInt (11))) in Ok (OList [x21])) in let! x24 := (Ok (OStr ($"transactions"))) in mk_scope x22 x23 x24) in Ok (VScope t)) in let! x25 := (Ok VNone) in let! x26 := (Ok VNone) in let! x27 := (Ok VNone) in let! x28 := (let! x29 := (Ok (ODict [] [])) in Ok (VObj x29)) in Ok (mkMQ x1 x10 x12 x14 x19 x25 x26 x27 x28)) in let! r := snd (mq_serialize q) in Ok (fst r)) ($"max(d:transactions/duration@millisecond)") = true.
Proof. vm_compute. reflexivity. Qed.

(* test_metrics_mql_query.py, line 23: basic mri query *)
Example t100_test_metrics_mql_query : same_dict (let! q := (let! x1 := (let! t := (let! x5 := (let! m := (let! x2 := (Ok ONone) in let! x3 := (Ok (OStr ($"d:transactions/duration@millisecond"))) in let! x4 := (Ok ONone) in mk_metric x2 x3 x4) in Ok (VMetric m)) in let! x6 := (Ok (OStr ($"max"))) in let! x7 := (Ok ONone) in let! x8 := (Ok ONone) in let! x9 := (Ok ONone) in mk_timeseries x5 x6 x7 x8 x9) in Ok (VTS t)) in let! x10 := (let! x11 := (Ok (ODateTime (mkDT (mkDate 2023 1 2) 3 4 5 0 (Some 0)))) in Ok (VObj x11)) in let! x12 := (let! x13 := (Ok (ODateTime (mkDT (mkDate 2023 1 16) 3 4 5 0 (Some 0)))) in Ok (VObj x13)) in let! x14 := (let! t := (let! x15 := (Ok (OInt (3600))) in let! x16 := (Ok ONone) in let! x17 := (Ok ONone) in let! x18 := (Ok (OInt (3600))) in mk_rollup x15 x16 x17 x18) in Ok (VRollup t)) in let! x19 := (let! t := (let! x22 := (let! x20 := (Ok (OInt (1))) in Ok (OList [x20])) in let! x23 := (let! x21 := (Ok (OInt (11))) in Ok (OList [x21])) in let! x24 := (Ok (OStr ($"transactions"))) in mk_scope x22 x23 x24) in Ok (VScope t)) in let! x25 := (Ok VNone) in let! x26 := (Ok VNone) in let! x27 := (Ok VNone) in let! x28 := (let! x29 := (Ok (ODict [] [])) in Ok (VObj x29)) in Ok (mkMQ x1 x10 x12 x14 x19 x25 x26 x27 x28)) in let! r := snd (mq_serialize q) in Ok (snd r)) (let! x30 := (Ok (OStr ($"2023-01-02T03:04:05+00:00"))) in let! x31 := (Ok (OStr ($"2023-01-16T03:04:05+00:00"))) in let! x32 := (let! x33 := (Ok ONone) in let! x34 := (Ok (OInt (3600))) in let! x35 := (Ok (OInt (3600))) in let! x36 := (Ok ONone) in Ok (ODict [($"orderby"); ($"granularity"); ($"interval"); ($"with_totals")] [x33; x34; x35; x36])) in let! x37 := (let! x38 := (let! x39 := (Ok (OInt (1))) in Ok (OList [x39])) in let! x40 := (let! x41 := (Ok (OInt (11))) in Ok (OList [x41])) in let! x42 := (Ok (OStr ($"transactions"))) in Ok (ODict [($"org_ids"); ($"project_ids"); ($"use_case_id")] [x38; x40; x42])) in let! x43 := (Ok ONone) in let! x44 := (Ok ONone) in let! x45 := (Ok ONone) in let! x46 := (Ok (ODict [] [])) in Ok (ODict [($"start"); ($"end"); ($"rollup"); ($"scope"); ($"limit"); ($"offset"); ($"extrapolate"); ($"indexer_mappings")] [x30; x31; x32; x37; x43; x44; x45; x46])) = true.
Proof. vm_compute. reflexivity. Qed.

(* test_metrics_mql_query.py, line 23: basic mri query *)
Example t101_test_metrics_mql_query : passes (parse_mql ($"max(d:transactions/duration@millisecond)")) = true.
Proof. vm_compute. reflexivity. Qed.

(* test_metrics_mql_query.py, line 66: basic curried query *)
Example t102_test_metrics_mql_query : passes (let! q := (let! x1 := (let! t := (let! x6 := (let! m := (let! x2 := (Ok ONone) in let! x3 := (Ok (OStr ($"d:transactions/duration@millisecond"))) in let! x4 := (Ok ONone) in mk_metric x2 x3 x4) in Ok (VMetric m)) in let! x7 := (Ok (OStr ($"quantiles"))) in let! x8 := (let! x5 := (Ok (OFloat (FFin false 1%N (-1)))) in Ok (OList [x5])) in let! x9 := (Ok ONone) in let! x10 := (Ok ONone) in mk_timeseries x6 x7 x8 x9 x10) in Ok (VTS t)) in let! x11 := (let! x12 := (Ok (ODateTime (mkDT (mkDate 2023 1 2) 3 4 5 0 (Some 0)))) in Ok (VObj x12)) in let! x13 := (let! x14 := (Ok (ODateTime (mkDT (mkDate 2023 1 16) 3 4 5 0 (Some 0)))) in Ok (VObj x14)) in let! x15 := (let! t := (let! x16 := (Ok (OInt (3600))) in let! x17 := (Ok ONone) in let! x18 := (Ok ONone) in let! x19 := (Ok (OInt (3600))) in mk_rollup x16 x17 x18 x19) in Ok (VRollup t)) in let! x20 := (let! t := (let! x23 := (let! x21 := (Ok (OInt (1))) in Ok (OList [x21])) in let! x24 := (let! x22 := (Ok (OInt (11))) in Ok (OList [x22])) in let! x25 := (Ok (OStr ($"transactions"))) in mk_scope x23 x24 x25) in Ok (VScope t)) in let! x26 := (Ok VNone) in let! x27 := (Ok VNone) in let! x28 := (Ok VNone) in let! x29 := (let! x30 := (Ok (ODict [] [])) in Ok (VObj x30)) in Ok (mkMQ x1 x11 x13 x15 x20 x26 x27 x28 x29)) in mq_validate q) = true.
Proof. vm_compute. reflexivity. Qed.

(* test_metrics_mql_query.py, line 66: basic curried query *)
Example t103_test_metrics_mql_query : same_str (let! q := (let! x1 := (let! t := (let! x6 := (let! m := (let! x2 := (Ok ONone) in let! x3 := (Ok (OStr ($"d:transactions/duration@millisecond"))) in let! x4 := (Ok ONone) in mk_metric x2 x3 x4) in Ok (VMetric m)) in let! x7 := (Ok (OStr ($"quantiles"))) in let! x8 := (let! x5 := (Ok (OFloat (FFin false 1%N (-1)))) in Ok (OList [x5])) in let! x9 := (Ok ONone) in let! x10 := (Ok ONone) in mk_timeseries x6 x7 x8 x9 x10) in Ok (VTS t)) in let! x11 := (let! x12 := (Ok (ODateTime (mkDT (mkDate 2023 1 2) 3 4 5 0 (Some 0)))) in Ok (VObj x12)) in let! x13 := (let! x14 := (Ok (ODateTime (mkDT (mkDate 2023 1 16) 3 4 5 0 (Some 0)))) in Ok (VObj x14)) in let! x15 := (let! t := (let! x16 := (Ok (OInt (3600))) in let! x17 := (Ok ONone) in let! x18 := (Ok ONone) in let! x19 := (Ok (OInt (3600))) in mk_rollup x16 x17 x18 x19) in Ok (VRollup t)) in let! x20 := (let! t := (let! x23 := (let! x21 := (Ok (OInt (1))) in Ok (OList [x21])) in let! x24 := (let! x22 := (Ok (OInt (11))) in Ok (OList [x22])) in let! x25 := (Ok (OStr ($"transactions"))) in mk_scope x23 x24 x25) in Ok (VScope t)) in let! x26 := (Ok VNone) in let! x27 := (Ok VNone) in let! x28 := (Ok VNone) in let! x29 := (let! x30 := (Ok (ODict [] [])) in Ok (VObj x30)) in Ok (mkMQ x1 x11 x13 x15 x20 x26 x27 x28 x29)) in let! r := snd (mq_serialize q) in Ok (fst r)) ($"quantiles(0.5)(d:transactions/duration@millisecond)") = true.
Proof. vm_compute. reflexivity. Qed.

(* test_metrics_mql_query.py, line 66: basic curried query *)
Example t104_test_metrics_mql_query : same_dict (let! q := (let! x1 := (let! t := (let! x6 := (let! m := (let! x2 := (Ok ONone) in let! x3 := (Ok (OStr ($"d:transactions/duration@millisecond"))) in let! x4 := (Ok ONone) in mk_metric x2 x3 x4) in Ok (VMetric m)) in let! x7 := (Ok (OStr ($"quantiles"))) in let! x8 := (let! x5 := (Ok (OFloat (FFin false 1%N (-1)))) in Ok (OList [x5])) in let! x9 := (Ok ONone) in let! x10 := (Ok ONone) in mk_timeseries x6 x7 x8 x9 x10) in Ok (VTS t)) in let! x11 := (let! x12 := (Ok (ODateTime (mkDT (mkDate 2023 1 2) 3 4 5 0 (Some 0)))) in Ok (VObj x12)) in let! x13 := (let! x14 := (Ok (ODateTime (mkDT (mkDate 2023 1 16) 3 4 5 0 (Some 0)))) in Ok (VObj x14)) in let! x15 := (let! t := (let! x16 := (Ok (OInt (3600))) in let! x17 := (Ok ONone) in let! x18 := (Ok ONone) in let! x19 := (Ok (OInt (3600))) in mk_rollup x16 x17 x18 x19) in Ok (VRollup t)) in let! x20 := (let! t := (let! x23 := (let! x21 := (Ok (OInt (1))) in Ok (OList [x21])) in let! x24 := (let! x22 := (Ok (OInt (11))) in Ok (OList [x22])) in let! x25 := (Ok (OStr ($"transactions"))) in mk_scope x23 x24 x25) in Ok (VScope t)) in let! x26 := (Ok VNone) in let! x27 := (Ok VNone) in let! x28 := (Ok VNone) in let! x29 := (let! x30 := (Ok (ODict [] [])) in Ok (VObj x30)) in Ok (mkMQ x1 x11 x13 x15 x20 x26 x27 x28 x29)) in let! r := snd (mq_serialize q) in Ok (snd r)) (let! x31 := (Ok (OStr ($"2023-01-02T03:04:05+00:00"))) in let! x32 := (Ok (OStr ($"2023-01-16T03:04:05+00:00"))) in let! x33 := (let! x34 := (Ok ONone) in let! x35 := (Ok (OInt (3600))) in let! x36 := (Ok (OInt (3600))) in let! x37 := (Ok ONone) in Ok (ODict [($"orderby"); ($"granularity"); ($"interval"); ($"with_totals")] [x34; x35; x36; x37])) in let! x38 := (let! x39 := (let! x40 := (Ok (OInt (1))) in Ok (OList [x40])) in let! x41 := (let! x42 := (Ok (OInt (11))) in Ok (OList [x42])) in let! x43 := (Ok (OStr ($"transactions"))) in Ok (ODict [($"org_ids"); ($"project_ids"); ($"use_case_id")] [x39; x41; x43])) in let! x44 := (Ok ONone) in let! x45 := (Ok ONone) in let! x46 := (Ok ONone) in let! x47 := (Ok (ODict [] [])) in Ok (ODict [($"start"); ($"end"); ($"rollup"); ($"scope"); ($"limit"); ($"offset"); ($"extrapolate"); ($"indexer_mappings")] [x31; x32; x33; x38; x44; x45; x46; x47])) = true.
Proof. vm_compute. reflexivity. Qed.

(* test_metrics_mql_query.py, line 66: basic curried query *)
Example t105_test_metrics_mql_query : passes (parse_mql ($"quantiles(0.5)(d:transactions/duration@millisecond)")) = true.
Proof. vm_compute. reflexivity. Qed.

(* test_metrics_mql_query.py, line 109: basic arbitrary curried query *)
Example t106_test_metrics_mql_query : passes (let! q := (let! x1 := (let! t := (let! x6 := (let! m := (let! x2 := (Ok ONone) in let! x3 := (Ok (OStr ($"d:transactions/duration@millisecond"))) in let! x4 := (Ok ONone) in mk_metric x2 x3 x4) in Ok (VMetric m)) in let! x7 := (Ok (OStr ($"topK"))) in let! x8 := (let! x5 := (Ok (OInt (10))) in Ok (OList [x5])) in let! x9 := (Ok ONone) in let! x10 := (Ok ONone) in mk_timeseries x6 x7 x8 x9 x10) in Ok (VTS t)) in let! x11 := (let! x12 := (Ok (ODateTime (mkDT (mkDate 2023 1 2) 3 4 5 0 (Some 0)))) in Ok (VObj x12)) in let! x13 := (let! x14 := (Ok (ODateTime (mkDT (mkDate 2023 1 16) 3 4 5 0 (Some 0)))) in Ok (VObj x14)) in let! x15 := (let! t := (let! x16 := (Ok (OInt (3600))) in let! x17 := (Ok ONone) in let! x18 := (Ok ONone) in let! x19 := (Ok (OInt (3600))) in mk_rollup x16 x17 x18 x19) in Ok (VRollup t)) in let! x20 := (let! t := (let! x23 := (let! x21 := (Ok (OInt (1))) in Ok (OList [x21])) in let! x24 := (let! x22 := (Ok (OInt (11))) in Ok (OList [x22])) in let! x25 := (Ok (OStr ($"transactions"))) in mk_scope x23 x24 x25) in Ok (VScope t)) in let! x26 := (Ok VNone) in let! x27 := (Ok VNone) in let! x28 := (Ok VNone) in let! x29 := (let! x30 := (Ok (ODict [] [])) in Ok (VObj x30)) in Ok (mkMQ x1 x11 x13 x15 x20 x26 x27 x28 x29)) in mq_validate q) = true.
Proof. vm_compute. reflexivity. Qed.

(* test_metrics_mql_query.py, line 109: basic arbitrary curried query *)
Example t107_test_metrics_mql_query : same_str (let! q := (let! x1 := (let! t := (let! x6 := (let! m := (let! x2 := (Ok ONone) in let! x3 := (Ok (OStr ($"d:transactions/duration@millisecond"))) in let! x4 := (Ok ONone) in mk_metric x2 x3 x4) in Ok (VMetric m)) in let! x7 := (Ok (OStr ($"topK"))) in let! x8 := (let! x5 := (Ok (OInt (10))) in Ok (OList [x5])) in let! x9 := (Ok ONone) in let! x10 := (Ok ONone) in mk_timeseries x6 x7 x8 x9 x10) in Ok (VTS t)) in let! x11 := (let! x12 := (Ok (ODateTime (mkDT (mkDate 2023 1 2) 3 4 5 0 (Some 0)))) in Ok (VObj x12)) in let! x13 := (let! x14 := (Ok (ODateTime (mkDT (mkDate 2023 1 16) 3 4 5 0 (Some 0)))) in Ok (VObj x14)) in let! x15 := (let! t := (let! x16 := (Ok (OInt (3600))) in let! x17 := (Ok ONone) in let! x18 := (Ok ONone) in let! x19 := (Ok (OInt (3600))) in mk_rollup x16 x17 x18 x19) in Ok (VRollup t)) in let! x20 := (let! t := (let! x23 := (let! x21 := (Ok (OInt (1))) in Ok (OList [x21])) in let! x24 := (let! x22 := (Ok (OInt (11))) in Ok (OList [x22])) in let! x25 := (Ok (OStr ($"transactions"))) in mk_scope x23 x24 x25) in Ok (VScope t)) in let! x26 := (Ok VNone) in let! x27 := (Ok VNone) in let! x28 := (Ok VNone) in let! x29 := (let! x30 := (Ok (ODict [] [])) in Ok (VObj x30)) in Ok (mkMQ x1 x11 x13 x15 x20 x26 x27 x28 x29)) in let! r := snd (mq_serialize q) in Ok (fst r)) ($"topK(10)(d:transactions/duration@millisecond)") = true.
Proof. vm_compute. reflexivity. Qed.

(* test_metrics_mql_query.py, line 109: basic arbitrary curried query *)
Example t108_test_metrics_mql_query : same_dict (let! q := (let! x1 := (let! t := (let! x6 := (let! m := (let! x2 := (Ok ONone) in let! x3 := (Ok (OStr ($"d:transactions/duration@millisecond"))) in let! x4 := (Ok ONone) in mk_metric x2 x3 x4) in Ok (VMetric m)) in let! x7 := (Ok (OStr ($"topK"))) in let! x8 := (let! x5 := (Ok (OInt (10))) in Ok (OList [x5])) in let! x9 := (Ok ONone) in let! x10 := (Ok ONone) in mk_timeseries x6 x7 x8 x9 x10) in Ok (VTS t)) in let! x11 := (let! x12 := (Ok (ODateTime (mkDT (mkDate 2023 1 2) 3 4 5 0 (Some 0)))) in Ok (VObj x12)) in let! x13 := (let! x14 := (Ok (ODateTime (mkDT (mkDate 2023 1 16) 3 4 5 0 (Some 0)))) in Ok (VObj x14)) in let! x15 := (let! t := (let! x16 := (Ok (OInt (3600))) in let! x17 := (Ok ONone) in let! x18 := (Ok ONone) in let! x19 := (Ok (OInt (3600))) in mk_rollup x16 x17 x18 x19) in Ok (VRollup t)) in let! x20 := (let! t := (let! x23 := (let! x21 := (Ok (OInt (1))) in Ok (OList [x21])) in let! x24 := (let! x22 := (Ok (OInt (11))) in Ok (OList [x22])) in let! x25 := (Ok (OStr ($"transactions"))) in mk_scope x23 x24 x25) in Ok (VScope t)) in let! x26 := (Ok VNone) in let! x27 := (Ok VNone) in let! x28 := (Ok VNone) in let! x29 := (let! x30 := (Ok (ODict [] [])) in Ok (VObj x30)) in Ok (mkMQ x1 x11 x13 x15 x20 x26 x27 x28 x29)) in let! r := snd (mq_serialize q) in Ok (snd r)) (let! x31 := (Ok (OStr ($"2023-01-02T03:04:05+00:00"))) in let! x32 := (Ok (OStr ($"2023-01-16T03:04:05+00:00"))) in let! x33 := (let! x34 := (Ok ONone) in let! x35 := (Ok (OInt (3600))) in let! x36 := (Ok (OInt (3600))) in let! x37 := (Ok ONone) in Ok (ODict [($"orderby"); ($"granularity"); ($"interval"); ($"with_totals")] [x34; x35; x36; x37])) in let! x38 := (let! x39 := (let! x40 := (Ok (OInt (1))) in Ok (OList [x40])) in let! x41 := (let! x42 := (Ok (OInt (11))) in Ok (OList [x42])) in let! x43 := (Ok (OStr ($"transactions"))) in Ok (ODict [($"org_ids"); ($"project_ids"); ($"use_case_id")] [x39; x41; x43])) in let! x44 := (Ok ONone) in let! x45 := (Ok ONone) in let! x46 := (Ok ONone) in let! x47 := (Ok (ODict [] [])) in Ok (ODict [($"start"); ($"end"); ($"rollup"); ($"scope"); ($"limit"); ($"offset"); ($"extrapolate"); ($"indexer_mappings")] [x31; x32; x33; x38; x44; x45; x46; x47])) = true.
Proof. vm_compute. reflexivity. Qed.

(* test_metrics_mql_query.py, line 109: basic arbitrary curried query *)
Example t109_test_metrics_mql_query : passes (parse_mql ($"topK(10)(d:transactions/duration@millisecond)")) = true.
Proof. vm_compute. reflexivity. Qed.

(* test_metrics_mql_query.py, line 152: basic public name query *)
Example t110_test_metrics_mql_query : passes (let! q := (let! x1 := (let! t := (let! x5 := (let! m := (let! x2 := (Ok (OStr ($"transactions.duration"))) in let! x3 := (Ok ONone) in let! x4 := (Ok ONone) in mk_metric x2 x3 x4) in Ok (VMetric m)) in let! x6 := (Ok (OStr ($"max"))) in let! x7 := (Ok ONone) in let! x8 := (Ok ONone) in let! x9 := (Ok ONone) in mk_timeseries x5 x6 x7 x8 x9) in Ok (VTS t)) in let! x10 := (let! x11 := (Ok (ODateTime (mkDT (mkDate 2023 1 2) 3 4 5 0 (Some 0)))) in Ok (VObj x11)) in let! x12 := (let! x13 := (Ok (ODateTime (mkDT (mkDate 2023 1 16) 3 4 5 0 (Some 0)))) in Ok (VObj x13)) in let! x14 := (let! t := (let! x15 := (Ok ONone) in let! x16 := (Ok (OBool true)) in let! x17 := (Ok (ODir DESC)) in let! x18 := (Ok (OInt (3600))) in mk_rollup x15 x16 x17 x18) in Ok (VRollup t)) in let! x19 := (let! t := (let! x22 := (let! x20 := (Ok (OInt (1))) in Ok (OList [x20])) in let! x23 := (let! x21 := (Ok (OInt (11))) in Ok (OList [x21])) in let! x24 := (Ok (OStr ($"transactions"))) in mk_scope x22 x23 x24) in Ok (VScope t)) in let! x25 := (Ok VNone) in let! x26 := (Ok VNone) in let! x27 := (Ok VNone) in let! x28 := (let! x29 := (Ok (ODict [] [])) in Ok (VObj x29)) in Ok (mkMQ x1 x10 x12 x14 x19 x25 x26 x27 x28)) in mq_validate q) = true.
Proof. vm_compute. reflexivity. Qed.

(* test_metrics_mql_query.py, line 152: basic public name query *)
Example t111_test_metrics_mql_query : same_str (let! q := (let! x1 := (let! t := (let! x5 := (let! m := (let! x2 := (Ok (OStr ($"transactions.duration"))) in let! x3 := (Ok ONone) in let! x4 := (Ok ONone) in mk_metric x2 x3 x4) in Ok (VMetric m)) in let! x6 := (Ok (OStr ($"max"))) in let! x7 := (Ok ONone) in let! x8 := (Ok ONone) in let! x9 := (Ok ONone) in mk_timeseries x5 x6 x7 x8 x9) in Ok (VTS t)) in let! x10 := (let! x11 := (Ok (ODateTime (mkDT (mkDate 2023 1 2) 3 4 5 0 (Some 0)))) in Ok (VObj x11)) in let! x12 := (let! x13 := (Ok (ODateTime (mkDT (mkDate 2023 1 16) 3 4 5 0 (Some 0)))) in Ok (VObj x13)) in let! x14 := (let! t := (let! x15 := (Ok ONone) in let! x16 := (Ok (OBool true)) in let! x17 := (Ok (ODir DESC)) in let! x18 := (Ok (OInt (3600))) in mk_rollup x15 x16 x17 x18) in Ok (VRollup t)) in let! x19 := (let! t := (let! x22 := (let! x20 := (Ok (OInt (1))) in Ok (OList [x20])) in let! x23 := (let! x21 := (Ok (OInt (11))) in Ok (OList [x21])) in let! x24 := (Ok (OStr ($"transactions"))) in mk_scope x22 x23 x24) in Ok (VScope t)) in let! x25 := (Ok VNone) in let! x26 := (Ok VNone) in let! x27 := (Ok VNone) in let! x28 := (let! x29 := (Ok (ODict [] [])) in Ok (VObj x29)) in Ok (mkMQ x1 x10 x12 x14 x19 x25 x26 x27 x28)) in let! r := snd (mq_serialize q) in Ok (fst r)) ($"max(transactions.duration)") = true.
Proof. vm_compute. reflexivity. Qed.

(* test_metrics_mql_query.py, line 152: basic public name query *)
Example t112_test_metrics_mql_query : same_dict (let! q := (let! x1 := (let! t := (let! x5 := (let! m := (let! x2 := (Ok (OStr ($"transactions.duration"))) in let! x3 := (Ok ONone) in let! x4 := (Ok ONone) in mk_metric x2 x3 x4) in Ok (VMetric m)) in let! x6 := (Ok (OStr ($"max"))) in let! x7 := (Ok ONone) in let! x8 := (Ok ONone) in let! x9 := (Ok ONone) in mk_timeseries x5 x6 x7 x8 x9) in Ok (VTS t)) in let! x10 := (let! x11 := (Ok (ODateTime (mkDT (mkDate 2023 1 2) 3 4 5 0 (Some 0)))) in Ok (VObj x11)) in let! x12 := (let! x13 := (Ok (ODateTime (mkDT (mkDate 2023 1 16) 3 4 5 0 (Some 0)))) in Ok (VObj x13)) in let! x14 := (let! t := (let! x15 := (Ok ONone) in let! x16 := (Ok (OBool true)) in let! x17 := (Ok (ODir DESC)) in let! x18 := (Ok (OInt (3600))) in mk_rollup x15 x16 x17 x18) in Ok (VRollup t)) in let! x19 := (let! t := (let! x22 := (let! x20 := (Ok (OInt (1))) in Ok (OList [x20])) in let! x23 := (let! x21 := (Ok (OInt (11))) in Ok (OList [x21])) in let! x24 := (Ok (OStr ($"transactions"))) in mk_scope x22 x23 x24) in Ok (VScope t)) in let! x25 := (Ok VNone) in let! x26 := (Ok VNone) in let! x27 := (Ok VNone) in let! x28 := (let! x29 := (Ok (ODict [] [])) in Ok (VObj x29)) in Ok (mkMQ x1 x10 x12 x14 x19 x25 x26 x27 x28)) in let! r := snd (mq_serialize q) in Ok (snd r)) (let! x30 := (Ok (OStr ($"2023-01-02T03:04:05+00:00"))) in let! x31 := (Ok (OStr ($"2023-01-16T03:04:05+00:00"))) in let! x32 := (let! x33 := (Ok (OStr ($"DESC"))) in let! x34 := (Ok (OInt (3600))) in let! x35 := (Ok ONone) in let! x36 := (Ok (OStr ($"True"))) in Ok (ODict [($"orderby"); ($"granularity"); ($"interval"); ($"with_totals")] [x33; x34; x35; x36])) in let! x37 := (let! x38 := (let! x39 := (Ok (OInt (1))) in Ok (OList [x39])) in let! x40 := (let! x41 := (Ok (OInt (11))) in Ok (OList [x41])) in let! x42 := (Ok (OStr ($"transactions"))) in Ok (ODict [($"org_ids"); ($"project_ids"); ($"use_case_id")] [x38; x40; x42])) in let! x43 := (Ok ONone) in let! x44 := (Ok ONone) in let! x45 := (Ok ONone) in let! x46 := (Ok (ODict [] [])) in Ok (ODict [($"start"); ($"end"); ($"rollup"); ($"scope"); ($"limit"); ($"offset"); ($"extrapolate"); ($"indexer_mappings")] [x30; x31; x32; x37; x43; x44; x45; x46])) = true.
Proof. vm_compute. reflexivity. Qed.

(* test_metrics_mql_query.py, line 152: basic public name query *)
Example t113_test_metrics_mql_query : passes (parse_mql ($"max(transactions.duration)")) = true.
Proof. vm_compute. reflexivity. Qed.

(* test_metrics_mql_query.py, line 195: filter query *)
Example t114_test_metrics_mql_query : passes (let! q := (let! x1 := (let! t := (let! x11 := (let! m := (let! x2 := (Ok ONone) in let! x3 := (Ok (OStr ($"d:transactions/duration@millisecond"))) in let! x4 := (Ok ONone) in mk_metric x2 x3 x4) in Ok (VMetric m)) in let! x12 := (Ok (OStr ($"max"))) in let! x13 := (Ok ONone) in let! x14 := (let! x5 := (let! x8 := (let! x6 := (Ok (OStr ($"bar"))) in let! x7 := (Ok ONone) in mk_column x6 x7) in let! x9 := (Ok (OOp EQ)) in let! x10 := (Ok (OStr ($"baz"))) in mk_condition x8 x9 x10) in Ok (OList [x5])) in let! x15 := (Ok ONone) in mk_timeseries x11 x12 x13 x14 x15) in Ok (VTS t)) in let! x16 := (let! x17 := (Ok (ODateTime (mkDT (mkDate 2023 1 2) 3 4 5 0 (Some 0)))) in Ok (VObj x17)) in let! x18 := (let! x19 := (Ok (ODateTime (mkDT (mkDate 2023 1 16) 3 4 5 0 (Some 0)))) in Ok (VObj x19)) in let! x20 := (let! t := (let! x21 := (Ok (OInt (3600))) in let! x22 := (Ok ONone) in let! x23 := (Ok ONone) in let! x24 := (Ok (OInt (3600))) in mk_rollup x21 x22 x23 x24) in Ok (VRollup t)) in let! x25 := (let! t := (let! x28 := (let! x26 := (Ok (OInt (1))) in Ok (OList [x26])) in let! x29 := (let! x27 := (Ok (OInt (11))) in Ok (OList [x27])) in let! x30 := (Ok (OStr ($"transactions"))) in mk_scope x28 x29 x30) in Ok (VScope t)) in let! x31 := (Ok VNone) in let! x32 := (Ok VNone) in let! x33 := (Ok VNone) in let! x34 := (let! x35 := (Ok (ODict [] [])) in Ok (VObj x35)) in Ok (mkMQ x1 x16 x18 x20 x25 x31 x32 x33 x34)) in mq_validate q) = true.
Proof. vm_compute. reflexivity. Qed.

(* test_metrics_mql_query.py, line 195: filter query *)
Example t115_test_metrics_mql_query : same_str (let! q := (let! x1 := (let! t := (let! x11 := (let! m := (let! x2 := (Ok ONone) in let! x3 := (Ok (OStr ($"d:transactions/duration@millisecond"))) in let! x4 := (Ok ONone) in mk_metric x2 x3 x4) in Ok (VMetric m)) in let! x12 := (Ok (OStr ($"max"))) in let! x13 := (Ok ONone) in let! x14 := (let! x5 := (let! x8 := (let! x6 := (Ok (OStr ($"bar"))) in let! x7 := (Ok ONone) in mk_column x6 x7) in let! x9 := (Ok (OOp EQ)) in let! x10 := (Ok (OStr ($"baz"))) in mk_condition x8 x9 x10) in Ok (OList [x5])) in let! x15 := (Ok ONone) in mk_timeseries x11 x12 x13 x14 x15) in Ok (VTS t)) in let! x16 := (let! x17 := (Ok (ODateTime (mkDT (mkDate 2023 1 2) 3 4 5 0 (Some 0)))) in Ok (VObj x17)) in let! x18 := (let! x19 := (Ok (ODateTime (mkDT (mkDate 2023 1 16) 3 4 5 0 (Some 0)))) in Ok (VObj x19)) in let! x20 := (let! t := (let! x21 := (Ok (OInt (3600))) in let! x22 := (Ok ONone) in let! x23 := (Ok ONone) in let! x24 := (Ok (OInt (3600))) in mk_rollup x21 x22 x23 x24) in Ok (VRollup t)) in let! x25 := (let! t := (let! x28 := (let! x26 := (Ok (OInt (1))) in Ok (OList [x26])) in let! x29 := (let! x27 := (Ok (OInt (11))) in Ok (OList [x27])) in let! x30 := (Ok (OStr ($"transactions"))) in mk_scope x28 x29 x30) in Ok (VScope t)) in let! x31 := (Ok VNone) in let! x32 := (Ok VNone) in let! x33 := (Ok VNone) in let! x34 := (let! x35 := (Ok (ODict [] [])) in Ok (VObj x35)) in Ok (mkMQ x1 x16 x18 x20 x25 x31 x32 x33 x34)) in let! r := snd (mq_serialize q) in Ok (fst r)) ($"max(d:transactions/duration@millisecond){bar:""baz""}") = true.
Proof. vm_compute. reflexivity. Qed.

(* test_metrics_mql_query.py, line 195: filter query *)
Example t116_test_metrics_mql_query : same_dict (let! q := (let! x1 := (let! t := (let! x11 := (let! m := (let! x2 := (Ok ONone) in let! x3 := (Ok (OStr ($"d:transactions/duration@millisecond"))) in let! x4 := (Ok ONone) in mk_metric x2 x3 x4) in Ok (VMetric m)) in let! x12 := (Ok (OStr ($"max"))) in let! x13 := (Ok ONone) in let! x14 := (let! x5 := (let! x8 := (let! x6 := (Ok (OStr ($"bar"))) in let! x7 := (Ok ONone) in mk_column x6 x7) in let! x9 := (Ok (OOp EQ)) in let! x10 := (Ok (OStr ($"baz"))) in mk_condition x8 x9 x10) in Ok (OList [x5])) in let! x15 := (Ok ONone) in mk_timeseries x11 x12 x13 x14 x15) in Ok (VTS t)) in let! x16 := (let! x17 := (Ok (ODateTime (mkDT (mkDate 2023 1 2) 3 4 5 0 (Some 0)))) in Ok (VObj x17)) in let! x18 := (let! x19 := (Ok (ODateTime (mkDT (mkDate 2023 1 16) 3 4 5 0 (Some 0)))) in Ok (VObj x19)) in let! x20 := (let! t := (let! x21 := (Ok (OInt (3600))) in let! x22 := (Ok ONone) in let! x23 := (Ok ONone) in let! x24 := (Ok (OInt (3600))) in mk_rollup x21 x22 x23 x24) in Ok (VRollup t)) in let! x25 := (let! t := (let! x28 := (let! x26 := (Ok (OInt (1))) in Ok (OList [x26])) in let! x29 := (let! x27 := (Ok (OInt (11))) in Ok (OList [x27])) in let! x30 := (Ok (OStr ($"transactions"))) in mk_scope x28 x29 x30) in Ok (VScope t)) in let! x31 := (Ok VNone) in let! x32 := (Ok VNone) in let! x33 := (Ok VNone) in let! x34 := (let! x35 := (Ok (ODict [] [])) in Ok (VObj x35)) in Ok (mkMQ x1 x16 x18 x20 x25 x31 x32 x33 x34)) in let! r := snd (mq_serialize q) in Ok (snd r)) (let! x36 := (Ok (OStr ($"2023-01-02T03:04:05+00:00"))) in let! x37 := (Ok (OStr ($"2023-01-16T03:04:05+00:00"))) in let! x38 := (let! x39 := (Ok ONone) in let! x40 := (Ok (OInt (3600))) in let! x41 := (Ok (OInt (3600))) in let! x42 := (Ok ONone) in Ok (ODict [($"orderby"); ($"granularity"); ($"interval"); ($"with_totals")] [x39; x40; x41; x42])) in let! x43 := (let! x44 := (let! x45 := (Ok (OInt (1))) in Ok (OList [x45])) in let! x46 := (let! x47 := (Ok (OInt (11))) in Ok (OList [x47])) in let! x48 := (Ok (OStr ($"transactions"))) in Ok (ODict [($"org_ids"); ($"project_ids"); ($"use_case_id")] [x44; x46; x48])) in let! x49 := (Ok ONone) in let! x50 := (Ok ONone) in let! x51 := (Ok ONone) in let! x52 := (Ok (ODict [] [])) in Ok (ODict [($"start"); ($"end"); ($"rollup"); ($"scope"); ($"limit"); ($"offset"); ($"extrapolate"); ($"indexer_mappings")] [x36; x37; x38; x43; x49; x50; x51; x52])) = true.
Proof. vm_compute. reflexivity. Qed.

(* test_metrics_mql_query.py, line 195: filter query *)
Example t117_test_metrics_mql_query : passes (parse_mql ($"max(d:transactions/duration@millisecond){bar:""baz""}")) = true.
Proof. vm_compute. reflexivity. Qed.

(* test_metrics_mql_query.py, line 238: in filter query *)
Example t118_test_metrics_mql_query : passes (let! q := (let! x1 := (let! t := (let! x13 := (let! m := (let! x2 := (Ok ONone) in let! x3 := (Ok (OStr ($"d:transactions/duration@millisecond"))) in let! x4 := (Ok ONone) in mk_metric x2 x3 x4) in Ok (VMetric m)) in let! x14 := (Ok (OStr ($"max"))) in let! x15 := (Ok ONone) in let! x16 := (let! x5 := (let! x10 := (let! x6 := (Ok (OStr ($"bar"))) in let! x7 := (Ok ONone) in mk_column x6 x7) in let! x11 := (Ok (OOp IN)) in let! x12 := (let! x8 := (Ok (OStr ($"baz"))) in let! x9 := (Ok (OStr ($"bap"))) in Ok (OList [x8; x9])) in mk_condition x10 x11 x12) in Ok (OList [x5])) in let! x17 := (Ok ONone) in mk_timeseries x13 x14 x15 x16 x17) in Ok (VTS t)) in let! x18 := (let! x19 := (Ok (ODateTime (mkDT (mkDate 2023 1 2) 3 4 5 0 (Some 0)))) in Ok (VObj x19)) in let! x20 := (let! x21 := (Ok (ODateTime (mkDT (mkDate 2023 1 16) 3 4 5 0 (Some 0)))) in Ok (VObj x21)) in let! x22 := (let! t := (let! x23 := (Ok (OInt (3600))) in let! x24 := (Ok ONone) in let! x25 := (Ok ONone) in let! x26 := (Ok (OInt (3600))) in mk_rollup x23 x24 x25 x26) in Ok (VRollup t)) in let! x27 := (let! t := (let! x30 := (let! x28 := (Ok (OInt (1))) in Ok (OList [x28])) in let! x31 := (let! x29 := (Ok (OInt (11))) in Ok (OList [x29])) in let! x32 := (Ok (OStr ($"transactions"))) in mk_scope x30 x31 x32) in Ok (VScope t)) in let! x33 := (Ok VNone) in let! x34 := (Ok VNone) in let! x35 := (Ok VNone) in let! x36 := (let! x37 := (Ok (ODict [] [])) in Ok (VObj x37)) in Ok (mkMQ x1 x18 x20 x22 x27 x33 x34 x35 x36)) in mq_validate q) = true.
Proof. vm_compute. reflexivity. Qed.

(* test_metrics_mql_query.py, line 238: in filter query *)
Example t119_test_metrics_mql_query : same_str (let! q := (let! x1 := (let! t := (let! x13 := (let! m := (let! x2 := (Ok ONone) in let! x3 := (Ok (OStr ($"d:transactions/duration@millisecond"))) in let! x4 := (Ok ONone) in mk_metric x2 x3 x4) in Ok (VMetric m)) in let! x14 := (Ok (OStr ($"max"))) in let! x15 := (Ok ONone) in let! x16 := (let! x5 := (let! x10 := (let! x6 := (Ok (OStr ($"bar"))) in let! x7 := (Ok ONone) in mk_column x6 x7) in let! x11 := (Ok (OOp IN)) in let! x12 := (let! x8 := (Ok (OStr ($"baz"))) in let! x9 := (Ok (OStr ($"bap"))) in Ok (OList [x8; x9])) in mk_condition x10 x11 x12) in Ok (OList [x5])) in let! x17 := (Ok ONone) in mk_timeseries x13 x14 x15 x16 x17) in Ok (VTS t)) in let! x18 := (let! x19 := (Ok (ODateTime (mkDT (mkDate 2023 1 2) 3 4 5 0 (Some 0)))) in Ok (VObj x19)) in let! x20 := (let! x21 := (Ok (ODateTime (mkDT (mkDate 2023 1 16) 3 4 5 0 (Some 0)))) in Ok (VObj x21)) in let! x22 := (let! t := (let! x23 := (Ok (OInt (3600))) in let! x24 := (Ok ONone) in let! x25 := (Ok ONone) in let! x26 := (Ok (OInt (3600))) in mk_rollup x23 x24 x25 x26) in Ok (VRollup t)) in let! x27 := (let! t := (let! x30 := (let! x28 := (Ok (OInt (1))) in Ok (OList [x28])) in let! x31 := (let! x29 := (Ok (OInt (11))) in Ok (OList [x29])) in let! x32 := (Ok (OStr ($"transactions"))) in mk_scope x30 x31 x32) in Ok (VScope t)) in let! x33 := (Ok VNone) in let! x34 := (Ok VNone) in let! x35 := (Ok VNone) in let! x36 := (let! x37 := (Ok (ODict [] [])) in Ok (VObj x37)) in Ok (mkMQ x1 x18 x20 x22 x27 x33 x34 x35 x36)) in let! r := snd (mq_serialize q) in Ok (fst r)) ($"max(d:transactions/duration@millisecond){bar:[""baz"", ""bap""]}") = true.
Proof. vm_compute. reflexivity. Qed.

(* test_metrics_mql_query.py, line 238: in filter query *)
Example t120_test_metrics_mql_query : same_dict (let! q := (let! x1 := (let! t := (let! x13 := (let! m := (let! x2 := (Ok ONone) in let! x3 := (Ok (OStr ($"d:transactions/duration@millisecond"))) in let! x4 := (Ok ONone) in mk_metric x2 x3 x4) in Ok (VMetric m)) in let! x14 := (Ok (OStr ($"max"))) in let! x15 := (Ok ONone) in let! x16 := (let! x5 := (let! x10 := (let! x6 := (Ok (OStr ($"bar"))) in let! x7 := (Ok ONone) in mk_column x6 x7) in let! x11 := (Ok (OOp IN)) in let! x12 := (let! x8 := (Ok (OStr ($"baz"))) in let! x9 := (Ok (OStr ($"bap"))) in Ok (OList [x8; x9])) in mk_condition x10 x11 x12) in Ok (OList [x5])) in let! x17 := (Ok ONone) in mk_timeseries x13 x14 x15 x16 x17) in Ok (VTS t)) in let! x18 := (let! x19 := (Ok (ODateTime (mkDT (mkDate 2023 1 2) 3 4 5 0 (Some 0)))) in Ok (VObj x19)) in let! x20 := (let! x21 := (Ok (ODateTime (mkDT (mkDate 2023 1 16) 3 4 5 0 (Some 0)))) in Ok (VObj x21)) in let! x22 := (let! t := (let! x23 := (Ok (OInt (3600))) in let! x24 := (Ok ONone) in let! x25 := (Ok ONone) in let! x26 := (Ok (OInt (3600))) in mk_rollup x23 x24 x25 x26) in Ok (VRollup t)) in let! x27 := (let! t := (let! x30 := (let! x28 := (Ok (OInt (1))) in Ok (OList [x28])) in let! x31 := (let! x29 := (Ok (OInt (11))) in Ok (OList [x29])) in let! x32 := (Ok (OStr ($"transactions"))) in mk_scope x30 x31 x32) in Ok (VScope t)) in let! x33 := (Ok VNone) in let! x34 := (Ok VNone) in let! x35 := (Ok VNone) in let! x36 := (let! x37 := (Ok (ODict [] [])) in Ok (VObj x37)) in Ok (mkMQ x1 x18 x20 x22 x27 x33 x34 x35 x36)) in let! r := snd (mq_serialize q) in Ok (snd r)) (let! x38 := (Ok (OStr ($"2023-01-02T03:04:05+00:00"))) in let! x39 := (Ok (OStr ($"2023-01-16T03:04:05+00:00"))) in let! x40 := (let! x41 := (Ok ONone) in let! x42 := (Ok (OInt (3600))) in let! x43 := (Ok (OInt (3600))) in let! x44 := (Ok ONone) in Ok (ODict [($"orderby"); ($"granularity"); ($"interval"); ($"with_totals")] [x41; x42; x43; x44])) in let! x45 := (let! x46 := (let! x47 := (Ok (OInt (1))) in Ok (OList [x47])) in let! x48 := (let! x49 := (Ok (OInt (11))) in Ok (OList [x49])) in let! x50 := (Ok (OStr ($"transactions"))) in Ok (ODict [($"org_ids"); ($"project_ids"); ($"use_case_id")] [x46; x48; x50])) in let! x51 := (Ok ONone) in let! x52 := (Ok ONone) in let! x53 := (Ok ONone) in let! x54 := (Ok (ODict [] [])) in Ok (ODict [($"start"); ($"end"); ($"rollup"); ($"scope"); ($"limit"); ($"offset"); ($"extrapolate"); ($"indexer_mappings")] [x38; x39; x40; x45; x51; x52; x53; x54])) = true.
Proof. vm_compute. reflexivity. Qed.

(* test_metrics_mql_query.py, line 238: in filter query *)
Example t121_test_metrics_mql_query : passes (parse_mql ($"max(d:transactions/duration@millisecond){bar:[""baz"", ""bap""]}")) = true.
Proof. vm_compute. reflexivity. Qed.

(* test_metrics_mql_query.py, line 281: wildcard filter query *)
Example t122_test_metrics_mql_query : passes (let! q := (let! x1 := (let! t := (let! x11 := (let! m := (let! x2 := (Ok ONone) in let! x3 := (Ok (OStr ($"d:transactions/duration@millisecond"))) in let! x4 := (Ok ONone) in mk_metric x2 x3 x4) in Ok (VMetric m)) in let! x12 := (Ok (OStr ($"max"))) in let! x13 := (Ok ONone) in let! x14 := (let! x5 := (let! x8 := (let! x6 := (Ok (OStr ($"bar"))) in let! x7 := (Ok ONone) in mk_column x6 x7) in let! x9 := (Ok (OOp LIKE)) in let! x10 := (Ok (OStr ($"baz*"))) in mk_condition x8 x9 x10) in Ok (OList [x5])) in let! x15 := (Ok ONone) in mk_timeseries x11 x12 x13 x14 x15) in Ok (VTS t)) in let! x16 := (let! x17 := (Ok (ODateTime (mkDT (mkDate 2023 1 2) 3 4 5 0 (Some 0)))) in Ok (VObj x17)) in let! x18 := (let! x19 := (Ok (ODateTime (mkDT (mkDate 2023 1 16) 3 4 5 0 (Some 0)))) in Ok (VObj x19)) in let! x20 := (let! t := (let! x21 := (Ok (OInt (3600))) in let! x22 := (Ok ONone) in let! x23 := (Ok ONone) in let! x24 := (Ok (OInt (3600))) in mk_rollup x21 x22 x23 x24) in Ok (VRollup t)) in let! x25 := (let! t := (let! x28 := (let! x26 := (Ok (OInt (1))) in Ok (OList [x26])) in let! x29 := (let! x27 := (Ok (OInt (11))) in Ok (OList [x27])) in let! x30 := (Ok (OStr ($"transactions"))) in mk_scope x28 x29 x30) in Ok (VScope t)) in let! x31 := (Ok VNone) in let! x32 := (Ok VNone) in let! x33 := (Ok VNone) in let! x34 := (let! x35 := (Ok (ODict [] [])) in Ok (VObj x35)) in Ok (mkMQ x1 x16 x18 x20 x25 x31 x32 x33 x34)) in mq_validate q) = true.
Proof. vm_compute. reflexivity. Qed.

(* test_metrics_mql_query.py, line 281: wildcard filter query *)
Example t123_test_metrics_mql_query : same_str (let! q := (let! x1 := (let! t := (let! x11 := (let! m := (let! x2 := (Ok ONone) in let! x3 := (Ok (OStr ($"d:transactions/duration@millisecond"))) in let! x4 := (Ok ONone) in mk_metric x2 x3 x4) in Ok (VMetric m)) in let! x12 := (Ok (OStr ($"max"))) in let! x13 := (Ok ONone) in let! x14 := (let! x5 := (let! x8 := (let! x6 := (Ok (OStr ($"bar"))) in let! x7 := (Ok ONone) in mk_column x6 x7) in let! x9 := (Ok (OOp LIKE)) in let! x10 := (Ok (OStr ($"baz*"))) in mk_condition x8 x9 x10) in Ok (OList [x5])) in let! x15 := (Ok ONone) in mk_timeseries x11 x12 x13 x14 x15) in Ok (VTS t)) in let! x16 := (let! x17 := (Ok (ODateTime (mkDT (mkDate 2023 1 2) 3 4 5 0 (Some 0)))) in Ok (VObj x17)) in let! x18 := (let! x19 := (Ok (ODateTime (mkDT (mkDate 2023 1 16) 3 4 5 0 (Some 0)))) in Ok (VObj x19)) in let! x20 := (let! t := (let! x21 := (Ok (OInt (3600))) in let! x22 := (Ok ONone) in let! x23 := (Ok ONone) in let! x24 := (Ok (OInt (3600))) in mk_rollup x21 x22 x23 x24) in Ok (VRollup t)) in let! x25 := (let! t := (let! x28 := (let! x26 := (Ok (OInt (1))) in Ok (OList [x26])) in let! x29 := (let! x27 := (Ok (OInt (11))) in Ok (OList [x27])) in let! x30 := (Ok (OStr ($"transactions"))) in mk_scope x28 x29 x30) in Ok (VScope t)) in let! x31 := (Ok VNone) in let! x32 := (Ok VNone) in let! x33 := (Ok VNone) in let! x34 := (let! x35 := (Ok (ODict [] [])) in Ok (VObj x35)) in Ok (mkMQ x1 x16 x18 x20 x25 x31 x32 x33 x34)) in let! r := snd (mq_serialize q) in Ok (fst r)) ($"max(d:transactions/duration@millisecond){bar:""baz*""}") = true.
Proof. vm_compute. reflexivity. Qed.

(* test_metrics_mql_query.py, line 281: wildcard filter query *)
Example t124_test_metrics_mql_query : same_dict (let! q := (let! x1 := (let! t := (let! x11 := (let! m := (let! x2 := (Ok ONone) in let! x3 := (Ok (OStr ($"d:transactions/duration@millisecond"))) in let! x4 := (Ok ONone) in mk_metric x2 x3 x4) in Ok (VMetric m)) in let! x12 := (Ok (OStr ($"max"))) in let! x13 := (Ok ONone) in let! x14 := (let! x5 := (let! x8 := (let! x6 := (Ok (OStr ($"bar"))) in let! x7 := (Ok ONone) in mk_column x6 x7) in let! x9 := (Ok (OOp LIKE)) in let! x10 := (Ok (OStr ($"baz*"))) in mk_condition x8 x9 x10) in Ok (OList [x5])) in let! x15 := (Ok ONone) in mk_timeseries x11 x12 x13 x14 x15) in Ok (VTS t)) in let! x16 := (let! x17 := (Ok (ODateTime (mkDT (mkDate 2023 1 2) 3 4 5 0 (Some 0)))) in Ok (VObj x17)) in let! x18 := (let! x19 := (Ok (ODateTime (mkDT (mkDate 2023 1 16) 3 4 5 0 (Some 0)))) in Ok (VObj x19)) in let! x20 := (let! t := (let! x21 := (Ok (OInt (3600))) in let! x22 := (Ok ONone) in let! x23 := (Ok ONone) in let! x24 := (Ok (OInt (3600))) in mk_rollup x21 x22 x23 x24) in Ok (VRollup t)) in let! x25 := (let! t := (let! x28 := (let! x26 := (Ok (OInt (1))) in Ok (OList [x26])) in let! x29 := (let! x27 := (Ok (OInt (11))) in Ok (OList [x27])) in let! x30 := (Ok (OStr ($"transactions"))) in mk_scope x28 x29 x30) in Ok (VScope t)) in let! x31 := (Ok VNone) in let! x32 := (Ok VNone) in let! x33 := (Ok VNone) in let! x34 := (let! x35 := (Ok (ODict [] [])) in Ok (VObj x35)) in Ok (mkMQ x1 x16 x18 x20 x25 x31 x32 x33 x34)) in let! r := snd (mq_serialize q) in Ok (snd r)) (let! x36 := (Ok (OStr ($"2023-01-02T03:04:05+00:00"))) in let! x37 := (Ok (OStr ($"2023-01-16T03:04:05+00:00"))) in let! x38 := (let! x39 := (Ok ONone) in let! x40 := (Ok (OInt (3600))) in let! x41 := (Ok (OInt (3600))) in let! x42 := (Ok ONone) in Ok (ODict [($"orderby"); ($"granularity"); ($"interval"); ($"with_totals")] [x39; x40; x41; x42])) in let! x43 := (let! x44 := (let! x45 := (Ok (OInt (1))) in Ok (OList [x45])) in let! x46 := (let! x47 := (Ok (OInt (11))) in Ok (OList [x47])) in let! x48 := (Ok (OStr ($"transactions"))) in Ok (ODict [($"org_ids"); ($"project_ids"); ($"use_case_id")] [x44; x46; x48])) in let! x49 := (Ok ONone) in let! x50 := (Ok ONone) in let! x51 := (Ok ONone) in let! x52 := (Ok (ODict [] [])) in Ok (ODict [($"start"); ($"end"); ($"rollup"); ($"scope"); ($"limit"); ($"offset"); ($"extrapolate"); ($"indexer_mappings")] [x36; x37; x38; x43; x49; x50; x51; x52])) = true.
Proof. vm_compute. reflexivity. Qed.

(* test_metrics_mql_query.py, line 281: wildcard filter query *)
Example t125_test_metrics_mql_query : passes (parse_mql ($"max(d:transactions/duration@millisecond){bar:""baz*""}")) = true.
Proof. vm_compute. reflexivity. Qed.

(* test_metrics_mql_query.py, line 324: negated wildcard filter query *)
Example t126_test_metrics_mql_query : passes (let! q := (let! x1 := (let! t := (let! x11 := (let! m := (let! x2 := (Ok ONone) in let! x3 := (Ok (OStr ($"d:transactions/duration@millisecond"))) in let! x4 := (Ok ONone) in mk_metric x2 x3 x4) in Ok (VMetric m)) in let! x12 := (Ok (OStr ($"max"))) in let! x13 := (Ok ONone) in let! x14 := (let! x5 := (let! x8 := (let! x6 := (Ok (OStr ($"bar"))) in let! x7 := (Ok ONone) in mk_column x6 x7) in let! x9 := (Ok (OOp NOT_LIKE)) in let! x10 := (Ok (OStr ($"baz*"))) in mk_condition x8 x9 x10) in Ok (OList [x5])) in let! x15 := (Ok ONone) in mk_timeseries x11 x12 x13 x14 x15) in Ok (VTS t)) in let! x16 := (let! x17 := (Ok (ODateTime (mkDT (mkDate 2023 1 2) 3 4 5 0 (Some 0)))) in Ok (VObj x17)) in let! x18 := (let! x19 := (Ok (ODateTime (mkDT (mkDate 2023 1 16) 3 4 5 0 (Some 0)))) in Ok (VObj x19)) in let! x20 := (let! t := (let! x21 := (Ok (OInt (3600))) in let! x22 := (Ok ONone) in let! x23 := (Ok ONone) in let! x24 := (Ok (OInt (3600))) in mk_rollup x21 x22 x23 x24) in Ok (VRollup t)) in let! x25 := (let! t := (let! x28 := (let! x26 := (Ok (OInt (1))) in Ok (OList [x26])) in let! x29 := (let! x27 := (Ok (OInt (11))) in Ok (OList [x27])) in let! x30 := (Ok (OStr ($"transactions"))) in mk_scope x28 x29 x30) in Ok (VScope t)) in let! x31 := (Ok VNone) in let! x32 := (Ok VNone) in let! x33 := (Ok VNone) in let! x34 := (let! x35 := (Ok (ODict [] [])) in Ok (VObj x35)) in Ok (mkMQ x1 x16 x18 x20 x25 x31 x32 x33 x34)) in mq_validate q) = true.
Proof. vm_compute. reflexivity. Qed.

(* test_metrics_mql_query.py, line 324: negated wildcard filter query *)
Example t127_test_metrics_mql_query : same_str (let! q := (let! x1 := (let! t := (let! x11 := (let! m := (let! x2 := (Ok ONone) in let! x3 := (Ok (OStr ($"d:transactions/duration@millisecond"))) in let! x4 := (Ok ONone) in mk_metric x2 x3 x4) in Ok (VMetric m)) in let! x12 := (Ok (OStr ($"max"))) in let! x13 := (Ok ONone) in let! x14 := (let! x5 := (let! x8 := (let! x6 := (Ok (OStr ($"bar"))) in let! x7 := (Ok ONone) in mk_column x6 x7) in let! x9 := (Ok (OOp NOT_LIKE)) in let! x10 := (Ok (OStr ($"baz*"))) in mk_condition x8 x9 x10) in Ok (OList [x5])) in let! x15 := (Ok ONone) in mk_timeseries x11 x12 x13 x14 x15) in Ok (VTS t)) in let! x16 := (let! x17 := (Ok (ODateTime (mkDT (mkDate 2023 1 2) 3 4 5 0 (Some 0)))) in Ok (VObj x17)) in let! x18 := (let! x19 := (Ok (ODateTime (mkDT (mkDate 2023 1 16) 3 4 5 0 (Some 0)))) in Ok (VObj x19)) in let! x20 := (let! t := (let! x21 := (Ok (OInt (3600))) in let! x22 := (Ok ONone) in let! x23 := (Ok ONone) in let! x24 := (Ok (OInt (3600))) in mk_rollup x21 x22 x23 x24) in Ok (VRollup t)) in let! x25 := (let! t := (let! x28 := (let! x26 := (Ok (OInt (1))) in Ok (OList [x26])) in let! x29 := (let! x27 := (Ok (OInt (11))) in Ok (OList [x27])) in let! x30 := (Ok (OStr ($"transactions"))) in mk_scope x28 x29 x30) in Ok (VScope t)) in let! x31 := (Ok VNone) in let! x32 := (Ok VNone) in let! x33 := (Ok VNone) in let! x34 := (let! x35 := (Ok (ODict [] [])) in Ok (VObj x35)) in Ok (mkMQ x1 x16 x18 x20 x25 x31 x32 x33 x34)) in let! r := snd (mq_serialize q) in Ok (fst r)) ($"max(d:transactions/duration@millisecond){!bar:""baz*""}") = true.
Proof. vm_compute. reflexivity. Qed.

(* test_metrics_mql_query.py, line 324: negated wildcard filter query *)
Example t128_test_metrics_mql_query : same_dict (let! q := (let! x1 := (let! t := (let! x11 := (let! m := (let! x2 := (Ok ONone) in let! x3 := (Ok (OStr ($"d:transactions/duration@millisecond"))) in let! x4 := (Ok ONone) in mk_metric x2 x3 x4) in Ok (VMetric m)) in let! x12 := (Ok (OStr ($"max"))) in let! x13 := (Ok ONone) in let! x14 := (let! x5 := (let! x8 := (let! x6 := (Ok (OStr ($"bar"))) in let! x7 := (Ok ONone) in mk_column x6 x7) in let! x9 := (Ok (OOp NOT_LIKE)) in let! x10 := (Ok (OStr ($"baz*"))) in mk_condition x8 x9 x10) in Ok (OList [x5])) in let! x15 := (Ok ONone) in mk_timeseries x11 x12 x13 x14 x15) in Ok (VTS t)) in let! x16 := (let! x17 := (Ok (ODateTime (mkDT (mkDate 2023 1 2) 3 4 5 0 (Some 0)))) in Ok (VObj x17)) in let! x18 := (let! x19 := (Ok (ODateTime (mkDT (mkDate 2023 1 16) 3 4 5 0 (Some 0)))) in Ok (VObj x19)) in let! x20 := (let! t := (let! x21 := (Ok (OInt (3600))) in let! x22 := (Ok ONone) in let! x23 := (Ok ONone) in let! x24 := (Ok (OInt (3600))) in mk_rollup x21 x22 x23 x24) in Ok (VRollup t)) in let! x25 := (let! t := (let! x28 := (let! x26 := (Ok (OInt (1))) in Ok (OList [x26])) in let! x29 := (let! x27 := (Ok (OInt (11))) in Ok (OList [x27])) in let! x30 := (Ok (OStr ($"transactions"))) in mk_scope x28 x29 x30) in Ok (VScope t)) in let! x31 := (Ok VNone) in let! x32 := (Ok VNone) in let! x33 := (Ok VNone) in let! x34 := (let! x35 := (Ok (ODict [] [])) in Ok (VObj x35)) in Ok (mkMQ x1 x16 x18 x20 x25 x31 x32 x33 x34)) in let! r := snd (mq_serialize q) in Ok (snd r)) (let! x36 := (Ok (OStr ($"2023-01-02T03:04:05+00:00"))) in let! x37 := (Ok (OStr ($"2023-01-16T03:04:05+00:00"))) in let! x38 := (let! x39 := (Ok ONone) in let! x40 := (Ok (OInt (3600))) in let! x41 := (Ok (OInt (3600))) in let! x42 := (Ok ONone) in Ok (ODict [($"orderby"); ($"granularity"); ($"interval"); ($"with_totals")] [x39; x40; x41; x42])) in let! x43 := (let! x44 := (let! x45 := (Ok (OInt (1))) in Ok (OList [x45])) in let! x46 := (let! x47 := (Ok (OInt (11))) in Ok (OList [x47])) in let! x48 := (Ok (OStr ($"transactions"))) in Ok (ODict [($"org_ids"); ($"project_ids"); ($"use_case_id")] [x44; x46; x48])) in let! x49 := (Ok ONone) in let! x50 := (Ok ONone) in let! x51 := (Ok ONone) in let! x52 := (Ok (ODict [] [])) in Ok (ODict [($"start"); ($"end"); ($"rollup"); ($"scope"); ($"limit"); ($"offset"); ($"extrapolate"); ($"indexer_mappings")] [x36; x37; x38; x43; x49; x50; x51; x52])) = true.
Proof. vm_compute. reflexivity. Qed.

(* test_metrics_mql_query.py, line 324: negated wildcard filter query *)
Example t129_test_metrics_mql_query : passes (parse_mql ($"max(d:transactions/duration@millisecond){!bar:""baz*""}")) = true.
Proof. vm_compute. reflexivity. Qed.

(* test_metrics_mql_query.py, line 367: multiple wildcard filters query *)
Example t130_test_metrics_mql_query : passes (let! q := (let! x1 := (let! t := (let! x20 := (let! m := (let! x2 := (Ok ONone) in let! x3 := (Ok (OStr ($"d:transactions/duration@millisecond"))) in let! x4 := (Ok ONone) in mk_metric x2 x3 x4) in Ok (VMetric m)) in let! x21 := (Ok (OStr ($"max"))) in let! x22 := (Ok ONone) in let! x23 := (let! x5 := (let! x18 := (Ok (OBoolOp AND)) in let! x19 := (let! x6 := (let! x9 := (let! x7 := (Ok (OStr ($"bar"))) in let! x8 := (Ok ONone) in mk_column x7 x8) in let! x10 := (Ok (OOp NOT_LIKE)) in let! x11 := (Ok (OStr ($"baz*"))) in mk_condition x9 x10 x11) in let! x12 := (let! x15 := (let! x13 := (Ok (OStr ($"foo"))) in let! x14 := (Ok ONone) in mk_column x13 x14) in let! x16 := (Ok (OOp LIKE)) in let! x17 := (Ok (OStr ($"prefix*"))) in mk_condition x15 x16 x17) in Ok (OList [x6; x12])) in mk_boolean_condition x18 x19) in Ok (OList [x5])) in let! x24 := (Ok ONone) in mk_timeseries x20 x21 x22 x23 x24) in Ok (VTS t)) in let! x25 := (let! x26 := (Ok (ODateTime (mkDT (mkDate 2023 1 2) 3 4 5 0 (Some 0)))) in Ok (VObj x26)) in let! x27 := (let! x28 := (Ok (ODateTime (mkDT (mkDate 2023 1 16) 3 4 5 0 (Some 0)))) in Ok (VObj x28)) in let! x29 := (let! t := (let! x30 := (Ok (OInt (3600))) in let! x31 := (Ok ONone) in let! x32 := (Ok ONone) in let! x33 := (Ok (OInt (3600))) in mk_rollup x30 x31 x32 x33) in Ok (VRollup t)) in let! x34 := (let! t := (let! x37 := (let! x35 := (Ok (OInt (1))) in Ok (OList [x35])) in let! x38 := (let! x36 := (Ok (OInt (11))) in Ok (OList [x36])) in let! x39 := (Ok (OStr ($"transactions"))) in mk_scope x37 x38 x39) in Ok (VScope t)) in let! x40 := (Ok VNone) in let! x41 := (Ok VNone) in let! x42 := (Ok VNone) in let! x43 := (let! x44 := (Ok (ODict [] [])) in Ok (VObj x44)) in Ok (mkMQ x1 x25 x27 x29 x34 x40 x41 x42 x43)) in mq_validate q) = true.
Proof. vm_compute. reflexivity. Qed.

(* test_metrics_mql_query.py, line 367: multiple wildcard filters query *)
Example t131_test_metrics_mql_query : same_str (let! q := (let! x1 := (let! t := (let! x20 := (let! m := (let! x2 := (Ok ONone) in let! x3 := (Ok (OStr ($"d:transactions/duration@millisecond"))) in let! x4 := (Ok ONone) in mk_metric x2 x3 x4) in Ok (VMetric m)) in let! x21 := (Ok (OStr ($"max"))) in let! x22 := (Ok ONone) in let! x23 := (let! x5 := (let! x18 := (Ok (OBoolOp AND)) in let! x19 := (let! x6 := (let! x9 := (let! x7 := (Ok (OStr ($"bar"))) in let! x8 := (Ok ONone) in mk_column x7 x8) in let! x10 := (Ok (OOp NOT_LIKE)) in let! x11 := (Ok (OStr ($"baz*"))) in mk_condition x9 x10 x11) in let! x12 := (let! x15 := (let! x13 := (Ok (OStr ($"foo"))) in let! x14 := (Ok ONone) in mk_column x13 x14) in let! x16 := (Ok (OOp LIKE)) in let! x17 := (Ok (OStr ($"prefix*"))) in mk_condition x15 x16 x17) in Ok (OList [x6; x12])) in mk_boolean_condition x18 x19) in Ok (OList [x5])) in let! x24 := (Ok ONone) in mk_timeseries x20 x21 x22 x23 x24) in Ok (VTS t)) in let! x25 := (let! x26 := (Ok (ODateTime (mkDT (mkDate 2023 1 2) 3 4 5 0 (Some 0)))) in Ok (VObj x26)) in let! x27 := (let! x28 := (Ok (ODateTime (mkDT (mkDate 2023 1 16) 3 4 5 0 (Some 0)))) in Ok (VObj x28)) in let! x29 := (let! t := (let! x30 := (Ok (OInt (3600))) in let! x31 := (Ok ONone) in let! x32 := (Ok ONone) in let! x33 := (Ok (OInt (3600))) in mk_rollup x30 x31 x32 x33) in Ok (VRollup t)) in let! x34 := (let! t := (let! x37 := (let! x35 := (Ok (OInt (1))) in Ok (OList [x35])) in let! x38 := (let! x36 := (Ok (OInt (11))) in Ok (OList [x36])) in let! x39 := (Ok (OStr ($"transactions"))) in mk_scope x37 x38 x39) in Ok (VScope t)) in let! x40 := (Ok VNone) in let! x41 := (Ok VNone) in let! x42 := (Ok VNone) in let! x43 := (let! x44 := (Ok (ODict [] [])) in Ok (VObj x44)) in Ok (mkMQ x1 x25 x27 x29 x34 x40 x41 x42 x43)) in let! r := snd (mq_serialize q) in Ok (fst r)) ($"max(d:transactions/duration@millisecond){(!bar:""baz*"" AND foo:""prefix*"")}") = true.
Proof. vm_compute. reflexivity. Qed.

(* test_metrics_mql_query.py, line 367: multiple wildcard filters query *)
Example t132_test_metrics_mql_query : same_dict (let! q := (let! x1 := (let! t := (let! x20 := (let! m := (let! x2 := (Ok ONone) in let! x3 := (Ok (OStr ($"d:transactions/duration@millisecond"))) in let! x4 := (Ok ONone) in mk_metric x2 x3 x4) in Ok (VMetric m)) in let! x21 := (Ok (OStr ($"max"))) in let! x22 := (Ok ONone) in let! x23 := (let! x5 := (let! x18 := (Ok (OBoolOp AND)) in let! x19 := (let! x6 := (let! x9 := (let! x7 := (Ok (OStr ($"bar"))) in let! x8 := (Ok ONone) in mk_column x7 x8) in let! x10 := (Ok (OOp NOT_LIKE)) in let! x11 := (Ok (OStr ($"baz*"))) in mk_condition x9 x10 x11) in let! x12 := (let! x15 := (let! x13 := (Ok (OStr ($"foo"))) in let! x14 := (Ok ONone) in mk_column x13 x14) in let! x16 := (Ok (OOp LIKE)) in let! x17 := (Ok (OStr ($"prefix*"))) in mk_condition x15 x16 x17) in Ok (OList [x6; x12])) in mk_boolean_condition x18 x19) in Ok (OList [x5])) in let! x24 := (Ok ONone) in mk_timeseries x20 x21 x22 x23 x24) in Ok (VTS t)) in let! x25 := (let! x26 := (Ok (ODateTime (mkDT (mkDate 2023 1 2) 3 4 5 0 (Some 0)))) in Ok (VObj x26)) in let! x27 := (let! x28 := (Ok (ODateTime (mkDT (mkDate 2023 1 16) 3 4 5 0 (Some 0)))) in Ok (VObj x28)) in let! x29 := (let! t := (let! x30 := (Ok (OInt (3600))) in let! x31 := (Ok ONone) in let! x32 := (Ok ONone) in let! x33 := (Ok (OInt (3600))) in mk_rollup x30 x31 x32 x33) in Ok (VRollup t)) in let! x34 := (let! t := (let! x37 := (let! x35 := (Ok (OInt (1))) in Ok (OList [x35])) in let! x38 := (let! x36 := (Ok (OInt (11))) in Ok (OList [x36])) in let! x39 := (Ok (OStr ($"transactions"))) in mk_scope x37 x38 x39) in Ok (VScope t)) in let! x40 := (Ok VNone) in let! x41 := (Ok VNone) in let! x42 := (Ok VNone) in let! x43 := (let! x44 := (Ok (ODict [] [])) in Ok (VObj x44)) in Ok (mkMQ x1 x25 x27 x29 x34 x40 x41 x42 x43)) in let! r := snd (mq_serialize q) in Ok (snd r)) (let! x45 := (Ok (OStr ($"2023-01-02T03:04:05+00:00"))) in let! x46 := (Ok (OStr ($"2023-01-16T03:04:05+00:00"))) in let! x47 := (let! x48 := (Ok ONone) in let! x49 := (Ok (OInt (3600))) in let! x50 := (Ok (OInt (3600))) in let! x51 := (Ok ONone) in Ok (ODict [($"orderby"); ($"granularity"); ($"interval"); ($"with_totals")] [x48; x49; x50; x51])) in let! x52 := (let! x53 := (let! x54 := (Ok (OInt (1))) in Ok (OList [x54])) in let! x55 := (let! x56 := (Ok (OInt (11))) in Ok (OList [x56])) in let! x57 := (Ok (OStr ($"transactions"))) in Ok (ODict [($"org_ids"); ($"project_ids"); ($"use_case_id")] [x53; x55; x57])) in let! x58 := (Ok ONone) in let! x59 := (Ok ONone) in let! x60 := (Ok ONone) in let! x61 := (Ok (ODict [] [])) in Ok (ODict [($"start"); ($"end"); ($"rollup"); ($"scope"); ($"limit"); ($"offset"); ($"extrapolate"); ($"indexer_mappings")] [x45; x46; x47; x52; x58; x59; x60; x61])) = true.
Proof. vm_compute. reflexivity. Qed.

(* test_metrics_mql_query.py, line 367: multiple wildcard filters query *)
Example t133_test_metrics_mql_query : passes (parse_mql ($"max(d:transactions/duration@millisecond){(!bar:""baz*"" AND foo:""prefix*"")}")) = true.
Proof. vm_compute. reflexivity. Qed.

(* test_metrics_mql_query.py, line 418: multiple nested filters query *)
Example t134_test_metrics_mql_query : passes (let! q := (let! x1 := (let! t := (let! x46 := (let! m := (let! x2 := (Ok ONone) in let! x3 := (Ok (OStr ($"d:transactions/duration@millisecond"))) in let! x4 := (Ok ONone) in mk_metric x2 x3 x4) in Ok (VMetric m)) in let! x47 := (Ok (OStr ($"max"))) in let! x48 := (Ok ONone) in let! x49 := (let! x5 := (let! x8 := (let! x6 := (Ok (OStr ($"bar"))) in let! x7 := (Ok ONone) in mk_column x6 x7) in let! x9 := (Ok (OOp EQ)) in let! x10 := (Ok (OStr ($"baz"))) in mk_condition x8 x9 x10) in let! x11 := (let! x14 := (let! x12 := (Ok (OStr ($"foo"))) in let! x13 := (Ok ONone) in mk_column x12 x13) in let! x15 := (Ok (OOp EQ)) in let! x16 := (Ok (OStr ($"foz"))) in mk_condition x14 x15 x16) in let! x17 := (let! x44 := (Ok (OBoolOp OR)) in let! x45 := (let! x18 := (let! x21 := (let! x19 := (Ok (OStr ($"foo"))) in let! x20 := (Ok ONone) in mk_column x19 x20) in let! x22 := (Ok (OOp EQ)) in let! x23 := (Ok (OStr ($"foz"))) in mk_condition x21 x22 x23) in let! x24 := (let! x27 := (let! x25 := (Ok (OStr ($"hee"))) in let! x26 := (Ok ONone) in mk_column x25 x26) in let! x28 := (Ok (OOp EQ)) in let! x29 := (Ok (OStr ($"hez"))) in mk_condition x27 x28 x29) in let! x30 := (let! x43 := (let! x31 := (let! x34 := (let! x32 := (Ok (OStr ($"foo"))) in let! x33 := (Ok ONone) in mk_column x32 x33) in let! x35 := (Ok (OOp EQ)) in let! x36 := (Ok (OStr ($"foz"))) in mk_condition x34 x35 x36) in let! x37 := (let! x40 := (let! x38 := (Ok (OStr ($"hee"))) in let! x39 := (Ok ONone) in mk_column x38 x39) in let! x41 := (Ok (OOp EQ)) in let! x42 := (Ok (OStr ($"hez"))) in mk_condition x40 x41 x42) in Ok (OList [x31; x37])) in mk_and x43) in Ok (OList [x18; x24; x30])) in mk_boolean_condition x44 x45) in Ok (OList [x5; x11; x17])) in let! x50 := (Ok ONone) in mk_timeseries x46 x47 x48 x49 x50) in Ok (VTS t)) in let! x51 := (let! x52 := (Ok (ODateTime (mkDT (mkDate 2023 1 2) 3 4 5 0 (Some 0)))) in Ok (VObj x52)) in let! x53 := (let! x54 := (Ok (ODateTime (mkDT (mkDate 2023 1 16) 3 4 5 0 (Some 0)))) in Ok (VObj x54)) in let! x55 := (let! t := (let! x56 := (Ok (OInt (3600))) in let! x57 := (Ok ONone) in let! x58 := (Ok ONone) in let! x59 := (Ok (OInt (3600))) in mk_rollup x56 x57 x58 x59) in Ok (VRollup t)) in let! x60 := (let! t := (let! x63 := (let! x61 := (Ok (OInt (1))) in Ok (OList [x61])) in let! x64 := (let! x62 := (Ok (OInt (11))) in Ok (OList [x62])) in let! x65 := (Ok (OStr ($"transactions"))) in mk_scope x63 x64 x65) in Ok (VScope t)) in let! x66 := (Ok VNone) in let! x67 := (Ok VNone) in let! x68 := (Ok VNone) in let! x69 := (let! x70 := (Ok (ODict [] [])) in Ok (VObj x70)) in Ok (mkMQ x1 x51 x53 x55 x60 x66 x67 x68 x69)) in mq_validate q) = true.
Proof. vm_compute. reflexivity. Qed.

(* test_metrics_mql_query.py, line 418: multiple nested filters query *)
Example t135_test_metrics_mql_query : same_str (let! q := (let! x1 := (let! t := (let! x46 := (let! m := (let! x2 := (Ok ONone) in let! x3 := (Ok (OStr ($"d:transactions/duration@millisecond"))) in let! x4 := (Ok ONone) in mk_metric x2 x3 x4) in Ok (VMetric m)) in let! x47 := (Ok (OStr ($"max"))) in let! x48 := (Ok ONone) in let! x49 := (let! x5 := (let! x8 := (let! x6 := (Ok (OStr ($"bar"))) in let! x7 := (Ok ONone) in mk_column x6 x7) in let! x9 := (Ok (OOp EQ)) in let! x10 := (Ok (OStr ($"baz"))) in mk_condition x8 x9 x10) in let! x11 := (let! x14 := (let! x12 := (Ok (OStr ($"foo"))) in let! x13 := (Ok ONone) in mk_column x12 x13) in let! x15 := (Ok (OOp EQ)) in let! x16 := (Ok (OStr ($"foz"))) in mk_condition x14 x15 x16) in let! x17 := (let! x44 := (Ok (OBoolOp OR)) in let! x45 := (let! x18 := (let! x21 := (let! x19 := (Ok (OStr ($"foo"))) in let! x20 := (Ok ONone) in mk_column x19 x20) in let! x22 := (Ok (OOp EQ)) in let! x23 := (Ok (OStr ($"foz"))) in mk_condition x21 x22 x23) in let! x24 := (let! x27 := (let! x25 := (Ok (OStr ($"hee"))) in let! x26 := (Ok ONone) in mk_column x25 x26) in let! x28 := (Ok (OOp EQ)) in let! x29 := (Ok (OStr ($"hez"))) in mk_condition x27 x28 x29) in let! x30 := (let! x43 := (let! x31 := (let! x34 := (let! x32 := (Ok (OStr ($"foo"))) in let! x33 := (Ok ONone) in mk_column x32 x33) in let! x35 := (Ok (OOp EQ)) in let! x36 := (Ok (OStr ($"foz"))) in mk_condition x34 x35 x36) in let! x37 := (let! x40 := (let! x38 := (Ok (OStr ($"hee"))) in let! x39 := (Ok ONone) in mk_column x38 x39) in let! x41 := (Ok (OOp EQ)) in let! x42 := (Ok (OStr ($"hez"))) in mk_condition x40 x41 x42) in Ok (OList [x31; x37])) in mk_and x43) in Ok (OList [x18; x24; x30])) in mk_boolean_condition x44 x45) in Ok (OList [x5; x11; x17])) in let! x50 := (Ok ONone) in mk_timeseries x46 x47 x48 x49 x50) in Ok (VTS t)) in let! x51 := (let! x52 := (Ok (ODateTime (mkDT (mkDate 2023 1 2) 3 4 5 0 (Some 0)))) in Ok (VObj x52)) in let! x53 := (let! x54 := (Ok (ODateTime (mkDT (mkDate 2023 1 16) 3 4 5 0 (Some 0)))) in Ok (VObj x54)) in let! x55 := (let! t := (let! x56 := (Ok (OInt (3600))) in let! x57 := (Ok ONone) in let! x58 := (Ok ONone) in let! x59 := (Ok (OInt (3600))) in mk_rollup x56 x57 x58 x59) in Ok (VRollup t)) in let! x60 := (let! t := (let! x63 := (let! x61 := (Ok (OInt (1))) in Ok (OList [x61])) in let! x64 := (let! x62 := (Ok (OInt (11))) in Ok (OList [x62])) in let! x65 := (Ok (OStr ($"transactions"))) in mk_scope x63 x64 x65) in Ok (VScope t)) in let! x66 := (Ok VNone) in let! x67 := (Ok VNone) in let! x68 := (Ok VNone) in let! x69 := (let! x70 := (Ok (ODict [] [])) in Ok (VObj x70)) in Ok (mkMQ x1 x51 x53 x55 x60 x66 x67 x68 x69)) in let! r := snd (mq_serialize q) in Ok (fst r)) ($"max(d:transactions/duration@millisecond){bar:""baz"" AND foo:""foz"" AND (foo:""foz"" OR hee:""hez"" OR (foo:""foz"" AND hee:""hez""))}") = true.
Proof. vm_compute. reflexivity. Qed.

(* test_metrics_mql_query.py, line 418: multiple nested filters query *)
Example t136_test_metrics_mql_query : same_dict (let! q := (let! x1 := (let! t := (let! x46 := (let! m := (let! x2 := (Ok ONone) in let! x3 := (Ok (OStr ($"d:transactions/duration@millisecond"))) in let! x4 := (Ok ONone) in mk_metric x2 x3 x4) in Ok (VMetric m)) in let! x47 := (Ok (OStr ($"max"))) in let! x48 := (Ok ONone) in let! x49 := (let! x5 := (let! x8 := (let! x6 := (Ok (OStr ($"bar"))) in let! x7 := (Ok ONone) in mk_column x6 x7) in let! x9 := (Ok (OOp EQ)) in let! x10 := (Ok (OStr ($"baz"))) in mk_condition x8 x9 x10) in let! x11 := (let! x14 := (let! x12 := (Ok (OStr ($"foo"))) in let! x13 := (Ok ONone) in mk_column x12 x13) in let! x15 := (Ok (OOp EQ)) in let! x16 := (Ok (OStr ($"foz"))) in mk_condition x14 x15 x16) in let! x17 := (let! x44 := (Ok (OBoolOp OR)) in let! x45 := (let! x18 := (let! x21 := (let! x19 := (Ok (OStr ($"foo"))) in let! x20 := (Ok ONone) in mk_column x19 x20) in let! x22 := (Ok (OOp EQ)) in let! x23 := (Ok (OStr ($"foz"))) in mk_condition x21 x22 x23) in let! x24 := (let! x27 := (let! x25 := (Ok (OStr ($"hee"))) in let! x26 := (Ok ONone) in mk_column x25 x26) in let! x28 := (Ok (OOp EQ)) in let! x29 := (Ok (OStr ($"hez"))) in mk_condition x27 x28 x29) in let! x30 := (let! x43 := (let! x31 := (let! x34 := (let! x32 := (Ok (OStr ($"foo"))) in let! x33 := (Ok ONone) in mk_column x32 x33) in let! x35 := (Ok (OOp EQ)) in let! x36 := (Ok (OStr ($"foz"))) in mk_condition x34 x35 x36) in let! x37 := (let! x40 := (let! x38 := (Ok (OStr ($"hee"))) in let! x39 := (Ok ONone) in mk_column x38 x39) in let! x41 := (Ok (OOp EQ)) in let! x42 := (Ok (OStr ($"hez"))) in mk_condition x40 x41 x42) in Ok (OList [x31; x37])) in mk_and x43) in Ok (OList [x18; x24; x30])) in mk_boolean_condition x44 x45) in Ok (OList [x5; x11; x17])) in let! x50 := (Ok ONone) in mk_timeseries x46 x47 x48 x49 x50) in Ok (VTS t)) in let! x51 := (let! x52 := (Ok (ODateTime (mkDT (mkDate 2023 1 2) 3 4 5 0 (Some 0)))) in Ok (VObj x52)) in let! x53 := (let! x54 := (Ok (ODateTime (mkDT (mkDate 2023 1 16) 3 4 5 0 (Some 0)))) in Ok (VObj x54)) in let! x55 := (let! t := (let! x56 := (Ok (OInt (3600))) in let! x57 := (Ok ONone) in let! x58 := (Ok ONone) in let! x59 := (Ok (OInt (3600))) in mk_rollup x56 x57 x58 x59) in Ok (VRollup t)) in let! x60 := (let! t := (let! x63 := (let! x61 := (Ok (OInt (1))) in Ok (OList [x61])) in let! x64 := (let! x62 := (Ok (OInt (11))) in Ok (OList [x62])) in let! x65 := (Ok (OStr ($"transactions"))) in mk_scope x63 x64 x65) in Ok (VScope t)) in let! x66 := (Ok VNone) in let! x67 := (Ok VNone) in let! x68 := (Ok VNone) in let! x69 := (let! x70 := (Ok (ODict [] [])) in Ok (VObj x70)) in Ok (mkMQ x1 x51 x53 x55 x60 x66 x67 x68 x69)) in let! r := snd (mq_serialize q) in Ok (snd r)) (let! x71 := (Ok (OStr ($"2023-01-02T03:04:05+00:00"))) in let! x72 := (Ok (OStr ($"2023-01-16T03:04:05+00:00"))) in let! x73 := (let! x74 := (Ok ONone) in let! x75 := (Ok (OInt (3600))) in let! x76 := (Ok (OInt (3600))) in let! x77 := (Ok ONone) in Ok (ODict [($"orderby"); ($"granularity"); ($"interval"); ($"with_totals")] [x74; x75; x76; x77])) in let! x78 := (let! x79 := (let! x80 := (Ok (OInt (1))) in Ok (OList [x80])) in let! x81 := (let! x82 := (Ok (OInt (11))) in Ok (OList [x82])) in let! x83 := (Ok (OStr ($"transactions"))) in Ok (ODict [($"org_ids"); ($"project_ids"); ($"use_case_id")] [x79; x81; x83])) in let! x84 := (Ok ONone) in let! x85 := (Ok ONone) in let! x86 := (Ok ONone) in let! x87 := (Ok (ODict [] [])) in Ok (ODict [($"start"); ($"end"); ($"rollup"); ($"scope"); ($"limit"); ($"offset"); ($"extrapolate"); ($"indexer_mappings")] [x71; x72; x73; x78; x84; x85; x86; x87])) = true.
Proof. vm_compute. reflexivity. Qed.

(* test_metrics_mql_query.py, line 418: multiple nested filters query *)
Example t137_test_metrics_mql_query : passes (parse_mql ($"max(d:transactions/duration@millisecond){bar:""baz"" AND foo:""foz"" AND (foo:""foz"" OR hee:""hez"" OR (foo:""foz"" AND hee:""hez""))}")) = true.
Proof. vm_compute. reflexivity. Qed.

(* test_metrics_mql_query.py, line 478: groupby query *)
Example t138_test_metrics_mql_query : passes (let! q := (let! x1 := (let! t := (let! x8 := (let! m := (let! x2 := (Ok ONone) in let! x3 := (Ok (OStr ($"d:transactions/duration@millisecond"))) in let! x4 := (Ok ONone) in mk_metric x2 x3 x4) in Ok (VMetric m)) in let! x9 := (Ok (OStr ($"max"))) in let! x10 := (Ok ONone) in let! x11 := (Ok ONone) in let! x12 := (let! x5 := (let! x6 := (Ok (OStr ($"transaction"))) in let! x7 := (Ok ONone) in mk_column x6 x7) in Ok (OList [x5])) in mk_timeseries x8 x9 x10 x11 x12) in Ok (VTS t)) in let! x13 := (let! x14 := (Ok (ODateTime (mkDT (mkDate 2023 1 2) 3 4 5 0 (Some 0)))) in Ok (VObj x14)) in let! x15 := (let! x16 := (Ok (ODateTime (mkDT (mkDate 2023 1 16) 3 4 5 0 (Some 0)))) in Ok (VObj x16)) in let! x17 := (let! t := (let! x18 := (Ok (OInt (3600))) in let! x19 := (Ok ONone) in let! x20 := (Ok ONone) in let! x21 := (Ok (OInt (3600))) in mk_rollup x18 x19 x20 x21) in Ok (VRollup t)) in let! x22 := (let! t := (let! x25 := (let! x23 := (Ok (OInt (1))) in Ok (OList [x23])) in let! x26 := (let! x24 := (Ok (OInt (11))) in Ok (OList [x24])) in let! x27 := (Ok (OStr ($"transactions"))) in mk_scope x25 x26 x27) in Ok (VScope t)) in let! x28 := (Ok VNone) in let! x29 := (Ok VNone) in let! x30 := (Ok VNone) in let! x31 := (let! x32 := (Ok (ODict [] [])) in Ok (VObj x32)) in Ok (mkMQ x1 x13 x15 x17 x22 x28 x29 x30 x31)) in mq_validate q) = true.
Proof. vm_compute. reflexivity. Qed.

(* test_metrics_mql_query.py, line 478: groupby query *)
Example t139_test_metrics_mql_query : same_str (let! q := (let! x1 := (let! t := (let! x8 := (let! m := (let! x2 := (Ok ONone) in let! x3 := (Ok (OStr ($"d:transactions/duration@millisecond"))) in let! x4 := (Ok ONone) in mk_metric x2 x3 x4) in Ok (VMetric m)) in let! x9 := (Ok (OStr ($"max"))) in let! x10 := (Ok ONone) in let! x11 := (Ok ONone) in let! x12 := (let! x5 := (let! x6 := (Ok (OStr ($"transaction"))) in let! x7 := (Ok ONone) in mk_column x6 x7) in Ok (OList [x5])) in mk_timeseries x8 x9 x10 x11 x12) in Ok (VTS t)) in let! x13 := (let! x14 := (Ok (ODateTime (mkDT (mkDate 2023 1 2) 3 4 5 0 (Some 0)))) in Ok (VObj x14)) in let! x15 := (let! x16 := (Ok (ODateTime (mkDT (mkDate 2023 1 16) 3 4 5 0 (Some 0)))) in Ok (VObj x16)) in let! x17 := (let! t := (let! x18 := (Ok (OInt (3600))) in let! x19 := (Ok ONone) in let! x20 := (Ok ONone) in let! x21 := (Ok (OInt (3600))) in mk_rollup x18 x19 x20 x21) in Ok (VRollup t)) in let! x22 := (let! t := (let! x25 := (let! x23 := (Ok (OInt (1))) in Ok (OList [x23])) in let! x26 := (let! x24 := (Ok (OInt (11))) in Ok (OList [x24])) in let! x27 := (Ok (OStr ($"transactions"))) in mk_scope x25 x26 x27) in Ok (VScope t)) in let! x28 := (Ok VNone) in let! x29 := (Ok VNone) in let! x30 := (Ok VNone) in let! x31 := (let! x32 := (Ok (ODict [] [])) in Ok (VObj x32)) in Ok (mkMQ x1 x13 x15 x17 x22 x28 x29 x30 x31)) in let! r := snd (mq_serialize q) in Ok (fst r)) ($"max(d:transactions/duration@millisecond) by (transaction)") = true.
Proof. vm_compute. reflexivity. Qed.

(* test_metrics_mql_query.py, line 478: groupby query *)
Example t140_test_metrics_mql_query : same_dict (let! q := (let! x1 := (let! t := (let! x8 := (let! m := (let! x2 := (Ok ONone) in let! x3 := (Ok (OStr ($"d:transactions/duration@millisecond"))) in let! x4 := (Ok ONone) in mk_metric x2 x3 x4) in Ok (VMetric m)) in let! x9 := (Ok (OStr ($"max"))) in let! x10 := (Ok ONone) in let! x11 := (Ok ONone) in let! x12 := (let! x5 := (let! x6 := (Ok (OStr ($"transaction"))) in let! x7 := (Ok ONone) in mk_column x6 x7) in Ok (OList [x5])) in mk_timeseries x8 x9 x10 x11 x12) in Ok (VTS t)) in let! x13 := (let! x14 := (Ok (ODateTime (mkDT (mkDate 2023 1 2) 3 4 5 0 (Some 0)))) in Ok (VObj x14)) in let! x15 := (let! x16 := (Ok (ODateTime (mkDT (mkDate 2023 1 16) 3 4 5 0 (Some 0)))) in Ok (VObj x16)) in let! x17 := (let! t := (let! x18 := (Ok (OInt (3600))) in let! x19 := (Ok ONone) in let! x20 := (Ok ONone) in let! x21 := (Ok (OInt (3600))) in mk_rollup x18 x19 x20 x21) in Ok (VRollup t)) in let! x22 := (let! t := (let! x25 := (let! x23 := (Ok (OInt (1))) in Ok (OList [x23])) in let! x26 := (let! x24 := (Ok (OInt (11))) in Ok (OList [x24])) in let! x27 := (Ok (OStr ($"transactions"))) in mk_scope x25 x26 x27) in Ok (VScope t)) in let! x28 := (Ok VNone) in let! x29 := (Ok VNone) in let! x30 := (Ok VNone) in let! x31 := (let! x32 := (Ok (ODict [] [])) in Ok (VObj x32)) in Ok (mkMQ x1 x13 x15 x17 x22 x28 x29 x30 x31)) in let! r := snd (mq_serialize q) in Ok (snd r)) (let! x33 := (Ok (OStr ($"2023-01-02T03:04:05+00:00"))) in let! x34 := (Ok (OStr ($"2023-01-16T03:04:05+00:00"))) in let! x35 := (let! x36 := (Ok ONone) in let! x37 := (Ok (OInt (3600))) in let! x38 := (Ok (OInt (3600))) in let! x39 := (Ok ONone) in Ok (ODict [($"orderby"); ($"granularity"); ($"interval"); ($"with_totals")] [x36; x37; x38; x39])) in let! x40 := (let! x41 := (let! x42 := (Ok (OInt (1))) in Ok (OList [x42])) in let! x43 := (let! x44 := (Ok (OInt (11))) in Ok (OList [x44])) in let! x45 := (Ok (OStr ($"transactions"))) in Ok (ODict [($"org_ids"); ($"project_ids"); ($"use_case_id")] [x41; x43; x45])) in let! x46 := (Ok ONone) in let! x47 := (Ok ONone) in let! x48 := (Ok ONone) in let! x49 := (Ok (ODict [] [])) in Ok (ODict [($"start"); ($"end"); ($"rollup"); ($"scope"); ($"limit"); ($"offset"); ($"extrapolate"); ($"indexer_mappings")] [x33; x34; x35; x40; x46; x47; x48; x49])) = true.
Proof. vm_compute. reflexivity. Qed.

(* test_metrics_mql_query.py, line 478: groupby query *)
Example t141_test_metrics_mql_query : passes (parse_mql ($"max(d:transactions/duration@millisecond) by (transaction)")) = true.
Proof. vm_compute. reflexivity. Qed.

(* test_metrics_mql_query.py, line 521: multiple groupby query *)
Example t142_test_metrics_mql_query : passes (let! q := (let! x1 := (let! t := (let! x11 := (let! m := (let! x2 := (Ok ONone) in let! x3 := (Ok (OStr ($"d:transactions/duration@millisecond"))) in let! x4 := (Ok ONone) in mk_metric x2 x3 x4) in Ok (VMetric m)) in let! x12 := (Ok (OStr ($"max"))) in let! x13 := (Ok ONone) in let! x14 := (Ok ONone) in let! x15 := (let! x5 := (let! x6 := (Ok (OStr ($"a"))) in let! x7 := (Ok ONone) in mk_column x6 x7) in let! x8 := (let! x9 := (Ok (OStr ($"b"))) in let! x10 := (Ok ONone) in mk_column x9 x10) in Ok (OList [x5; x8])) in mk_timeseries x11 x12 x13 x14 x15) in Ok (VTS t)) in let! x16 := (let! x17 := (Ok (ODateTime (mkDT (mkDate 2023 1 2) 3 4 5 0 (Some 0)))) in Ok (VObj x17)) in let! x18 := (let! x19 := (Ok (ODateTime (mkDT (mkDate 2023 1 16) 3 4 5 0 (Some 0)))) in Ok (VObj x19)) in let! x20 := (let! t := (let! x21 := (Ok (OInt (3600))) in let! x22 := (Ok ONone) in let! x23 := (Ok ONone) in let! x24 := (Ok (OInt (3600))) in mk_rollup x21 x22 x23 x24) in Ok (VRollup t)) in let! x25 := (let! t := (let! x28 := (let! x26 := (Ok (OInt (1))) in Ok (OList [x26])) in let! x29 := (let! x27 := (Ok (OInt (11))) in Ok (OList [x27])) in let! x30 := (Ok (OStr ($"transactions"))) in mk_scope x28 x29 x30) in Ok (VScope t)) in let! x31 := (Ok VNone) in let! x32 := (Ok VNone) in let! x33 := (let! x34 := (let! x35 := (Ok (OBool false)) in mk_extrapolate x35) in Ok (VObj x34)) in let! x36 := (let! x37 := (let! x38 := (Ok (OInt (11235813))) in Ok (ODict [($"d:transactions/duration@millisecond")] [x38])) in Ok (VObj x37)) in Ok (mkMQ x1 x16 x18 x20 x25 x31 x32 x33 x36)) in mq_validate q) = true.
Proof. vm_compute. reflexivity. Qed.

(* test_metrics_mql_query.py, line 521: multiple groupby query *)
Example t143_test_metrics_mql_query : same_str (let! q := (let! x1 := (let! t := (let! x11 := (let! m := (let! x2 := (Ok ONone) in let! x3 := (Ok (OStr ($"d:transactions/duration@millisecond"))) in let! x4 := (Ok ONone) in mk_metric x2 x3 x4) in Ok (VMetric m)) in let! x12 := (Ok (OStr ($"max"))) in let! x13 := (Ok ONone) in let! x14 := (Ok ONone) in let! x15 := (let! x5 := (let! x6 := (Ok (OStr ($"a"))) in let! x7 := (Ok ONone) in mk_column x6 x7) in let! x8 := (let! x9 := (Ok (OStr ($"b"))) in let! x10 := (Ok ONone) in mk_column x9 x10) in Ok (OList [x5; x8])) in mk_timeseries x11 x12 x13 x14 x15) in Ok (VTS t)) in let! x16 := (let! x17 := (Ok (ODateTime (mkDT (mkDate 2023 1 2) 3 4 5 0 (Some 0)))) in Ok (VObj x17)) in let! x18 := (let! x19 := (Ok (ODateTime (mkDT (mkDate 2023 1 16) 3 4 5 0 (Some 0)))) in Ok (VObj x19)) in let! x20 := (let! t := (let! x21 := (Ok (OInt (3600))) in let! x22 := (Ok ONone) in let! x23 := (Ok ONone) in let! x24 := (Ok (OInt (3600))) in mk_rollup x21 x22 x23 x24) in Ok (VRollup t)) in let! x25 := (let! t := (let! x28 := (let! x26 := (Ok (OInt (1))) in Ok (OList [x26])) in let! x29 := (let! x27 := (Ok (OInt (11))) in Ok (OList [x27])) in let! x30 := (Ok (OStr ($"transactions"))) in mk_scope x28 x29 x30) in Ok (VScope t)) in let! x31 := (Ok VNone) in let! x32 := (Ok VNone) in let! x33 := (let! x34 := (let! x35 := (Ok (OBool false)) in mk_extrapolate x35) in Ok (VObj x34)) in let! x36 := (let! x37 := (let! x38 := (Ok (OInt (11235813))) in Ok (ODict [($"d:transactions/duration@millisecond")] [x38])) in Ok (VObj x37)) in Ok (mkMQ x1 x16 x18 x20 x25 x31 x32 x33 x36)) in let! r := snd (mq_serialize q) in Ok (fst r)) ($"max(d:transactions/duration@millisecond) by (a, b)") = true.
Proof. vm_compute. reflexivity. Qed.

(* test_metrics_mql_query.py, line 521: multiple groupby query *)
Example t144_test_metrics_mql_query : same_dict (let! q := (let! x1 := (let! t := (let! x11 := (let! m := (let! x2 := (Ok ONone) in let! x3 := (Ok (OStr ($"d:transactions/duration@millisecond"))) in let! x4 := (Ok ONone) in mk_metric x2 x3 x4) in Ok (VMetric m)) in let! x12 := (Ok (OStr ($"max"))) in let! x13 := (Ok ONone) in let! x14 := (Ok ONone) in let! x15 := (let! x5 := (let! x6 := (Ok (OStr ($"a"))) in let! x7 := (Ok ONone) in mk_column x6 x7) in let! x8 := (let! x9 := (Ok (OStr ($"b"))) in let! x10 := (Ok ONone) in mk_column x9 x10) in Ok (OList [x5; x8])) in mk_timeseries x11 x12 x13 x14 x15) in Ok (VTS t)) in let! x16 := (let! x17 := (Ok (ODateTime (mkDT (mkDate 2023 1 2) 3 4 5 0 (Some 0)))) in Ok (VObj x17)) in let! x18 := (let! x19 := (Ok (ODateTime (mkDT (mkDate 2023 1 16) 3 4 5 0 (Some 0)))) in Ok (VObj x19)) in let! x20 := (let! t := (let! x21 := (Ok (OInt (3600))) in let! x22 := (Ok ONone) in let! x23 := (Ok ONone) in let! x24 := (Ok (OInt (3600))) in mk_rollup x21 x22 x23 x24) in Ok (VRollup t)) in let! x25 := (let! t := (let! x28 := (let! x26 := (Ok (OInt (1))) in Ok (OList [x26])) in let! x29 := (let! x27 := (Ok (OInt (11))) in Ok (OList [x27])) in let! x30 := (Ok (OStr ($"transactions"))) in mk_scope x28 x29 x30) in Ok (VScope t)) in let! x31 := (Ok VNone) in let! x32 := (Ok VNone) in let! x33 := (let! x34 := (let! x35 := (Ok (OBool false)) in mk_extrapolate x35) in Ok (VObj x34)) in let! x36 := (let! x37 := (let! x38 := (Ok (OInt (11235813))) in Ok (ODict [($"d:transactions/duration@millisecond")] [x38])) in Ok (VObj x37)) in Ok (mkMQ x1 x16 x18 x20 x25 x31 x32 x33 x36)) in let! r := snd (mq_serialize q) in Ok (snd r)) (let! x39 := (Ok (OStr ($"2023-01-02T03:04:05+00:00"))) in let! x40 := (Ok (OStr ($"2023-01-16T03:04:05+00:00"))) in let! x41 := (let! x42 := (Ok ONone) in let! x43 := (Ok (OInt (3600))) in let! x44 := (Ok (OInt (3600))) in let! x45 := (Ok ONone) in Ok (ODict [($"orderby"); ($"granularity"); ($"interval"); ($"with_totals")] [x42; x43; x44; x45])) in let! x46 := (let! x47 := (let! x48 := (Ok (OInt (1))) in Ok (OList [x48])) in let! x49 := (let! x50 := (Ok (OInt (11))) in Ok (OList [x50])) in let! x51 := (Ok (OStr ($"transactions"))) in Ok (ODict [($"org_ids"); ($"project_ids"); ($"use_case_id")] [x47; x49; x51])) in let! x52 := (Ok ONone) in let! x53 := (Ok ONone) in let! x54 := (Ok (OBool false)) in let! x55 := (let! x56 := (Ok (OInt (11235813))) in Ok (ODict [($"d:transactions/duration@millisecond")] [x56])) in Ok (ODict [($"start"); ($"end"); ($"rollup"); ($"scope"); ($"limit"); ($"offset"); ($"extrapolate"); ($"indexer_mappings")] [x39; x40; x41; x46; x52; x53; x54; x55])) = true.
Proof. vm_compute. reflexivity. Qed.

(* test_metrics_mql_query.py, line 521: multiple groupby query *)
Example t145_test_metrics_mql_query : passes (parse_mql ($"max(d:transactions/duration@millisecond) by (a, b)")) = true.
Proof. vm_compute. reflexivity. Qed.

(* test_metrics_mql_query.py, line 565: complex single timeseries query *)
Example t146_test_metrics_mql_query : passes (let! q := (let! x1 := (let! t := (let! x14 := (let! m := (let! x2 := (Ok ONone) in let! x3 := (Ok (OStr ($"d:transactions/duration@millisecond"))) in let! x4 := (Ok ONone) in mk_metric x2 x3 x4) in Ok (VMetric m)) in let! x15 := (Ok (OStr ($"max"))) in let! x16 := (Ok ONone) in let! x17 := (let! x5 := (let! x8 := (let! x6 := (Ok (OStr ($"bar"))) in let! x7 := (Ok ONone) in mk_column x6 x7) in let! x9 := (Ok (OOp EQ)) in let! x10 := (Ok (OStr ($"baz"))) in mk_condition x8 x9 x10) in Ok (OList [x5])) in let! x18 := (let! x11 := (let! x12 := (Ok (OStr ($"transaction"))) in let! x13 := (Ok ONone) in mk_column x12 x13) in Ok (OList [x11])) in mk_timeseries x14 x15 x16 x17 x18) in Ok (VTS t)) in let! x19 := (let! x20 := (Ok (ODateTime (mkDT (mkDate 2023 1 2) 3 4 5 0 (Some 0)))) in Ok (VObj x20)) in let! x21 := (let! x22 := (Ok (ODateTime (mkDT (mkDate 2023 1 16) 3 4 5 0 (Some 0)))) in Ok (VObj x22)) in let! x23 := (let! t := (let! x24 := (Ok (OInt (3600))) in let! x25 := (Ok ONone) in let! x26 := (Ok ONone) in let! x27 := (Ok (OInt (3600))) in mk_rollup x24 x25 x26 x27) in Ok (VRollup t)) in let! x28 := (let! t := (let! x31 := (let! x29 := (Ok (OInt (1))) in Ok (OList [x29])) in let! x32 := (let! x30 := (Ok (OInt (11))) in Ok (OList [x30])) in let! x33 := (Ok (OStr ($"transactions"))) in mk_scope x31 x32 x33) in Ok (VScope t)) in let! x34 := (let! x35 := (let! x36 := (Ok (OInt (100))) in mk_limit x36) in Ok (VObj x35)) in let! x37 := (let! x38 := (let! x39 := (Ok (OInt (5))) in mk_offset x39) in Ok (VObj x38)) in let! x40 := (let! x41 := (let! x42 := (Ok (OBool true)) in mk_extrapolate x42) in Ok (VObj x41)) in let! x43 := (let! x44 := (Ok (ODict [] [])) in Ok (VObj x44)) in Ok (mkMQ x1 x19 x21 x23 x28 x34 x37 x40 x43)) in mq_validate q) = true.
Proof. vm_compute. reflexivity. Qed.

(* test_metrics_mql_query.py, line 565: complex single timeseries query *)
Example t147_test_metrics_mql_query : same_str (let! q := (let! x1 := (let! t := (let! x14 := (let! m := (let! x2 := (Ok ONone) in let! x3 := (Ok (OStr ($"d:transactions/duration@millisecond"))) in let! x4 := (Ok ONone) in mk_metric x2 x3 x4) in Ok (VMetric m)) in let! x15 := (Ok (OStr ($"max"))) in let! x16 := (Ok ONone) in let! x17 := (let! x5 := (let! x8 := (let! x6 := (Ok (OStr ($"bar"))) in let! x7 := (Ok ONone) in mk_column x6 x7) in let! x9 := (Ok (OOp EQ)) in let! x10 := (Ok (OStr ($"baz"))) in mk_condition x8 x9 x10) in Ok (OList [x5])) in let! x18 := (let! x11 := (let! x12 := (Ok (OStr ($"transaction"))) in let! x13 := (Ok ONone) in mk_column x12 x13) in Ok (OList [x11])) in mk_timeseries x14 x15 x16 x17 x18) in Ok (VTS t)) in let! x19 := (let! x20 := (Ok (ODateTime (mkDT (mkDate 2023 1 2) 3 4 5 0 (Some 0)))) in Ok (VObj x20)) in let! x21 := (let! x22 := (Ok (ODateTime (mkDT (mkDate 2023 1 16) 3 4 5 0 (Some 0)))) in Ok (VObj x22)) in let! x23 := (let! t := (let! x24 := (Ok (OInt (3600))) in let! x25 := (Ok ONone) in let! x26 := (Ok ONone) in let! x27 := (Ok (OInt (3600))) in mk_rollup x24 x25 x26 x27) in Ok (VRollup t)) in let! x28 := (let! t := (let! x31 := (let! x29 := (Ok (OInt (1))) in Ok (OList [x29])) in let! x32 := (let! x30 := (Ok (OInt (11))) in Ok (OList [x30])) in let! x33 := (Ok (OStr ($"transactions"))) in mk_scope x31 x32 x33) in Ok (VScope t)) in let! x34 := (let! x35 := (let! x36 := (Ok (OInt (100))) in mk_limit x36) in Ok (VObj x35)) in let! x37 := (let! x38 := (let! x39 := (Ok (OInt (5))) in mk_offset x39) in Ok (VObj x38)) in let! x40 := (let! x41 := (let! x42 := (Ok (OBool true)) in mk_extrapolate x42) in Ok (VObj x41)) in let! x43 := (let! x44 := (Ok (ODict [] [])) in Ok (VObj x44)) in Ok (mkMQ x1 x19 x21 x23 x28 x34 x37 x40 x43)) in let! r := snd (mq_serialize q) in Ok (fst r)) ($"max(d:transactions/duration@millisecond){bar:""baz""} by (transaction)") = true.
Proof. vm_compute. reflexivity. Qed.

(* test_metrics_mql_query.py, line 565: complex single timeseries query *)
Example t148_test_metrics_mql_query : same_dict (let! q := (let! x1 := (let! t := (let! x14 := (let! m := (let! x2 := (Ok ONone) in let! x3 := (Ok (OStr ($"d:transactions/duration@millisecond"))) in let! x4 := (Ok ONone) in mk_metric x2 x3 x4) in Ok (VMetric m)) in let! x15 := (Ok (OStr ($"max"))) in let! x16 := (Ok ONone) in let! x17 := (let! x5 := (let! x8 := (let! x6 := (Ok (OStr ($"bar"))) in let! x7 := (Ok ONone) in mk_column x6 x7) in let! x9 := (Ok (OOp EQ)) in let! x10 := (Ok (OStr ($"baz"))) in mk_condition x8 x9 x10) in Ok (OList [x5])) in let! x18 := (let! x11 := (let! x12 := (Ok (OStr ($"transaction"))) in let! x13 := (Ok ONone) in mk_column x12 x13) in Ok (OList [x11])) in mk_timeseries x14 x15 x16 x17 x18) in Ok (VTS t)) in let! x19 := (let! x20 := (Ok (ODateTime (mkDT (mkDate 2023 1 2) 3 4 5 0 (Some 0)))) in Ok (VObj x20)) in let! x21 := (let! x22 := (Ok (ODateTime (mkDT (mkDate 2023 1 16) 3 4 5 0 (Some 0)))) in Ok (VObj x22)) in let! x23 := (let! t := (let! x24 := (Ok (OInt (3600))) in let! x25 := (Ok ONone) in let! x26 := (Ok ONone) in let! x27 := (Ok (OInt (3600))) in mk_rollup x24 x25 x26 x27) in Ok (VRollup t)) in let! x28 := (let! t := (let! x31 := (let! x29 := (Ok (OInt (1))) in Ok (OList [x29])) in let! x32 := (let! x30 := (Ok (OInt (11))) in Ok (OList [x30])) in let! x33 := (Ok (OStr ($"transactions"))) in mk_scope x31 x32 x33) in Ok (VScope t)) in let! x34 := (let! x35 := (let! x36 := (Ok (OInt (100))) in mk_limit x36) in Ok (VObj x35)) in let! x37 := (let! x38 := (let! x39 := (Ok (OInt (5))) in mk_offset x39) in Ok (VObj x38)) in let! x40 := (let! x41 := (let! x42 := (Ok (OBool true)) in mk_extrapolate x42) in Ok (VObj x41)) in let! x43 := (let! x44 := (Ok (ODict [] [])) in Ok (VObj x44)) in Ok (mkMQ x1 x19 x21 x23 x28 x34 x37 x40 x43)) in let! r := snd (mq_serialize q) in Ok (snd r)) (let! x45 := (Ok (OStr ($"2023-01-02T03:04:05+00:00"))) in let! x46 := (Ok (OStr ($"2023-01-16T03:04:05+00:00"))) in let! x47 := (let! x48 := (Ok ONone) in let! x49 := (Ok (OInt (3600))) in let! x50 := (Ok (OInt (3600))) in let! x51 := (Ok ONone) in Ok (ODict [($"orderby"); ($"granularity"); ($"interval"); ($"with_totals")] [x48; x49; x50; x51])) in let! x52 := (let! x53 := (let! x54 := (Ok (OInt (1))) in Ok (OList [x54])) in let! x55 := (let! x56 := (Ok (OInt (11))) in Ok (OList [x56])) in let! x57 := (Ok (OStr ($"transactions"))) in Ok (ODict [($"org_ids"); ($"project_ids"); ($"use_case_id")] [x53; x55; x57])) in let! x58 := (Ok (OInt (100))) in let! x59 := (Ok (OInt (5))) in let! x60 := (Ok (OBool true)) in let! x61 := (Ok (ODict [] [])) in Ok (ODict [($"start"); ($"end"); ($"rollup"); ($"scope"); ($"limit"); ($"offset"); ($"extrapolate"); ($"indexer_mappings")] [x45; x46; x47; x52; x58; x59; x60; x61])) = true.
Proof. vm_compute. reflexivity. Qed.

(* test_metrics_mql_query.py, line 565: complex single timeseries query *)
Example t149_test_metrics_mql_query : passes (parse_mql ($"max(d:transactions/duration@millisecond){bar:""baz""} by (transaction)")) = true.
Proof. vm_compute. reflexivity. Qed.

(* test_metrics_mql_query.py, line 611: test_crazy_characters *)
Example t150_test_metrics_mql_query : passes (let! q := (let! x1 := (let! t := (let! x14 := (let! m := (let! x2 := (Ok ONone) in let! x3 := (Ok (OStr ($"d:transactions/duration@millisecond"))) in let! x4 := (Ok ONone) in mk_metric x2 x3 x4) in Ok (VMetric m)) in let! x15 := (Ok (OStr ($"max"))) in let! x16 := (Ok ONone) in let! x17 := (let! x5 := (let! x8 := (let! x6 := (Ok (OStr ($"bar"))) in let! x7 := (Ok ONone) in mk_column x6 x7) in let! x9 := (Ok (OOp EQ)) in let! x10 := (Ok (OStr ($" !""#$%&'()*+,-./0123456789:;<=>?@ABCDEFGHIJKLMNOPQRSTUVWXYZ[\]^_`abcdefghijklmnopqrstuvwxyz{|}~"))) in mk_condition x8 x9 x10) in Ok (OList [x5])) in let! x18 := (let! x11 := (let! x12 := (Ok (OStr ($"transaction"))) in let! x13 := (Ok ONone) in mk_column x12 x13) in Ok (OList [x11])) in mk_timeseries x14 x15 x16 x17 x18) in Ok (VTS t)) in let! x19 := (let! x20 := (Ok (ODateTime (mkDT (mkDate 2023 1 2) 3 4 5 0 (Some 0)))) in Ok (VObj x20)) in let! x21 := (let! x22 := (Ok (ODateTime (mkDT (mkDate 2023 1 16) 3 4 5 0 (Some 0)))) in Ok (VObj x22)) in let! x23 := (let! t := (let! x24 := (Ok (OInt (3600))) in let! x25 := (Ok ONone) in let! x26 := (Ok ONone) in let! x27 := (Ok (OInt (3600))) in mk_rollup x24 x25 x26 x27) in Ok (VRollup t)) in let! x28 := (let! t := (let! x31 := (let! x29 := (Ok (OInt (1))) in Ok (OList [x29])) in let! x32 := (let! x30 := (Ok (OInt (11))) in Ok (OList [x30])) in let! x33 := (Ok (OStr ($"transactions"))) in mk_scope x31 x32 x33) in Ok (VScope t)) in let! x34 := (let! x35 := (let! x36 := (Ok (OInt (100))) in mk_limit x36) in Ok (VObj x35)) in let! x37 := (let! x38 := (let! x39 := (Ok (OInt (5))) in mk_offset x39) in Ok (VObj x38)) in let! x40 := (Ok VNone) in let! x41 := (let! x42 := (Ok (ODict [] [])) in Ok (VObj x42)) in Ok (mkMQ x1 x19 x21 x23 x28 x34 x37 x40 x41)) in mq_validate q) = true.
Proof. vm_compute. reflexivity. Qed.

(* test_metrics_mql_query.py, line 611: test_crazy_characters *)
Example t151_test_metrics_mql_query : same_str (let! q := (let! x1 := (let! t := (let! x14 := (let! m := (let! x2 := (Ok ONone) in let! x3 := (Ok (OStr ($"d:transactions/duration@millisecond"))) in let! x4 := (Ok ONone) in mk_metric x2 x3 x4) in Ok (VMetric m)) in let! x15 := (Ok (OStr ($"max"))) in let! x16 := (Ok ONone) in let! x17 := (let! x5 := (let! x8 := (let! x6 := (Ok (OStr ($"bar"))) in let! x7 := (Ok ONone) in mk_column x6 x7) in let! x9 := (Ok (OOp EQ)) in let! x10 := (Ok (OStr ($" !""#$%&'()*+,-./0123456789:;<=>?@ABCDEFGHIJKLMNOPQRSTUVWXYZ[\]^_`abcdefghijklmnopqrstuvwxyz{|}~"))) in mk_condition x8 x9 x10) in Ok (OList [x5])) in let! x18 := (let! x11 := (let! x12 := (Ok (OStr ($"transaction"))) in let! x13 := (Ok ONone) in mk_column x12 x13) in Ok (OList [x11])) in mk_timeseries x14 x15 x16 x17 x18) in Ok (VTS t)) in let! x19 := (let! x20 := (Ok (ODateTime (mkDT (mkDate 2023 1 2) 3 4 5 0 (Some 0)))) in Ok (VObj x20)) in let! x21 := (let! x22 := (Ok (ODateTime (mkDT (mkDate 2023 1 16) 3 4 5 0 (Some 0)))) in Ok (VObj x22)) in let! x23 := (let! t := (let! x24 := (Ok (OInt (3600))) in let! x25 := (Ok ONone) in let! x26 := (Ok ONone) in let! x27 := (Ok (OInt (3600))) in mk_rollup x24 x25 x26 x27) in Ok (VRollup t)) in let! x28 := (let! t := (let! x31 := (let! x29 := (Ok (OInt (1))) in Ok (OList [x29])) in let! x32 := (let! x30 := (Ok (OInt (11))) in Ok (OList [x30])) in let! x33 := (Ok (OStr ($"transactions"))) in mk_scope x31 x32 x33) in Ok (VScope t)) in let! x34 := (let! x35 := (let! x36 := (Ok (OInt (100))) in mk_limit x36) in Ok (VObj x35)) in let! x37 := (let! x38 := (let! x39 := (Ok (OInt (5))) in mk_offset x39) in Ok (VObj x38)) in let! x40 := (Ok VNone) in let! x41 := (let! x42 := (Ok (ODict [] [])) in Ok (VObj x42)) in Ok (mkMQ x1 x19 x21 x23 x28 x34 x37 x40 x41)) in let! r := snd (mq_serialize q) in Ok (fst r)) ($"max(d:transactions/duration@millisecond){bar:"" !\""#$%&'()*+,-./0123456789:;<=>?@ABCDEFGHIJKLMNOPQRSTUVWXYZ[\\]^_`abcdefghijklmnopqrstuvwxyz{|}~""} by (transaction)") = true.
Proof. vm_compute. reflexivity. Qed.

(* test_metrics_mql_query.py, line 611: test_crazy_characters *)
Example t152_test_metrics_mql_query : same_dict (let! q := (let! x1 := (let! t := (let! x14 := (let! m := (let! x2 := (Ok ONone) in let! x3 := (Ok (OStr ($"d:transactions/duration@millisecond"))) in let! x4 := (Ok ONone) in mk_metric x2 x3 x4) in Ok (VMetric m)) in let! x15 := (Ok (OStr ($"max"))) in let! x16 := (Ok ONone) in let! x17 := (let! x5 := (let! x8 := (let! x6 := (Ok (OStr ($"bar"))) in let! x7 := (Ok ONone) in mk_column x6 x7) in let! x9 := (Ok (OOp EQ)) in let! x10 := (Ok (OStr ($" !""#$%&'()*+,-./0123456789:;<=>?@ABCDEFGHIJKLMNOPQRSTUVWXYZ[\]^_`abcdefghijklmnopqrstuvwxyz{|}~"))) in mk_condition x8 x9 x10) in Ok (OList [x5])) in let! x18 := (let! x11 := (let! x12 := (Ok (OStr ($"transaction"))) in let! x13 := (Ok ONone) in mk_column x12 x13) in Ok (OList [x11])) in mk_timeseries x14 x15 x16 x17 x18) in Ok (VTS t)) in let! x19 := (let! x20 := (Ok (ODateTime (mkDT (mkDate 2023 1 2) 3 4 5 0 (Some 0)))) in Ok (VObj x20)) in let! x21 := (let! x22 := (Ok (ODateTime (mkDT (mkDate 2023 1 16) 3 4 5 0 (Some 0)))) in Ok (VObj x22)) in let! x23 := (let! t := (let! x24 := (Ok (OInt (3600))) in let! x25 := (Ok ONone) in let! x26 := (Ok ONone) in let! x27 := (Ok (OInt (3600))) in mk_rollup x24 x25 x26 x27) in Ok (VRollup t)) in let! x28 := (let! t := (let! x31 := (let! x29 := (Ok (OInt (1))) in Ok (OList [x29])) in let! x32 := (let! x30 := (Ok (OInt (11))) in Ok (OList [x30])) in let! x33 := (Ok (OStr ($"transactions"))) in mk_scope x31 x32 x33) in Ok (VScope t)) in let! x34 := (let! x35 := (let! x36 := (Ok (OInt (100))) in mk_limit x36) in Ok (VObj x35)) in let! x37 := (let! x38 := (let! x39 := (Ok (OInt (5))) in mk_offset x39) in Ok (VObj x38)) in let! x40 := (Ok VNone) in let! x41 := (let! x42 := (Ok (ODict [] [])) in Ok (VObj x42)) in Ok (mkMQ x1 x19 x21 x23 x28 x34 x37 x40 x41)) in let! r := snd (mq_serialize q) in Ok (snd r)) (let! x43 := (Ok (OStr ($"2023-01-02T03:04:05+00:00"))) in let! x44 := (Ok (OStr ($"2023-01-16T03:04:05+00:00"))) in let! x45 := (let! x46 := (Ok ONone) in let! x47 := (Ok (OInt (3600))) in let! x48 := (Ok (OInt (3600))) in let! x49 := (Ok ONone) in Ok (ODict [($"orderby"); ($"granularity"); ($"interval"); ($"with_totals")] [x46; x47; x48; x49])) in let! x50 := (let! x51 := (let! x52 := (Ok (OInt (1))) in Ok (OList [x52])) in let! x53 := (let! x54 := (Ok (OInt (11))) in Ok (OList [x54])) in let! x55 := (Ok (OStr ($"transactions"))) in Ok (ODict [($"org_ids"); ($"project_ids"); ($"use_case_id")] [x51; x53; x55])) in let! x56 := (Ok (OInt (100))) in let! x57 := (Ok (OInt (5))) in let! x58 := (Ok ONone) in let! x59 := (Ok (ODict [] [])) in Ok (ODict [($"start"); ($"end"); ($"rollup"); ($"scope"); ($"limit"); ($"offset"); ($"extrapolate"); ($"indexer_mappings")] [x43; x44; x45; x50; x56; x57; x58; x59])) = true.
Proof. vm_compute. reflexivity. Qed.

(* test_metrics_mql_query.py, line 611: test_crazy_characters *)
Example t153_test_metrics_mql_query : passes (parse_mql ($"max(d:transactions/duration@millisecond){bar:"" !\""#$%&'()*+,-./0123456789:;<=>?@ABCDEFGHIJKLMNOPQRSTUVWXYZ[\\]^_`abcdefghijklmnopqrstuvwxyz{|}~""} by (transaction)")) = true.
Proof. vm_compute. reflexivity. Qed.

(* test_metrics_mql_query.py, line 662: test_passing_string_directly *)
Example t154_test_metrics_mql_query : passes (let! q := (let! x1 := (let! x2 := (Ok (OStr ($"sum(transaction.duration){status_code:500} by transaction"))) in Ok (VObj x2)) in let! x3 := (let! x4 := (Ok (ODateTime (mkDT (mkDate 2023 1 2) 3 4 5 0 (Some 0)))) in Ok (VObj x4)) in let! x5 := (let! x6 := (Ok (ODateTime (mkDT (mkDate 2023 1 16) 3 4 5 0 (Some 0)))) in Ok (VObj x6)) in let! x7 := (let! t := (let! x8 := (Ok (OInt (3600))) in let! x9 := (Ok ONone) in let! x10 := (Ok ONone) in let! x11 := (Ok (OInt (3600))) in mk_rollup x8 x9 x10 x11) in Ok (VRollup t)) in let! x12 := (let! t := (let! x15 := (let! x13 := (Ok (OInt (1))) in Ok (OList [x13])) in let! x16 := (let! x14 := (Ok (OInt (11))) in Ok (OList [x14])) in let! x17 := (Ok (OStr ($"transactions"))) in mk_scope x15 x16 x17) in Ok (VScope t)) in let! x18 := (let! x19 := (let! x20 := (Ok (OInt (100))) in mk_limit x20) in Ok (VObj x19)) in let! x21 := (let! x22 := (let! x23 := (Ok (OInt (5))) in mk_offset x23) in Ok (VObj x22)) in let! x24 := (Ok VNone) in let! x25 := (let! x26 := (Ok (ODict [] [])) in Ok (VObj x26)) in Ok (mkMQ x1 x3 x5 x7 x12 x18 x21 x24 x25)) in mq_validate q) = true.
Proof. vm_compute. reflexivity. Qed.

(* test_metrics_mql_query.py, line 662: test_passing_string_directly *)
Example t155_test_metrics_mql_query : same_str (let! q := (let! x1 := (let! x2 := (Ok (OStr ($"sum(transaction.duration){status_code:500} by transaction"))) in Ok (VObj x2)) in let! x3 := (let! x4 := (Ok (ODateTime (mkDT (mkDate 2023 1 2) 3 4 5 0 (Some 0)))) in Ok (VObj x4)) in let! x5 := (let! x6 := (Ok (ODateTime (mkDT (mkDate 2023 1 16) 3 4 5 0 (Some 0)))) in Ok (VObj x6)) in let! x7 := (let! t := (let! x8 := (Ok (OInt (3600))) in let! x9 := (Ok ONone) in let! x10 := (Ok ONone) in let! x11 := (Ok (OInt (3600))) in mk_rollup x8 x9 x10 x11) in Ok (VRollup t)) in let! x12 := (let! t := (let! x15 := (let! x13 := (Ok (OInt (1))) in Ok (OList [x13])) in let! x16 := (let! x14 := (Ok (OInt (11))) in Ok (OList [x14])) in let! x17 := (Ok (OStr ($"transactions"))) in mk_scope x15 x16 x17) in Ok (VScope t)) in let! x18 := (let! x19 := (let! x20 := (Ok (OInt (100))) in mk_limit x20) in Ok (VObj x19)) in let! x21 := (let! x22 := (let! x23 := (Ok (OInt (5))) in mk_offset x23) in Ok (VObj x22)) in let! x24 := (Ok VNone) in let! x25 := (let! x26 := (Ok (ODict [] [])) in Ok (VObj x26)) in Ok (mkMQ x1 x3 x5 x7 x12 x18 x21 x24 x25)) in let! r := snd (mq_serialize q) in Ok (fst r)) ($"sum(transaction.duration){status_code:""500""} by (transaction)") = true.
Proof. vm_compute. reflexivity. Qed.

(* test_metrics_mql_query.py, line 662: test_passing_string_directly *)
Example t156_test_metrics_mql_query : same_dict (let! q := (let! x1 := (let! x2 := (Ok (OStr ($"sum(transaction.duration){status_code:500} by transaction"))) in Ok (VObj x2)) in let! x3 := (let! x4 := (Ok (ODateTime (mkDT (mkDate 2023 1 2) 3 4 5 0 (Some 0)))) in Ok (VObj x4)) in let! x5 := (let! x6 := (Ok (ODateTime (mkDT (mkDate 2023 1 16) 3 4 5 0 (Some 0)))) in Ok (VObj x6)) in let! x7 := (let! t := (let! x8 := (Ok (OInt (3600))) in let! x9 := (Ok ONone) in let! x10 := (Ok ONone) in let! x11 := (Ok (OInt (3600))) in mk_rollup x8 x9 x10 x11) in Ok (VRollup t)) in let! x12 := (let! t := (let! x15 := (let! x13 := (Ok (OInt (1))) in Ok (OList [x13])) in let! x16 := (let! x14 := (Ok (OInt (11))) in Ok (OList [x14])) in let! x17 := (Ok (OStr ($"transactions"))) in mk_scope x15 x16 x17) in Ok (VScope t)) in let! x18 := (let! x19 := (let! x20 := (Ok (OInt (100))) in mk_limit x20) in Ok (VObj x19)) in let! x21 := (let! x22 := (let! x23 := (Ok (OInt (5))) in mk_offset x23) in Ok (VObj x22)) in let! x24 := (Ok VNone) in let! x25 := (let! x26 := (Ok (ODict [] [])) in Ok (VObj x26)) in Ok (mkMQ x1 x3 x5 x7 x12 x18 x21 x24 x25)) in let! r := snd (mq_serialize q) in Ok (snd r)) (let! x27 := (Ok (OStr ($"2023-01-02T03:04:05+00:00"))) in let! x28 := (Ok (OStr ($"2023-01-16T03:04:05+00:00"))) in let! x29 := (let! x30 := (Ok ONone) in let! x31 := (Ok (OInt (3600))) in let! x32 := (Ok (OInt (3600))) in let! x33 := (Ok ONone) in Ok (ODict [($"orderby"); ($"granularity"); ($"interval"); ($"with_totals")] [x30; x31; x32; x33])) in let! x34 := (let! x35 := (let! x36 := (Ok (OInt (1))) in Ok (OList [x36])) in let! x37 := (let! x38 := (Ok (OInt (11))) in Ok (OList [x38])) in let! x39 := (Ok (OStr ($"transactions"))) in Ok (ODict [($"org_ids"); ($"project_ids"); ($"use_case_id")] [x35; x37; x39])) in let! x40 := (Ok (OInt (100))) in let! x41 := (Ok (OInt (5))) in let! x42 := (Ok ONone) in let! x43 := (Ok (ODict [] [])) in Ok (ODict [($"start"); ($"end"); ($"rollup"); ($"scope"); ($"limit"); ($"offset"); ($"extrapolate"); ($"indexer_mappings")] [x27; x28; x29; x34; x40; x41; x42; x43])) = true.
Proof. vm_compute. reflexivity. Qed.

(* test_metrics_mql_query.py, line 662: test_passing_string_directly *)
Example t157_test_metrics_mql_query : passes (parse_mql ($"sum(transaction.duration){status_code:""500""} by (transaction)")) = true.
Proof. vm_compute. reflexivity. Qed.

(* test_metrics_mql_query.py, line 699: test_unary_negation *)
Example t158_test_metrics_mql_query : passes (let! q := (let! x1 := (let! x2 := (Ok (OStr ($"-sum(transaction.duration) + -1"))) in Ok (VObj x2)) in let! x3 := (let! x4 := (Ok (ODateTime (mkDT (mkDate 2023 1 2) 3 4 5 0 (Some 0)))) in Ok (VObj x4)) in let! x5 := (let! x6 := (Ok (ODateTime (mkDT (mkDate 2023 1 16) 3 4 5 0 (Some 0)))) in Ok (VObj x6)) in let! x7 := (let! t := (let! x8 := (Ok (OInt (3600))) in let! x9 := (Ok ONone) in let! x10 := (Ok ONone) in let! x11 := (Ok (OInt (3600))) in mk_rollup x8 x9 x10 x11) in Ok (VRollup t)) in let! x12 := (let! t := (let! x15 := (let! x13 := (Ok (OInt (1))) in Ok (OList [x13])) in let! x16 := (let! x14 := (Ok (OInt (11))) in Ok (OList [x14])) in let! x17 := (Ok (OStr ($"transactions"))) in mk_scope x15 x16 x17) in Ok (VScope t)) in let! x18 := (let! x19 := (let! x20 := (Ok (OInt (100))) in mk_limit x20) in Ok (VObj x19)) in let! x21 := (let! x22 := (let! x23 := (Ok (OInt (5))) in mk_offset x23) in Ok (VObj x22)) in let! x24 := (Ok VNone) in let! x25 := (let! x26 := (Ok (ODict [] [])) in Ok (VObj x26)) in Ok (mkMQ x1 x3 x5 x7 x12 x18 x21 x24 x25)) in mq_validate q) = true.
Proof. vm_compute. reflexivity. Qed.

(* test_metrics_mql_query.py, line 699: test_unary_negation *)
Example t159_test_metrics_mql_query : same_str (let! q := (let! x1 := (let! x2 := (Ok (OStr ($"-sum(transaction.duration) + -1"))) in Ok (VObj x2)) in let! x3 := (let! x4 := (Ok (ODateTime (mkDT (mkDate 2023 1 2) 3 4 5 0 (Some 0)))) in Ok (VObj x4)) in let! x5 := (let! x6 := (Ok (ODateTime (mkDT (mkDate 2023 1 16) 3 4 5 0 (Some 0)))) in Ok (VObj x6)) in let! x7 := (let! t := (let! x8 := (Ok (OInt (3600))) in let! x9 := (Ok ONone) in let! x10 := (Ok ONone) in let! x11 := (Ok (OInt (3600))) in mk_rollup x8 x9 x10 x11) in Ok (VRollup t)) in let! x12 := (let! t := (let! x15 := (let! x13 := (Ok (OInt (1))) in Ok (OList [x13])) in let! x16 := (let! x14 := (Ok (OInt (11))) in Ok (OList [x14])) in let! x17 := (Ok (OStr ($"transactions"))) in mk_scope x15 x16 x17) in Ok (VScope t)) in let! x18 := (let! x19 := (let! x20 := (Ok (OInt (100))) in mk_limit x20) in Ok (VObj x19)) in let! x21 := (let! x22 := (let! x23 := (Ok (OInt (5))) in mk_offset x23) in Ok (VObj x22)) in let! x24 := (Ok VNone) in let! x25 := (let! x26 := (Ok (ODict [] [])) in Ok (VObj x26)) in Ok (mkMQ x1 x3 x5 x7 x12 x18 x21 x24 x25)) in let! r := snd (mq_serialize q) in Ok (fst r)) ($"(-(sum(transaction.duration)) + -1.0)") = true.
Proof. vm_compute. reflexivity. Qed.

(* test_metrics_mql_query.py, line 699: test_unary_negation *)
Example t160_test_metrics_mql_query : same_dict (let! q := (let! x1 := (let! x2 := (Ok (OStr ($"-sum(transaction.duration) + -1"))) in Ok (VObj x2)) in let! x3 := (let! x4 := (Ok (ODateTime (mkDT (mkDate 2023 1 2) 3 4 5 0 (Some 0)))) in Ok (VObj x4)) in let! x5 := (let! x6 := (Ok (ODateTime (mkDT (mkDate 2023 1 16) 3 4 5 0 (Some 0)))) in Ok (VObj x6)) in let! x7 := (let! t := (let! x8 := (Ok (OInt (3600))) in let! x9 := (Ok ONone) in let! x10 := (Ok ONone) in let! x11 := (Ok (OInt (3600))) in mk_rollup x8 x9 x10 x11) in Ok (VRollup t)) in let! x12 := (let! t := (let! x15 := (let! x13 := (Ok (OInt (1))) in Ok (OList [x13])) in let! x16 := (let! x14 := (Ok (OInt (11))) in Ok (OList [x14])) in let! x17 := (Ok (OStr ($"transactions"))) in mk_scope x15 x16 x17) in Ok (VScope t)) in let! x18 := (let! x19 := (let! x20 := (Ok (OInt (100))) in mk_limit x20) in Ok (VObj x19)) in let! x21 := (let! x22 := (let! x23 := (Ok (OInt (5))) in mk_offset x23) in Ok (VObj x22)) in let! x24 := (Ok VNone) in let! x25 := (let! x26 := (Ok (ODict [] [])) in Ok (VObj x26)) in Ok (mkMQ x1 x3 x5 x7 x12 x18 x21 x24 x25)) in let! r := snd (mq_serialize q) in Ok (snd r)) (let! x27 := (Ok (OStr ($"2023-01-02T03:04:05+00:00"))) in let! x28 := (Ok (OStr ($"2023-01-16T03:04:05+00:00"))) in let! x29 := (let! x30 := (Ok ONone) in let! x31 := (Ok (OInt (3600))) in let! x32 := (Ok (OInt (3600))) in let! x33 := (Ok ONone) in Ok (ODict [($"orderby"); ($"granularity"); ($"interval"); ($"with_totals")] [x30; x31; x32; x33])) in let! x34 := (let! x35 := (let! x36 := (Ok (OInt (1))) in Ok (OList [x36])) in let! x37 := (let! x38 := (Ok (OInt (11))) in Ok (OList [x38])) in let! x39 := (Ok (OStr ($"transactions"))) in Ok (ODict [($"org_ids"); ($"project_ids"); ($"use_case_id")] [x35; x37; x39])) in let! x40 := (Ok (OInt (100))) in let! x41 := (Ok (OInt (5))) in let! x42 := (Ok ONone) in let! x43 := (Ok (ODict [] [])) in Ok (ODict [($"start"); ($"end"); ($"rollup"); ($"scope"); ($"limit"); ($"offset"); ($"extrapolate"); ($"indexer_mappings")] [x27; x28; x29; x34; x40; x41; x42; x43])) = true.
Proof. vm_compute. reflexivity. Qed.

(* test_metrics_mql_query.py, line 699: test_unary_negation *)
Example t161_test_metrics_mql_query : passes (parse_mql ($"(-(sum(transaction.duration)) + -1.0)")) = true.
Proof. vm_compute. reflexivity. Qed.

(* test_metrics_mql_query.py, line 736: or_optimizer_query *)
Example t162_test_metrics_mql_query : passes (let! q := (let! x1 := (let! t := (let! x26 := (let! m := (let! x2 := (Ok ONone) in let! x3 := (Ok (OStr ($"d:transactions/duration@millisecond"))) in let! x4 := (Ok ONone) in mk_metric x2 x3 x4) in Ok (VMetric m)) in let! x27 := (Ok (OStr ($"max"))) in let! x28 := (Ok ONone) in let! x29 := (let! x5 := (let! x24 := (Ok (OBoolOp OR)) in let! x25 := (let! x6 := (let! x9 := (let! x7 := (Ok (OStr ($"transaction"))) in let! x8 := (Ok ONone) in mk_column x7 x8) in let! x10 := (Ok (OOp EQ)) in let! x11 := (Ok (OStr ($"a"))) in mk_condition x9 x10 x11) in let! x12 := (let! x15 := (let! x13 := (Ok (OStr ($"transaction"))) in let! x14 := (Ok ONone) in mk_column x13 x14) in let! x16 := (Ok (OOp EQ)) in let! x17 := (Ok (OStr ($"b"))) in mk_condition x15 x16 x17) in let! x18 := (let! x21 := (let! x19 := (Ok (OStr ($"transaction"))) in let! x20 := (Ok ONone) in mk_column x19 x20) in let! x22 := (Ok (OOp EQ)) in let! x23 := (Ok (OStr ($"c"))) in mk_condition x21 x22 x23) in Ok (OList [x6; x12; x18])) in mk_boolean_condition x24 x25) in Ok (OList [x5])) in let! x30 := (Ok ONone) in mk_timeseries x26 x27 x28 x29 x30) in Ok (VTS t)) in let! x31 := (let! x32 := (Ok (ODateTime (mkDT (mkDate 2023 1 2) 3 4 5 0 (Some 0)))) in Ok (VObj x32)) in let! x33 := (let! x34 := (Ok (ODateTime (mkDT (mkDate 2023 1 16) 3 4 5 0 (Some 0)))) in Ok (VObj x34)) in let! x35 := (let! t := (let! x36 := (Ok (OInt (3600))) in let! x37 := (Ok ONone) in let! x38 := (Ok ONone) in let! x39 := (Ok (OInt (3600))) in mk_rollup x36 x37 x38 x39) in Ok (VRollup t)) in let! x40 := (let! t := (let! x43 := (let! x41 := (Ok (OInt (1))) in Ok (OList [x41])) in let! x44 := (let! x42 := (Ok (OInt (11))) in Ok (OList [x42])) in let! x45 := (Ok (OStr ($"transactions"))) in mk_scope x43 x44 x45) in Ok (VScope t)) in let! x46 := (Ok VNone) in let! x47 := (Ok VNone) in let! x48 := (Ok VNone) in let! x49 := (let! x50 := (Ok (ODict [] [])) in Ok (VObj x50)) in Ok (mkMQ x1 x31 x33 x35 x40 x46 x47 x48 x49)) in mq_validate q) = true.
Proof. vm_compute. reflexivity. Qed.

(* test_metrics_mql_query.py, line 736: or_optimizer_query *)
Example t163_test_metrics_mql_query : same_str (let! q := (let! x1 := (let! t := (let! x26 := (let! m := (let! x2 := (Ok ONone) in let! x3 := (Ok (OStr ($"d:transactions/duration@millisecond"))) in let! x4 := (Ok ONone) in mk_metric x2 x3 x4) in Ok (VMetric m)) in let! x27 := (Ok (OStr ($"max"))) in let! x28 := (Ok ONone) in let! x29 := (let! x5 := (let! x24 := (Ok (OBoolOp OR)) in let! x25 := (let! x6 := (let! x9 := (let! x7 := (Ok (OStr ($"transaction"))) in let! x8 := (Ok ONone) in mk_column x7 x8) in let! x10 := (Ok (OOp EQ)) in let! x11 := (Ok (OStr ($"a"))) in mk_condition x9 x10 x11) in let! x12 := (let! x15 := (let! x13 := (Ok (OStr ($"transaction"))) in let! x14 := (Ok ONone) in mk_column x13 x14) in let! x16 := (Ok (OOp EQ)) in let! x17 := (Ok (OStr ($"b"))) in mk_condition x15 x16 x17) in let! x18 := (let! x21 := (let! x19 := (Ok (OStr ($"transaction"))) in let! x20 := (Ok ONone) in mk_column x19 x20) in let! x22 := (Ok (OOp EQ)) in let! x23 := (Ok (OStr ($"c"))) in mk_condition x21 x22 x23) in Ok (OList [x6; x12; x18])) in mk_boolean_condition x24 x25) in Ok (OList [x5])) in let! x30 := (Ok ONone) in mk_timeseries x26 x27 x28 x29 x30) in Ok (VTS t)) in let! x31 := (let! x32 := (Ok (ODateTime (mkDT (mkDate 2023 1 2) 3 4 5 0 (Some 0)))) in Ok (VObj x32)) in let! x33 := (let! x34 := (Ok (ODateTime (mkDT (mkDate 2023 1 16) 3 4 5 0 (Some 0)))) in Ok (VObj x34)) in let! x35 := (let! t := (let! x36 := (Ok (OInt (3600))) in let! x37 := (Ok ONone) in let! x38 := (Ok ONone) in let! x39 := (Ok (OInt (3600))) in mk_rollup x36 x37 x38 x39) in Ok (VRollup t)) in let! x40 := (let! t := (let! x43 := (let! x41 := (Ok (OInt (1))) in Ok (OList [x41])) in let! x44 := (let! x42 := (Ok (OInt (11))) in Ok (OList [x42])) in let! x45 := (Ok (OStr ($"transactions"))) in mk_scope x43 x44 x45) in Ok (VScope t)) in let! x46 := (Ok VNone) in let! x47 := (Ok VNone) in let! x48 := (Ok VNone) in let! x49 := (let! x50 := (Ok (ODict [] [])) in Ok (VObj x50)) in Ok (mkMQ x1 x31 x33 x35 x40 x46 x47 x48 x49)) in let! r := snd (mq_serialize q) in Ok (fst r)) ($"max(d:transactions/duration@millisecond){transaction:[""a"", ""b"", ""c""]}") = true.
Proof. vm_compute. reflexivity. Qed.

(* test_metrics_mql_query.py, line 736: or_optimizer_query *)
Example t164_test_metrics_mql_query : same_dict (let! q := (let! x1 := (let! t := (let! x26 := (let! m := (let! x2 := (Ok ONone) in let! x3 := (Ok (OStr ($"d:transactions/duration@millisecond"))) in let! x4 := (Ok ONone) in mk_metric x2 x3 x4) in Ok (VMetric m)) in let! x27 := (Ok (OStr ($"max"))) in let! x28 := (Ok ONone) in let! x29 := (let! x5 := (let! x24 := (Ok (OBoolOp OR)) in let! x25 := (let! x6 := (let! x9 := (let! x7 := (Ok (OStr ($"transaction"))) in let! x8 := (Ok ONone) in mk_column x7 x8) in let! x10 := (Ok (OOp EQ)) in let! x11 := (Ok (OStr ($"a"))) in mk_condition x9 x10 x11) in let! x12 := (let! x15 := (let! x13 := (Ok (OStr ($"transaction"))) in let! x14 := (Ok ONone) in mk_column x13 x14) in let! x16 := (Ok (OOp EQ)) in let! x17 := (Ok (OStr ($"b"))) in mk_condition x15 x16 x17) in let! x18 := (let! x21 := (let! x19 := (Ok (OStr ($"transaction"))) in let! x20 := (Ok ONone) in mk_column x19 x20) in let! x22 := (Ok (OOp EQ)) in let! x23 := (Ok (OStr ($"c"))) in mk_condition x21 x22 x23) in Ok (OList [x6; x12; x18])) in mk_boolean_condition x24 x25) in Ok (OList [x5])) in let! x30 := (Ok ONone) in mk_timeseries x26 x27 x28 x29 x30) in Ok (VTS t)) in let! x31 := (let! x32 := (Ok (ODateTime (mkDT (mkDate 2023 1 2) 3 4 5 0 (Some 0)))) in Ok (VObj x32)) in let! x33 := (let! x34 := (Ok (ODateTime (mkDT (mkDate 2023 1 16) 3 4 5 0 (Some 0)))) in Ok (VObj x34)) in let! x35 := (let! t := (let! x36 := (Ok (OInt (3600))) in let! x37 := (Ok ONone) in let! x38 := (Ok ONone) in let! x39 := (Ok (OInt (3600))) in mk_rollup x36 x37 x38 x39) in Ok (VRollup t)) in let! x40 := (let! t := (let! x43 := (let! x41 := (Ok (OInt (1))) in Ok (OList [x41])) in let! x44 := (let! x42 := (Ok (OInt (11))) in Ok (OList [x42])) in let! x45 := (Ok (OStr ($"transactions"))) in mk_scope x43 x44 x45) in Ok (VScope t)) in let! x46 := (Ok VNone) in let! x47 := (Ok VNone) in let! x48 := (Ok VNone) in let! x49 := (let! x50 := (Ok (ODict [] [])) in Ok (VObj x50)) in Ok (mkMQ x1 x31 x33 x35 x40 x46 x47 x48 x49)) in let! r := snd (mq_serialize q) in Ok (snd r)) (let! x51 := (Ok (OStr ($"2023-01-02T03:04:05+00:00"))) in let! x52 := (Ok (OStr ($"2023-01-16T03:04:05+00:00"))) in let! x53 := (let! x54 := (Ok ONone) in let! x55 := (Ok (OInt (3600))) in let! x56 := (Ok (OInt (3600))) in let! x57 := (Ok ONone) in Ok (ODict [($"orderby"); ($"granularity"); ($"interval"); ($"with_totals")] [x54; x55; x56; x57])) in let! x58 := (let! x59 := (let! x60 := (Ok (OInt (1))) in Ok (OList [x60])) in let! x61 := (let! x62 := (Ok (OInt (11))) in Ok (OList [x62])) in let! x63 := (Ok (OStr ($"transactions"))) in Ok (ODict [($"org_ids"); ($"project_ids"); ($"use_case_id")] [x59; x61; x63])) in let! x64 := (Ok ONone) in let! x65 := (Ok ONone) in let! x66 := (Ok ONone) in let! x67 := (Ok (ODict [] [])) in Ok (ODict [($"start"); ($"end"); ($"rollup"); ($"scope"); ($"limit"); ($"offset"); ($"extrapolate"); ($"indexer_mappings")] [x51; x52; x53; x58; x64; x65; x66; x67])) = true.
Proof. vm_compute. reflexivity. Qed.

(* test_metrics_mql_query.py, line 736: or_optimizer_query *)
Example t165_test_metrics_mql_query : passes (parse_mql ($"max(d:transactions/duration@millisecond){transaction:[""a"", ""b"", ""c""]}")) = true.
Proof. vm_compute. reflexivity. Qed.

(* test_metrics_mql_query.py, line 831: test_terms *)
Example t166_test_metrics_mql_query : passes (let! q := (let! x1 := (let! x2 := (let! t := (let! x6 := (let! m := (let! x3 := (Ok (OStr ($"foo"))) in let! x4 := (Ok ONone) in let! x5 := (Ok ONone) in mk_metric x3 x4 x5) in Ok (VMetric m)) in let! x7 := (Ok (OStr ($"sum"))) in let! x8 := (Ok ONone) in let! x9 := (Ok ONone) in let! x10 := (Ok ONone) in mk_timeseries x6 x7 x8 x9 x10) in Ok (VTS t)) in let! x11 := (let! x12 := (Ok (OInt (1000))) in Ok (VObj x12)) in let! x13 := (Ok (OStr ($"divide"))) in let! x14 := (Ok ONone) in let! x15 := (Ok ONone) in let! x16 := (Ok ONone) in Ok (VFormula x13 (Some KList) [x2; x11] x14 x15 x16)) in let! x17 := (let! x18 := (Ok (ODateTime (mkDT (mkDate 2023 1 2) 3 4 5 0 (Some 0)))) in Ok (VObj x18)) in let! x19 := (let! x20 := (Ok (ODateTime (mkDT (mkDate 2023 1 16) 3 4 5 0 (Some 0)))) in Ok (VObj x20)) in let! x21 := (let! t := (let! x22 := (Ok (OInt (3600))) in let! x23 := (Ok ONone) in let! x24 := (Ok ONone) in let! x25 := (Ok (OInt (3600))) in mk_rollup x22 x23 x24 x25) in Ok (VRollup t)) in let! x26 := (let! t := (let! x29 := (let! x27 := (Ok (OInt (1))) in Ok (OList [x27])) in let! x30 := (let! x28 := (Ok (OInt (11))) in Ok (OList [x28])) in let! x31 := (Ok (OStr ($"transactions"))) in mk_scope x29 x30 x31) in Ok (VScope t)) in let! x32 := (let! x33 := (let! x34 := (Ok (OInt (100))) in mk_limit x34) in Ok (VObj x33)) in let! x35 := (let! x36 := (let! x37 := (Ok (OInt (5))) in mk_offset x37) in Ok (VObj x36)) in let! x38 := (Ok VNone) in let! x39 := (let! x40 := (Ok (ODict [] [])) in Ok (VObj x40)) in Ok (mkMQ x1 x17 x19 x21 x26 x32 x35 x38 x39)) in mq_validate q) = true.
Proof. vm_compute. reflexivity. Qed.

(* test_metrics_mql_query.py, line 831: test_terms *)
Example t167_test_metrics_mql_query : same_str (let! q := (let! x1 := (let! x2 := (let! t := (let! x6 := (let! m := (let! x3 := (Ok (OStr ($"foo"))) in let! x4 := (Ok ONone) in let! x5 := (Ok ONone) in mk_metric x3 x4 x5) in Ok (VMetric m)) in let! x7 := (Ok (OStr ($"sum"))) in let! x8 := (Ok ONone) in let! x9 := (Ok ONone) in let! x10 := (Ok ONone) in mk_timeseries x6 x7 x8 x9 x10) in Ok (VTS t)) in let! x11 := (let! x12 := (Ok (OInt (1000))) in Ok (VObj x12)) in let! x13 := (Ok (OStr ($"divide"))) in let! x14 := (Ok ONone) in let! x15 := (Ok ONone) in let! x16 := (Ok ONone) in Ok (VFormula x13 (Some KList) [x2; x11] x14 x15 x16)) in let! x17 := (let! x18 := (Ok (ODateTime (mkDT (mkDate 2023 1 2) 3 4 5 0 (Some 0)))) in Ok (VObj x18)) in let! x19 := (let! x20 := (Ok (ODateTime (mkDT (mkDate 2023 1 16) 3 4 5 0 (Some 0)))) in Ok (VObj x20)) in let! x21 := (let! t := (let! x22 := (Ok (OInt (3600))) in let! x23 := (Ok ONone) in let! x24 := (Ok ONone) in let! x25 := (Ok (OInt (3600))) in mk_rollup x22 x23 x24 x25) in Ok (VRollup t)) in let! x26 := (let! t := (let! x29 := (let! x27 := (Ok (OInt (1))) in Ok (OList [x27])) in let! x30 := (let! x28 := (Ok (OInt (11))) in Ok (OList [x28])) in let! x31 := (Ok (OStr ($"transactions"))) in mk_scope x29 x30 x31) in Ok (VScope t)) in let! x32 := (let! x33 := (let! x34 := (Ok (OInt (100))) in mk_limit x34) in Ok (VObj x33)) in let! x35 := (let! x36 := (let! x37 := (Ok (OInt (5))) in mk_offset x37) in Ok (VObj x36)) in let! x38 := (Ok VNone) in let! x39 := (let! x40 := (Ok (ODict [] [])) in Ok (VObj x40)) in Ok (mkMQ x1 x17 x19 x21 x26 x32 x35 x38 x39)) in let! r := snd (mq_serialize q) in Ok (fst r)) ($"(sum(foo) / 1000)") = true.
Proof. vm_compute. reflexivity. Qed.

(* test_metrics_mql_query.py, line 831: test_terms *)
Example t168_test_metrics_mql_query : same_dict (let! q := (let! x1 := (let! x2 := (let! t := (let! x6 := (let! m := (let! x3 := (Ok (OStr ($"foo"))) in let! x4 := (Ok ONone) in let! x5 := (Ok ONone) in mk_metric x3 x4 x5) in Ok (VMetric m)) in let! x7 := (Ok (OStr ($"sum"))) in let! x8 := (Ok ONone) in let! x9 := (Ok ONone) in let! x10 := (Ok ONone) in mk_timeseries x6 x7 x8 x9 x10) in Ok (VTS t)) in let! x11 := (let! x12 := (Ok (OInt (1000))) in Ok (VObj x12)) in let! x13 := (Ok (OStr ($"divide"))) in let! x14 := (Ok ONone) in let! x15 := (Ok ONone) in let! x16 := (Ok ONone) in Ok (VFormula x13 (Some KList) [x2; x11] x14 x15 x16)) in let! x17 := (let! x18 := (Ok (ODateTime (mkDT (mkDate 2023 1 2) 3 4 5 0 (Some 0)))) in Ok (VObj x18)) in let! x19 := (let! x20 := (Ok (ODateTime (mkDT (mkDate 2023 1 16) 3 4 5 0 (Some 0)))) in Ok (VObj x20)) in let! x21 := (let! t := (let! x22 := (Ok (OInt (3600))) in let! x23 := (Ok ONone) in let! x24 := (Ok ONone) in let! x25 := (Ok (OInt (3600))) in mk_rollup x22 x23 x24 x25) in Ok (VRollup t)) in let! x26 := (let! t := (let! x29 := (let! x27 := (Ok (OInt (1))) in Ok (OList [x27])) in let! x30 := (let! x28 := (Ok (OInt (11))) in Ok (OList [x28])) in let! x31 := (Ok (OStr ($"transactions"))) in mk_scope x29 x30 x31) in Ok (VScope t)) in let! x32 := (let! x33 := (let! x34 := (Ok (OInt (100))) in mk_limit x34) in Ok (VObj x33)) in let! x35 := (let! x36 := (let! x37 := (Ok (OInt (5))) in mk_offset x37) in Ok (VObj x36)) in let! x38 := (Ok VNone) in let! x39 := (let! x40 := (Ok (ODict [] [])) in Ok (VObj x40)) in Ok (mkMQ x1 x17 x19 x21 x26 x32 x35 x38 x39)) in let! r := snd (mq_serialize q) in Ok (snd r)) (let! x41 := (Ok (OStr ($"2023-01-02T03:04:05+00:00"))) in let! x42 := (Ok (OStr ($"2023-01-16T03:04:05+00:00"))) in let! x43 := (let! x44 := (Ok ONone) in let! x45 := (Ok (OInt (3600))) in let! x46 := (Ok (OInt (3600))) in let! x47 := (Ok ONone) in Ok (ODict [($"orderby"); ($"granularity"); ($"interval"); ($"with_totals")] [x44; x45; x46; x47])) in let! x48 := (let! x49 := (let! x50 := (Ok (OInt (1))) in Ok (OList [x50])) in let! x51 := (let! x52 := (Ok (OInt (11))) in Ok (OList [x52])) in let! x53 := (Ok (OStr ($"transactions"))) in Ok (ODict [($"org_ids"); ($"project_ids"); ($"use_case_id")] [x49; x51; x53])) in let! x54 := (Ok (OInt (100))) in let! x55 := (Ok (OInt (5))) in let! x56 := (Ok ONone) in let! x57 := (Ok (ODict [] [])) in Ok (ODict [($"start"); ($"end"); ($"rollup"); ($"scope"); ($"limit"); ($"offset"); ($"extrapolate"); ($"indexer_mappings")] [x41; x42; x43; x48; x54; x55; x56; x57])) = true.
Proof. vm_compute. reflexivity. Qed.

(* test_metrics_mql_query.py, line 831: test_terms *)
Example t169_test_metrics_mql_query : passes (parse_mql ($"(sum(foo) / 1000)")) = true.
Proof. vm_compute. reflexivity. Qed.

(* test_metrics_mql_query.py, line 877: test arbitrary function *)
Example t170_test_metrics_mql_query : passes (let! q := (let! x1 := (let! x2 := (let! t := (let! x6 := (let! m := (let! x3 := (Ok (OStr ($"foo"))) in let! x4 := (Ok ONone) in let! x5 := (Ok ONone) in mk_metric x3 x4 x5) in Ok (VMetric m)) in let! x7 := (Ok (OStr ($"sum"))) in let! x8 := (Ok ONone) in let! x9 := (Ok ONone) in let! x10 := (Ok ONone) in mk_timeseries x6 x7 x8 x9 x10) in Ok (VTS t)) in let! x11 := (let! x12 := (Ok (OInt (1000))) in Ok (VObj x12)) in let! x13 := (Ok (OStr ($"apdex"))) in let! x14 := (Ok ONone) in let! x15 := (Ok ONone) in let! x16 := (Ok ONone) in Ok (VFormula x13 (Some KList) [x2; x11] x14 x15 x16)) in let! x17 := (let! x18 := (Ok (ODateTime (mkDT (mkDate 2023 1 2) 3 4 5 0 (Some 0)))) in Ok (VObj x18)) in let! x19 := (let! x20 := (Ok (ODateTime (mkDT (mkDate 2023 1 16) 3 4 5 0 (Some 0)))) in Ok (VObj x20)) in let! x21 := (let! t := (let! x22 := (Ok (OInt (3600))) in let! x23 := (Ok ONone) in let! x24 := (Ok ONone) in let! x25 := (Ok (OInt (3600))) in mk_rollup x22 x23 x24 x25) in Ok (VRollup t)) in let! x26 := (let! t := (let! x29 := (let! x27 := (Ok (OInt (1))) in Ok (OList [x27])) in let! x30 := (let! x28 := (Ok (OInt (11))) in Ok (OList [x28])) in let! x31 := (Ok (OStr ($"transactions"))) in mk_scope x29 x30 x31) in Ok (VScope t)) in let! x32 := (let! x33 := (let! x34 := (Ok (OInt (100))) in mk_limit x34) in Ok (VObj x33)) in let! x35 := (let! x36 := (let! x37 := (Ok (OInt (5))) in mk_offset x37) in Ok (VObj x36)) in let! x38 := (Ok VNone) in let! x39 := (let! x40 := (Ok (ODict [] [])) in Ok (VObj x40)) in Ok (mkMQ x1 x17 x19 x21 x26 x32 x35 x38 x39)) in mq_validate q) = true.
Proof. vm_compute. reflexivity. Qed.

(* test_metrics_mql_query.py, line 877: test arbitrary function *)
Example t171_test_metrics_mql_query : same_str (let! q := (let! x1 := (let! x2 := (let! t := (let! x6 := (let! m := (let! x3 := (Ok (OStr ($"foo"))) in let! x4 := (Ok ONone) in let! x5 := (Ok ONone) in mk_metric x3 x4 x5) in Ok (VMetric m)) in let! x7 := (Ok (OStr ($"sum"))) in let! x8 := (Ok ONone) in let! x9 := (Ok ONone) in let! x10 := (Ok ONone) in mk_timeseries x6 x7 x8 x9 x10) in Ok (VTS t)) in let! x11 := (let! x12 := (Ok (OInt (1000))) in Ok (VObj x12)) in let! x13 := (Ok (OStr ($"apdex"))) in let! x14 := (Ok ONone) in let! x15 := (Ok ONone) in let! x16 := (Ok ONone) in Ok (VFormula x13 (Some KList) [x2; x11] x14 x15 x16)) in let! x17 := (let! x18 := (Ok (ODateTime (mkDT (mkDate 2023 1 2) 3 4 5 0 (Some 0)))) in Ok (VObj x18)) in let! x19 := (let! x20 := (Ok (ODateTime (mkDT (mkDate 2023 1 16) 3 4 5 0 (Some 0)))) in Ok (VObj x20)) in let! x21 := (let! t := (let! x22 := (Ok (OInt (3600))) in let! x23 := (Ok ONone) in let! x24 := (Ok ONone) in let! x25 := (Ok (OInt (3600))) in mk_rollup x22 x23 x24 x25) in Ok (VRollup t)) in let! x26 := (let! t := (let! x29 := (let! x27 := (Ok (OInt (1))) in Ok (OList [x27])) in let! x30 := (let! x28 := (Ok (OInt (11))) in Ok (OList [x28])) in let! x31 := (Ok (OStr ($"transactions"))) in mk_scope x29 x30 x31) in Ok (VScope t)) in let! x32 := (let! x33 := (let! x34 := (Ok (OInt (100))) in mk_limit x34) in Ok (VObj x33)) in let! x35 := (let! x36 := (let! x37 := (Ok (OInt (5))) in mk_offset x37) in Ok (VObj x36)) in let! x38 := (Ok VNone) in let! x39 := (let! x40 := (Ok (ODict [] [])) in Ok (VObj x40)) in Ok (mkMQ x1 x17 x19 x21 x26 x32 x35 x38 x39)) in let! r := snd (mq_serialize q) in Ok (fst r)) ($"apdex(sum(foo), 1000)") = true.
Proof. vm_compute. reflexivity. Qed.

(* test_metrics_mql_query.py, line 877: test arbitrary function *)
Example t172_test_metrics_mql_query : same_dict (let! q := (let! x1 := (let! x2 := (let! t := (let! x6 := (let! m := (let! x3 := (Ok (OStr ($"foo"))) in let! x4 := (Ok ONone) in let! x5 := (Ok ONone) in mk_metric x3 x4 x5) in Ok (VMetric m)) in let! x7 := (Ok (OStr ($"sum"))) in let! x8 := (Ok ONone) in let! x9 := (Ok ONone) in let! x10 := (Ok ONone) in mk_timeseries x6 x7 x8 x9 x10) in Ok (VTS t)) in let! x11 := (let! x12 := (Ok (OInt (1000))) in Ok (VObj x12)) in let! x13 := (Ok (OStr ($"apdex"))) in let! x14 := (Ok ONone) in let! x15 := (Ok ONone) in let! x16 := (Ok ONone) in Ok (VFormula x13 (Some KList) [x2; x11] x14 x15 x16)) in let! x17 := (let! x18 := (Ok (ODateTime (mkDT (mkDate 2023 1 2) 3 4 5 0 (Some 0)))) in Ok (VObj x18)) in let! x19 := (let! x20 := (Ok (ODateTime (mkDT (mkDate 2023 1 16) 3 4 5 0 (Some 0)))) in Ok (VObj x20)) in let! x21 := (let! t := (let! x22 := (Ok (OInt (3600))) in let! x23 := (Ok ONone) in let! x24 := (Ok ONone) in let! x25 := (Ok (OInt (3600))) in mk_rollup x22 x23 x24 x25) in Ok (VRollup t)) in let! x26 := (let! t := (let! x29 := (let! x27 := (Ok (OInt (1))) in Ok (OList [x27])) in let! x30 := (let! x28 := (Ok (OInt (11))) in Ok (OList [x28])) in let! x31 := (Ok (OStr ($"transactions"))) in mk_scope x29 x30 x31) in Ok (VScope t)) in let! x32 := (let! x33 := (let! x34 := (Ok (OInt (100))) in mk_limit x34) in Ok (VObj x33)) in let! x35 := (let! x36 := (let! x37 := (Ok (OInt (5))) in mk_offset x37) in Ok (VObj x36)) in let! x38 := (Ok VNone) in let! x39 := (let! x40 := (Ok (ODict [] [])) in Ok (VObj x40)) in Ok (mkMQ x1 x17 x19 x21 x26 x32 x35 x38 x39)) in let! r := snd (mq_serialize q) in Ok (snd r)) (let! x41 := (Ok (OStr ($"2023-01-02T03:04:05+00:00"))) in let! x42 := (Ok (OStr ($"2023-01-16T03:04:05+00:00"))) in let! x43 := (let! x44 := (Ok ONone) in let! x45 := (Ok (OInt (3600))) in let! x46 := (Ok (OInt (3600))) in let! x47 := (Ok ONone) in Ok (ODict [($"orderby"); ($"granularity"); ($"interval"); ($"with_totals")] [x44; x45; x46; x47])) in let! x48 := (let! x49 := (let! x50 := (Ok (OInt (1))) in Ok (OList [x50])) in let! x51 := (let! x52 := (Ok (OInt (11))) in Ok (OList [x52])) in let! x53 := (Ok (OStr ($"transactions"))) in Ok (ODict [($"org_ids"); ($"project_ids"); ($"use_case_id")] [x49; x51; x53])) in let! x54 := (Ok (OInt (100))) in let! x55 := (Ok (OInt (5))) in let! x56 := (Ok ONone) in let! x57 := (Ok (ODict [] [])) in Ok (ODict [($"start"); ($"end"); ($"rollup"); ($"scope"); ($"limit"); ($"offset"); ($"extrapolate"); ($"indexer_mappings")] [x41; x42; x43; x48; x54; x55; x56; x57])) = true.
Proof. vm_compute. reflexivity. Qed.

(* test_metrics_mql_query.py, line 877: test arbitrary function *)
Example t173_test_metrics_mql_query : passes (parse_mql ($"apdex(sum(foo), 1000)")) = true.
Proof. vm_compute. reflexivity. Qed.

(* test_metrics_mql_query.py, line 923: test arbitrary function with curried aggregate *)
Example t174_test_metrics_mql_query : passes (let! q := (let! x1 := (let! x2 := (let! t := (let! x7 := (let! m := (let! x3 := (Ok (OStr ($"foo"))) in let! x4 := (Ok ONone) in let! x5 := (Ok ONone) in mk_metric x3 x4 x5) in Ok (VMetric m)) in let! x8 := (Ok (OStr ($"quantiles"))) in let! x9 := (let! x6 := (Ok (OFloat (FFin false 1%N (-1)))) in Ok (OList [x6])) in let! x10 := (Ok ONone) in let! x11 := (Ok ONone) in mk_timeseries x7 x8 x9 x10 x11) in Ok (VTS t)) in let! x12 := (let! x13 := (Ok (OInt (1000))) in Ok (VObj x13)) in let! x14 := (Ok (OStr ($"apdex"))) in let! x15 := (Ok ONone) in let! x16 := (Ok ONone) in let! x17 := (Ok ONone) in Ok (VFormula x14 (Some KList) [x2; x12] x15 x16 x17)) in let! x18 := (let! x19 := (Ok (ODateTime (mkDT (mkDate 2023 1 2) 3 4 5 0 (Some 0)))) in Ok (VObj x19)) in let! x20 := (let! x21 := (Ok (ODateTime (mkDT (mkDate 2023 1 16) 3 4 5 0 (Some 0)))) in Ok (VObj x21)) in let! x22 := (let! t := (let! x23 := (Ok (OInt (3600))) in let! x24 := (Ok ONone) in let! x25 := (Ok ONone) in let! x26 := (Ok (OInt (3600))) in mk_rollup x23 x24 x25 x26) in Ok (VRollup t)) in let! x27 := (let! t := (let! x30 := (let! x28 := (Ok (OInt (1))) in Ok (OList [x28])) in let! x31 := (let! x29 := (Ok (OInt (11))) in Ok (OList [x29])) in let! x32 := (Ok (OStr ($"transactions"))) in mk_scope x30 x31 x32) in Ok (VScope t)) in let! x33 := (let! x34 := (let! x35 := (Ok (OInt (100))) in mk_limit x35) in Ok (VObj x34)) in let! x36 := (let! x37 := (let! x38 := (Ok (OInt (5))) in mk_offset x38) in Ok (VObj x37)) in let! x39 := (Ok VNone) in let! x40 := (let! x41 := (Ok (ODict [] [])) in Ok (VObj x41)) in Ok (mkMQ x1 x18 x20 x22 x27 x33 x36 x39 x40)) in mq_validate q) = true.
Proof. vm_compute. reflexivity. Qed.

(* test_metrics_mql_query.py, line 923: test arbitrary function with curried aggregate *)
Example t175_test_metrics_mql_query : same_str (let! q := (let! x1 := (let! x2 := (let! t := (let! x7 := (let! m := (let! x3 := (Ok (OStr ($"foo"))) in let! x4 := (Ok ONone) in let! x5 := (Ok ONone) in mk_metric x3 x4 x5) in Ok (VMetric m)) in let! x8 := (Ok (OStr ($"quantiles"))) in let! x9 := (let! x6 := (Ok (OFloat (FFin false 1%N (-1)))) in Ok (OList [x6])) in let! x10 := (Ok ONone) in let! x11 := (Ok ONone) in mk_timeseries x7 x8 x9 x10 x11) in Ok (VTS t)) in let! x12 := (let! x13 := (Ok (OInt (1000))) in Ok (VObj x13)) in let! x14 := (Ok (OStr ($"apdex"))) in let! x15 := (Ok ONone) in let! x16 := (Ok ONone) in let! x17 := (Ok ONone) in Ok (VFormula x14 (Some KList) [x2; x12] x15 x16 x17)) in let! x18 := (let! x19 := (Ok (ODateTime (mkDT (mkDate 2023 1 2) 3 4 5 0 (Some 0)))) in Ok (VObj x19)) in let! x20 := (let! x21 := (Ok (ODateTime (mkDT (mkDate 2023 1 16) 3 4 5 0 (Some 0)))) in Ok (VObj x21)) in let! x22 := (let! t := (let! x23 := (Ok (OInt (3600))) in let! x24 := (Ok ONone) in let! x25 := (Ok ONone) in let! x26 := (Ok (OInt (3600))) in mk_rollup x23 x24 x25 x26) in Ok (VRollup t)) in let! x27 := (let! t := (let! x30 := (let! x28 := (Ok (OInt (1))) in Ok (OList [x28])) in let! x31 := (let! x29 := (Ok (OInt (11))) in Ok (OList [x29])) in let! x32 := (Ok (OStr ($"transactions"))) in mk_scope x30 x31 x32) in Ok (VScope t)) in let! x33 := (let! x34 := (let! x35 := (Ok (OInt (100))) in mk_limit x35) in Ok (VObj x34)) in let! x36 := (let! x37 := (let! x38 := (Ok (OInt (5))) in mk_offset x38) in Ok (VObj x37)) in let! x39 := (Ok VNone) in let! x40 := (let! x41 := (Ok (ODict [] [])) in Ok (VObj x41)) in Ok (mkMQ x1 x18 x20 x22 x27 x33 x36 x39 x40)) in let! r := snd (mq_serialize q) in Ok (fst r)) ($"apdex(quantiles(0.5)(foo), 1000)") = true.
Proof. vm_compute. reflexivity. Qed.

(* test_metrics_mql_query.py, line 923: test arbitrary function with curried aggregate *)
Example t176_test_metrics_mql_query : same_dict (let! q := (let! x1 := (let! x2 := (let! t := (let! x7 := (let! m := (let! x3 := (Ok (OStr ($"foo"))) in let! x4 := (Ok ONone) in let! x5 := (Ok ONone) in mk_metric x3 x4 x5) in Ok (VMetric m)) in let! x8 := (Ok (OStr ($"quantiles"))) in let! x9 := (let! x6 := (Ok (OFloat (FFin false 1%N (-1)))) in Ok (OList [x6])) in let! x10 := (Ok ONone) in let! x11 := (Ok ONone) in mk_timeseries x7 x8 x9 x10 x11) in Ok (VTS t)) in let! x12 := (let! x13 := (Ok (OInt (1000))) in Ok (VObj x13)) in let! x14 := (Ok (OStr ($"apdex"))) in let! x15 := (Ok ONone) in let! x16 := (Ok ONone) in let! x17 := (Ok ONone) in Ok (VFormula x14 (Some KList) [x2; x12] x15 x16 x17)) in let! x18 := (let! x19 := (Ok (ODateTime (mkDT (mkDate 2023 1 2) 3 4 5 0 (Some 0)))) in Ok (VObj x19)) in let! x20 := (let! x21 := (Ok (ODateTime (mkDT (mkDate 2023 1 16) 3 4 5 0 (Some 0)))) in Ok (VObj x21)) in let! x22 := (let! t := (let! x23 := (Ok (OInt (3600))) in let! x24 := (Ok ONone) in let! x25 := (Ok ONone) in let! x26 := (Ok (OInt (3600))) in mk_rollup x23 x24 x25 x26) in Ok (VRollup t)) in let! x27 := (let! t := (let! x30 := (let! x28 := (Ok (OInt (1))) in Ok (OList [x28])) in let! x31 := (let! x29 := (Ok (OInt (11))) in Ok (OList [x29])) in let! x32 := (Ok (OStr ($"transactions"))) in mk_scope x30 x31 x32) in Ok (VScope t)) in let! x33 := (let! x34 := (let! x35 := (Ok (OInt (100))) in mk_limit x35) in Ok (VObj x34)) in let! x36 := (let! x37 := (let! x38 := (Ok (OInt (5))) in mk_offset x38) in Ok (VObj x37)) in let! x39 := (Ok VNone) in let! x40 := (let! x41 := (Ok (ODict [] [])) in Ok (VObj x41)) in Ok (mkMQ x1 x18 x20 x22 x27 x33 x36 x39 x40)) in let! r := snd (mq_serialize q) in Ok (snd r)) (let! x42 := (Ok (OStr ($"2023-01-02T03:04:05+00:00"))) in let! x43 := (Ok (OStr ($"2023-01-16T03:04:05+00:00"))) in let! x44 := (let! x45 := (Ok ONone) in let! x46 := (Ok (OInt (3600))) in let! x47 := (Ok (OInt (3600))) in let! x48 := (Ok ONone) in Ok (ODict [($"orderby"); ($"granularity"); ($"interval"); ($"with_totals")] [x45; x46; x47; x48])) in let! x49 := (let! x50 := (let! x51 := (Ok (OInt (1))) in Ok (OList [x51])) in let! x52 := (let! x53 := (Ok (OInt (11))) in Ok (OList [x53])) in let! x54 := (Ok (OStr ($"transactions"))) in Ok (ODict [($"org_ids"); ($"project_ids"); ($"use_case_id")] [x50; x52; x54])) in let! x55 := (Ok (OInt (100))) in let! x56 := (Ok (OInt (5))) in let! x57 := (Ok ONone) in let! x58 := (Ok (ODict [] [])) in Ok (ODict [($"start"); ($"end"); ($"rollup"); ($"scope"); ($"limit"); ($"offset"); ($"extrapolate"); ($"indexer_mappings")] [x42; x43; x44; x49; x55; x56; x57; x58])) = true.
Proof. vm_compute. reflexivity. Qed.

(* test_metrics_mql_query.py, line 923: test arbitrary function with curried aggregate *)
Example t177_test_metrics_mql_query : passes (parse_mql ($"apdex(quantiles(0.5)(foo), 1000)")) = true.
Proof. vm_compute. reflexivity. Qed.

(* test_metrics_mql_query.py, line 970: test nested arbitrary function *)
Example t178_test_metrics_mql_query : passes (let! q := (let! x1 := (let! x2 := (let! x3 := (let! t := (let! x7 := (let! m := (let! x4 := (Ok (OStr ($"foo"))) in let! x5 := (Ok ONone) in let! x6 := (Ok ONone) in mk_metric x4 x5 x6) in Ok (VMetric m)) in let! x8 := (Ok (OStr ($"sum"))) in let! x9 := (Ok ONone) in let! x10 := (Ok ONone) in let! x11 := (Ok ONone) in mk_timeseries x7 x8 x9 x10 x11) in Ok (VTS t)) in let! x12 := (Ok (OStr ($"failure_rate"))) in let! x13 := (Ok ONone) in let! x14 := (Ok ONone) in let! x15 := (Ok ONone) in Ok (VFormula x12 (Some KList) [x3] x13 x14 x15)) in let! x16 := (let! x17 := (Ok (OInt (1000))) in Ok (VObj x17)) in let! x18 := (Ok (OStr ($"apdex"))) in let! x19 := (Ok ONone) in let! x20 := (Ok ONone) in let! x21 := (Ok ONone) in Ok (VFormula x18 (Some KList) [x2; x16] x19 x20 x21)) in let! x22 := (let! x23 := (Ok (ODateTime (mkDT (mkDate 2023 1 2) 3 4 5 0 (Some 0)))) in Ok (VObj x23)) in let! x24 := (let! x25 := (Ok (ODateTime (mkDT (mkDate 2023 1 16) 3 4 5 0 (Some 0)))) in Ok (VObj x25)) in let! x26 := (let! t := (let! x27 := (Ok (OInt (3600))) in let! x28 := (Ok ONone) in let! x29 := (Ok ONone) in let! x30 := (Ok (OInt (3600))) in mk_rollup x27 x28 x29 x30) in Ok (VRollup t)) in let! x31 := (let! t := (let! x34 := (let! x32 := (Ok (OInt (1))) in Ok (OList [x32])) in let! x35 := (let! x33 := (Ok (OInt (11))) in Ok (OList [x33])) in let! x36 := (Ok (OStr ($"transactions"))) in mk_scope x34 x35 x36) in Ok (VScope t)) in let! x37 := (let! x38 := (let! x39 := (Ok (OInt (100))) in mk_limit x39) in Ok (VObj x38)) in let! x40 := (let! x41 := (let! x42 := (Ok (OInt (5))) in mk_offset x42) in Ok (VObj x41)) in let! x43 := (Ok VNone) in let! x44 := (let! x45 := (Ok (ODict [] [])) in Ok (VObj x45)) in Ok (mkMQ x1 x22 x24 x26 x31 x37 x40 x43 x44)) in mq_validate q) = true.
Proof. vm_compute. reflexivity. Qed.

(* test_metrics_mql_query.py, line 970: test nested arbitrary function *)
Example t179_test_metrics_mql_query : same_str (let! q := (let! x1 := (let! x2 := (let! x3 := (let! t := (let! x7 := (let! m := (let! x4 := (Ok (OStr ($"foo"))) in let! x5 := (Ok ONone) in let! x6 := (Ok ONone) in mk_metric x4 x5 x6) in Ok (VMetric m)) in let! x8 := (Ok (OStr ($"sum"))) in let! x9 := (Ok ONone) in let! x10 := (Ok ONone) in let! x11 := (Ok ONone) in mk_timeseries x7 x8 x9 x10 x11) in Ok (VTS t)) in let! x12 := (Ok (OStr ($"failure_rate"))) in let! x13 := (Ok ONone) in let! x14 := (Ok ONone) in let! x15 := (Ok ONone) in Ok (VFormula x12 (Some KList) [x3] x13 x14 x15)) in let! x16 := (let! x17 := (Ok (OInt (1000))) in Ok (VObj x17)) in let! x18 := (Ok (OStr ($"apdex"))) in let! x19 := (Ok ONone) in let! x20 := (Ok ONone) in let! x21 := (Ok ONone) in Ok (VFormula x18 (Some KList) [x2; x16] x19 x20 x21)) in let! x22 := (let! x23 := (Ok (ODateTime (mkDT (mkDate 2023 1 2) 3 4 5 0 (Some 0)))) in Ok (VObj x23)) in let! x24 := (let! x25 := (Ok (ODateTime (mkDT (mkDate 2023 1 16) 3 4 5 0 (Some 0)))) in Ok (VObj x25)) in let! x26 := (let! t := (let! x27 := (Ok (OInt (3600))) in let! x28 := (Ok ONone) in let! x29 := (Ok ONone) in let! x30 := (Ok (OInt (3600))) in mk_rollup x27 x28 x29 x30) in Ok (VRollup t)) in let! x31 := (let! t := (let! x34 := (let! x32 := (Ok (OInt (1))) in Ok (OList [x32])) in let! x35 := (let! x33 := (Ok (OInt (11))) in Ok (OList [x33])) in let! x36 := (Ok (OStr ($"transactions"))) in mk_scope x34 x35 x36) in Ok (VScope t)) in let! x37 := (let! x38 := (let! x39 := (Ok (OInt (100))) in mk_limit x39) in Ok (VObj x38)) in let! x40 := (let! x41 := (let! x42 := (Ok (OInt (5))) in mk_offset x42) in Ok (VObj x41)) in let! x43 := (Ok VNone) in let! x44 := (let! x45 := (Ok (ODict [] [])) in Ok (VObj x45)) in Ok (mkMQ x1 x22 x24 x26 x31 x37 x40 x43 x44)) in let! r := snd (mq_serialize q) in Ok (fst r)) ($"apdex(failure_rate(sum(foo)), 1000)") = true.
Proof. vm_compute. reflexivity. Qed.

(* test_metrics_mql_query.py, line 970: test nested arbitrary function *)
Example t180_test_metrics_mql_query : same_dict (let! q := (let! x1 := (let! x2 := (let! x3 := (let! t := (let! x7 := (let! m := (let! x4 := (Ok (OStr ($"foo"))) in let! x5 := (Ok ONone) in let! x6 := (Ok ONone) in mk_metric x4 x5 x6) in Ok (VMetric m)) in let! x8 := (Ok (OStr ($"sum"))) in let! x9 := (Ok ONone) in let! x10 := (Ok ONone) in let! x11 := (Ok ONone) in mk_timeseries x7 x8 x9 x10 x11) in Ok (VTS t)) in let! x12 := (Ok (OStr ($"failure_rate"))) in let! x13 := (Ok ONone) in let! x14 := (Ok ONone) in let! x15 := (Ok ONone) in Ok (VFormula x12 (Some KList) [x3] x13 x14 x15)) in let! x16 := (let! x17 := (Ok (OInt (1000))) in Ok (VObj x17)) in let! x18 := (Ok (OStr ($"apdex"))) in let! x19 := (Ok ONone) in let! x20 := (Ok ONone) in let! x21 := (Ok ONone) in Ok (VFormula x18 (Some KList) [x2; x16] x19 x20 x21)) in let! x22 := (let! x23 := (Ok (ODateTime (mkDT (mkDate 2023 1 2) 3 4 5 0 (Some 0)))) in Ok (VObj x23)) in let! x24 := (let! x25 := (Ok (ODateTime (mkDT (mkDate 2023 1 16) 3 4 5 0 (Some 0)))) in Ok (VObj x25)) in let! x26 := (let! t := (let! x27 := (Ok (OInt (3600))) in let! x28 := (Ok ONone) in let! x29 := (Ok ONone) in let! x30 := (Ok (OInt (3600))) in mk_rollup x27 x28 x29 x30) in Ok (VRollup t)) in let! x31 := (let! t := (let! x34 := (let! x32 := (Ok (OInt (1))) in Ok (OList [x32])) in let! x35 := (let! x33 := (Ok (OInt (11))) in Ok (OList [x33])) in let! x36 := (Ok (OStr ($"transactions"))) in mk_scope x34 x35 x36) in Ok (VScope t)) in let! x37 := (let! x38 := (let! x39 := (Ok (OInt (100))) in mk_limit x39) in Ok (VObj x38)) in let! x40 := (let! x41 := (let! x42 := (Ok (OInt (5))) in mk_offset x42) in Ok (VObj x41)) in let! x43 := (Ok VNone) in let! x44 := (let! x45 := (Ok (ODict [] [])) in Ok (VObj x45)) in Ok (mkMQ x1 x22 x24 x26 x31 x37 x40 x43 x44)) in let! r := snd (mq_serialize q) in Ok (snd r)) (let! x46 := (Ok (OStr ($"2023-01-02T03:04:05+00:00"))) in let! x47 := (Ok (OStr ($"2023-01-16T03:04:05+00:00"))) in let! x48 := (let! x49 := (Ok ONone) in let! x50 := (Ok (OInt (3600))) in let! x51 := (Ok (OInt (3600))) in let! x52 := (Ok ONone) in Ok (ODict [($"orderby"); ($"granularity"); ($"interval"); ($"with_totals")] [x49; x50; x51; x52])) in let! x53 := (let! x54 := (let! x55 := (Ok (OInt (1))) in Ok (OList [x55])) in let! x56 := (let! x57 := (Ok (OInt (11))) in Ok (OList [x57])) in let! x58 := (Ok (OStr ($"transactions"))) in Ok (ODict [($"org_ids"); ($"project_ids"); ($"use_case_id")] [x54; x56; x58])) in let! x59 := (Ok (OInt (100))) in let! x60 := (Ok (OInt (5))) in let! x61 := (Ok ONone) in let! x62 := (Ok (ODict [] [])) in Ok (ODict [($"start"); ($"end"); ($"rollup"); ($"scope"); ($"limit"); ($"offset"); ($"extrapolate"); ($"indexer_mappings")] [x46; x47; x48; x53; x59; x60; x61; x62])) = true.
Proof. vm_compute. reflexivity. Qed.

(* test_metrics_mql_query.py, line 970: test nested arbitrary function *)
Example t181_test_metrics_mql_query : passes (parse_mql ($"apdex(failure_rate(sum(foo)), 1000)")) = true.
Proof. vm_compute. reflexivity. Qed.

(* test_metrics_mql_query.py, line 1021: test arbitrary function with inner term *)
Example t182_test_metrics_mql_query : passes (let! q := (let! x1 := (let! x2 := (let! x3 := (let! t := (let! x7 := (let! m := (let! x4 := (Ok (OStr ($"foo"))) in let! x5 := (Ok ONone) in let! x6 := (Ok ONone) in mk_metric x4 x5 x6) in Ok (VMetric m)) in let! x8 := (Ok (OStr ($"sum"))) in let! x9 := (Ok ONone) in let! x10 := (Ok ONone) in let! x11 := (Ok ONone) in mk_timeseries x7 x8 x9 x10 x11) in Ok (VTS t)) in let! x12 := (let! t := (let! x16 := (let! m := (let! x13 := (Ok (OStr ($"bar"))) in let! x14 := (Ok ONone) in let! x15 := (Ok ONone) in mk_metric x13 x14 x15) in Ok (VMetric m)) in let! x17 := (Ok (OStr ($"sum"))) in let! x18 := (Ok ONone) in let! x19 := (Ok ONone) in let! x20 := (Ok ONone) in mk_timeseries x16 x17 x18 x19 x20) in Ok (VTS t)) in let! x21 := (Ok (OStr ($"divide"))) in let! x22 := (Ok ONone) in let! x23 := (Ok ONone) in let! x24 := (Ok ONone) in Ok (VFormula x21 (Some KList) [x3; x12] x22 x23 x24)) in let! x25 := (let! x26 := (Ok (OInt (500))) in Ok (VObj x26)) in let! x27 := (Ok (OStr ($"apdex"))) in let! x28 := (Ok ONone) in let! x29 := (let! x30 := (let! x33 := (let! x31 := (Ok (OStr ($"tag"))) in let! x32 := (Ok ONone) in mk_column x31 x32) in let! x34 := (Ok (OOp EQ)) in let! x35 := (Ok (OStr ($"tag_value"))) in mk_condition x33 x34 x35) in Ok (OList [x30])) in let! x36 := (let! x37 := (let! x38 := (Ok (OStr ($"transaction"))) in let! x39 := (Ok ONone) in mk_column x38 x39) in Ok (OList [x37])) in Ok (VFormula x27 (Some KList) [x2; x25] x28 x29 x36)) in let! x40 := (let! x41 := (Ok (ODateTime (mkDT (mkDate 2023 1 2) 3 4 5 0 (Some 0)))) in Ok (VObj x41)) in let! x42 := (let! x43 := (Ok (ODateTime (mkDT (mkDate 2023 1 16) 3 4 5 0 (Some 0)))) in Ok (VObj x43)) in let! x44 := (let! t := (let! x45 := (Ok (OInt (3600))) in let! x46 := (Ok ONone) in let! x47 := (Ok ONone) in let! x48 := (Ok (OInt (3600))) in mk_rollup x45 x46 x47 x48) in Ok (VRollup t)) in let! x49 := (let! t := (let! x52 := (let! x50 := (Ok (OInt (1))) in Ok (OList [x50])) in let! x53 := (let! x51 := (Ok (OInt (11))) in Ok (OList [x51])) in let! x54 := (Ok (OStr ($"transactions"))) in mk_scope x52 x53 x54) in Ok (VScope t)) in let! x55 := (let! x56 := (let! x57 := (Ok (OInt (100))) in mk_limit x57) in Ok (VObj x56)) in let! x58 := (let! x59 := (let! x60 := (Ok (OInt (5))) in mk_offset x60) in Ok (VObj x59)) in let! x61 := (Ok VNone) in let! x62 := (let! x63 := (Ok (ODict [] [])) in Ok (VObj x63)) in Ok (mkMQ x1 x40 x42 x44 x49 x55 x58 x61 x62)) in mq_validate q) = true.
Proof. vm_compute. reflexivity. Qed.

(* test_metrics_mql_query.py, line 1021: test arbitrary function with inner term *)
Example t183_test_metrics_mql_query : same_str (let! q := (let! x1 := (let! x2 := (let! x3 := (let! t := (let! x7 := (let! m := (let! x4 := (Ok (OStr ($"foo"))) in let! x5 := (Ok ONone) in let! x6 := (Ok ONone) in mk_metric x4 x5 x6) in Ok (VMetric m)) in let! x8 := (Ok (OStr ($"sum"))) in let! x9 := (Ok ONone) in let! x10 := (Ok ONone) in let! x11 := (Ok ONone) in mk_timeseries x7 x8 x9 x10 x11) in Ok (VTS t)) in let! x12 := (let! t := (let! x16 := (let! m := (let! x13 := (Ok (OStr ($"bar"))) in let! x14 := (Ok ONone) in let! x15 := (Ok ONone) in mk_metric x13 x14 x15) in Ok (VMetric m)) in let! x17 := (Ok (OStr ($"sum"))) in let! x18 := (Ok ONone) in let! x19 := (Ok ONone) in let! x20 := (Ok ONone) in mk_timeseries x16 x17 x18 x19 x20) in Ok (VTS t)) in let! x21 := (Ok (OStr ($"divide"))) in let! x22 := (Ok ONone) in let! x23 := (Ok ONone) in let! x24 := (Ok ONone) in Ok (VFormula x21 (Some KList) [x3; x12] x22 x23 x24)) in let! x25 := (let! x26 := (Ok (OInt (500))) in Ok (VObj x26)) in let! x27 := (Ok (OStr ($"apdex"))) in let! x28 := (Ok ONone) in let! x29 := (let! x30 := (let! x33 := (let! x31 := (Ok (OStr ($"tag"))) in let! x32 := (Ok ONone) in mk_column x31 x32) in let! x34 := (Ok (OOp EQ)) in let! x35 := (Ok (OStr ($"tag_value"))) in mk_condition x33 x34 x35) in Ok (OList [x30])) in let! x36 := (let! x37 := (let! x38 := (Ok (OStr ($"transaction"))) in let! x39 := (Ok ONone) in mk_column x38 x39) in Ok (OList [x37])) in Ok (VFormula x27 (Some KList) [x2; x25] x28 x29 x36)) in let! x40 := (let! x41 := (Ok (ODateTime (mkDT (mkDate 2023 1 2) 3 4 5 0 (Some 0)))) in Ok (VObj x41)) in let! x42 := (let! x43 := (Ok (ODateTime (mkDT (mkDate 2023 1 16) 3 4 5 0 (Some 0)))) in Ok (VObj x43)) in let! x44 := (let! t := (let! x45 := (Ok (OInt (3600))) in let! x46 := (Ok ONone) in let! x47 := (Ok ONone) in let! x48 := (Ok (OInt (3600))) in mk_rollup x45 x46 x47 x48) in Ok (VRollup t)) in let! x49 := (let! t := (let! x52 := (let! x50 := (Ok (OInt (1))) in Ok (OList [x50])) in let! x53 := (let! x51 := (Ok (OInt (11))) in Ok (OList [x51])) in let! x54 := (Ok (OStr ($"transactions"))) in mk_scope x52 x53 x54) in Ok (VScope t)) in let! x55 := (let! x56 := (let! x57 := (Ok (OInt (100))) in mk_limit x57) in Ok (VObj x56)) in let! x58 := (let! x59 := (let! x60 := (Ok (OInt (5))) in mk_offset x60) in Ok (VObj x59)) in let! x61 := (Ok VNone) in let! x62 := (let! x63 := (Ok (ODict [] [])) in Ok (VObj x63)) in Ok (mkMQ x1 x40 x42 x44 x49 x55 x58 x61 x62)) in let! r := snd (mq_serialize q) in Ok (fst r)) ($"apdex((sum(foo) / sum(bar)), 500){tag:""tag_value""} by (transaction)") = true.
Proof. vm_compute. reflexivity. Qed.

(* test_metrics_mql_query.py, line 1021: test arbitrary function with inner term *)
Example t184_test_metrics_mql_query : same_dict (let! q := (let! x1 := (let! x2 := (let! x3 := (let! t := (let! x7 := (let! m := (let! x4 := (Ok (OStr ($"foo"))) in let! x5 := (Ok ONone) in let! x6 := (Ok ONone) in mk_metric x4 x5 x6) in Ok (VMetric m)) in let! x8 := (Ok (OStr ($"sum"))) in let! x9 := (Ok ONone) in let! x10 := (Ok ONone) in let! x11 := (Ok ONone) in mk_timeseries x7 x8 x9 x10 x11) in Ok (VTS t)) in let! x12 := (let! t := (let! x16 := (let! m := (let! x13 := (Ok (OStr ($"bar"))) in let! x14 := (Ok ONone) in let! x15 := (Ok ONone) in mk_metric x13 x14 x15) in Ok (VMetric m)) in let! x17 := (Ok (OStr ($"sum"))) in let! x18 := (Ok ONone) in let! x19 := (Ok ONone) in let! x20 := (Ok ONone) in mk_timeseries x16 x17 x18 x19 x20) in Ok (VTS t)) in let! x21 := (Ok (OStr ($"divide"))) in let! x22 := (Ok ONone) in let! x23 := (Ok ONone) in let! x24 := (Ok ONone) in Ok (VFormula x21 (Some KList) [x3; x12] x22 x23 x24)) in let! x25 := (let! x26 := (Ok (OInt (500))) in Ok (VObj x26)) in let! x27 := (Ok (OStr ($"apdex"))) in let! x28 := (Ok ONone) in let! x29 := (let! x30 := (let! x33 := (let! x31 := (Ok (OStr ($"tag"))) in let! x32 := (Ok ONone) in mk_column x31 x32) in let! x34 := (Ok (OOp EQ)) in let! x35 := (Ok (OStr ($"tag_value"))) in mk_condition x33 x34 x35) in Ok (OList [x30])) in let! x36 := (let! x37 := (let! x38 := (Ok (OStr ($"transaction"))) in let! x39 := (Ok ONone) in mk_column x38 x39) in Ok (OList [x37])) in Ok (VFormula x27 (Some KList) [x2; x25] x28 x29 x36)) in let! x40 := (let! x41 := (Ok (ODateTime (mkDT (mkDate 2023 1 2) 3 4 5 0 (Some 0)))) in Ok (VObj x41)) in let! x42 := (let! x43 := (Ok (ODateTime (mkDT (mkDate 2023 1 16) 3 4 5 0 (Some 0)))) in Ok (VObj x43)) in let! x44 := (let! t := (let! x45 := (Ok (OInt (3600))) in let! x46 := (Ok ONone) in let! x47 := (Ok ONone) in let! x48 := (Ok (OInt (3600))) in mk_rollup x45 x46 x47 x48) in Ok (VRollup t)) in let! x49 := (let! t := (let! x52 := (let! x50 := (Ok (OInt (1))) in Ok (OList [x50])) in let! x53 := (let! x51 := (Ok (OInt (11))) in Ok (OList [x51])) in let! x54 := (Ok (OStr ($"transactions"))) in mk_scope x52 x53 x54) in Ok (VScope t)) in let! x55 := (let! x56 := (let! x57 := (Ok (OInt (100))) in mk_limit x57) in Ok (VObj x56)) in let! x58 := (let! x59 := (let! x60 := (Ok (OInt (5))) in mk_offset x60) in Ok (VObj x59)) in let! x61 := (Ok VNone) in let! x62 := (let! x63 := (Ok (ODict [] [])) in Ok (VObj x63)) in Ok (mkMQ x1 x40 x42 x44 x49 x55 x58 x61 x62)) in let! r := snd (mq_serialize q) in Ok (snd r)) (let! x64 := (Ok (OStr ($"2023-01-02T03:04:05+00:00"))) in let! x65 := (Ok (OStr ($"2023-01-16T03:04:05+00:00"))) in let! x66 := (let! x67 := (Ok ONone) in let! x68 := (Ok (OInt (3600))) in let! x69 := (Ok (OInt (3600))) in let! x70 := (Ok ONone) in Ok (ODict [($"orderby"); ($"granularity"); ($"interval"); ($"with_totals")] [x67; x68; x69; x70])) in let! x71 := (let! x72 := (let! x73 := (Ok (OInt (1))) in Ok (OList [x73])) in let! x74 := (let! x75 := (Ok (OInt (11))) in Ok (OList [x75])) in let! x76 := (Ok (OStr ($"transactions"))) in Ok (ODict [($"org_ids"); ($"project_ids"); ($"use_case_id")] [x72; x74; x76])) in let! x77 := (Ok (OInt (100))) in let! x78 := (Ok (OInt (5))) in let! x79 := (Ok ONone) in let! x80 := (Ok (ODict [] [])) in Ok (ODict [($"start"); ($"end"); ($"rollup"); ($"scope"); ($"limit"); ($"offset"); ($"extrapolate"); ($"indexer_mappings")] [x64; x65; x66; x71; x77; x78; x79; x80])) = true.
Proof. vm_compute. reflexivity. Qed.

(* test_metrics_mql_query.py, line 1021: test arbitrary function with inner term *)
Example t185_test_metrics_mql_query : passes (parse_mql ($"apdex((sum(foo) / sum(bar)), 500){tag:""tag_value""} by (transaction)")) = true.
Proof. vm_compute. reflexivity. Qed.

(* test_metrics_mql_query.py, line 1078: test curried arbitrary function with inner aggregate and terms *)
Example t186_test_metrics_mql_query : passes (let! q := (let! x1 := (let! x2 := (let! x3 := (let! t := (let! x7 := (let! m := (let! x4 := (Ok (OStr ($"transaction.duration"))) in let! x5 := (Ok ONone) in let! x6 := (Ok ONone) in mk_metric x4 x5 x6) in Ok (VMetric m)) in let! x8 := (Ok (OStr ($"sum"))) in let! x9 := (Ok ONone) in let! x10 := (Ok ONone) in let! x11 := (Ok ONone) in mk_timeseries x7 x8 x9 x10 x11) in Ok (VTS t)) in let! x12 := (let! t := (let! x16 := (let! m := (let! x13 := (Ok (OStr ($"transaction.duration"))) in let! x14 := (Ok ONone) in let! x15 := (Ok ONone) in mk_metric x13 x14 x15) in Ok (VMetric m)) in let! x17 := (Ok (OStr ($"count"))) in let! x18 := (Ok ONone) in let! x19 := (Ok ONone) in let! x20 := (Ok ONone) in mk_timeseries x16 x17 x18 x19 x20) in Ok (VTS t)) in let! x21 := (Ok (OStr ($"divide"))) in let! x22 := (Ok ONone) in let! x23 := (Ok ONone) in let! x24 := (Ok ONone) in Ok (VFormula x21 (Some KList) [x3; x12] x22 x23 x24)) in let! x25 := (Ok (OStr ($"topK"))) in let! x26 := (let! x27 := (Ok (OInt (10))) in Ok (OList [x27])) in let! x28 := (Ok ONone) in let! x29 := (Ok ONone) in Ok (VFormula x25 (Some KList) [x2] x26 x28 x29)) in let! x30 := (let! x31 := (Ok (ODateTime (mkDT (mkDate 2023 1 2) 3 4 5 0 (Some 0)))) in Ok (VObj x31)) in let! x32 := (let! x33 := (Ok (ODateTime (mkDT (mkDate 2023 1 16) 3 4 5 0 (Some 0)))) in Ok (VObj x33)) in let! x34 := (let! t := (let! x35 := (Ok (OInt (3600))) in let! x36 := (Ok ONone) in let! x37 := (Ok ONone) in let! x38 := (Ok (OInt (3600))) in mk_rollup x35 x36 x37 x38) in Ok (VRollup t)) in let! x39 := (let! t := (let! x42 := (let! x40 := (Ok (OInt (1))) in Ok (OList [x40])) in let! x43 := (let! x41 := (Ok (OInt (11))) in Ok (OList [x41])) in let! x44 := (Ok (OStr ($"transactions"))) in mk_scope x42 x43 x44) in Ok (VScope t)) in let! x45 := (let! x46 := (let! x47 := (Ok (OInt (100))) in mk_limit x47) in Ok (VObj x46)) in let! x48 := (let! x49 := (let! x50 := (Ok (OInt (5))) in mk_offset x50) in Ok (VObj x49)) in let! x51 := (Ok VNone) in let! x52 := (let! x53 := (Ok (ODict [] [])) in Ok (VObj x53)) in Ok (mkMQ x1 x30 x32 x34 x39 x45 x48 x51 x52)) in mq_validate q) = true.
Proof. vm_compute. reflexivity. Qed.

(* test_metrics_mql_query.py, line 1078: test curried arbitrary function with inner aggregate and terms *)
Example t187_test_metrics_mql_query : same_str (let! q := (let! x1 := (let! x2 := (let! x3 := (let! t := (let! x7 := (let! m := (let! x4 := (Ok (OStr ($"transaction.duration"))) in let! x5 := (Ok ONone) in let! x6 := (Ok ONone) in mk_metric x4 x5 x6) in Ok (VMetric m)) in let! x8 := (Ok (OStr ($"sum"))) in let! x9 := (Ok ONone) in let! x10 := (Ok ONone) in let! x11 := (Ok ONone) in mk_timeseries x7 x8 x9 x10 x11) in Ok (VTS t)) in let! x12 := (let! t := (let! x16 := (let! m := (let! x13 := (Ok (OStr ($"transaction.duration"))) in let! x14 := (Ok ONone) in let! x15 := (Ok ONone) in mk_metric x13 x14 x15) in Ok (VMetric m)) in let! x17 := (Ok (OStr ($"count"))) in let! x18 := (Ok ONone) in let! x19 := (Ok ONone) in let! x20 := (Ok ONone) in mk_timeseries x16 x17 x18 x19 x20) in Ok (VTS t)) in let! x21 := (Ok (OStr ($"divide"))) in let! x22 := (Ok ONone) in let! x23 := (Ok ONone) in let! x24 := (Ok ONone) in Ok (VFormula x21 (Some KList) [x3; x12] x22 x23 x24)) in let! x25 := (Ok (OStr ($"topK"))) in let! x26 := (let! x27 := (Ok (OInt (10))) in Ok (OList [x27])) in let! x28 := (Ok ONone) in let! x29 := (Ok ONone) in Ok (VFormula x25 (Some KList) [x2] x26 x28 x29)) in let! x30 := (let! x31 := (Ok (ODateTime (mkDT (mkDate 2023 1 2) 3 4 5 0 (Some 0)))) in Ok (VObj x31)) in let! x32 := (let! x33 := (Ok (ODateTime (mkDT (mkDate 2023 1 16) 3 4 5 0 (Some 0)))) in Ok (VObj x33)) in let! x34 := (let! t := (let! x35 := (Ok (OInt (3600))) in let! x36 := (Ok ONone) in let! x37 := (Ok ONone) in let! x38 := (Ok (OInt (3600))) in mk_rollup x35 x36 x37 x38) in Ok (VRollup t)) in let! x39 := (let! t := (let! x42 := (let! x40 := (Ok (OInt (1))) in Ok (OList [x40])) in let! x43 := (let! x41 := (Ok (OInt (11))) in Ok (OList [x41])) in let! x44 := (Ok (OStr ($"transactions"))) in mk_scope x42 x43 x44) in Ok (VScope t)) in let! x45 := (let! x46 := (let! x47 := (Ok (OInt (100))) in mk_limit x47) in Ok (VObj x46)) in let! x48 := (let! x49 := (let! x50 := (Ok (OInt (5))) in mk_offset x50) in Ok (VObj x49)) in let! x51 := (Ok VNone) in let! x52 := (let! x53 := (Ok (ODict [] [])) in Ok (VObj x53)) in Ok (mkMQ x1 x30 x32 x34 x39 x45 x48 x51 x52)) in let! r := snd (mq_serialize q) in Ok (fst r)) ($"topK(10)((sum(transaction.duration) / count(transaction.duration)))") = true.
Proof. vm_compute. reflexivity. Qed.

(* test_metrics_mql_query.py, line 1078: test curried arbitrary function with inner aggregate and terms *)
Example t188_test_metrics_mql_query : same_dict (let! q := (let! x1 := (let! x2 := (let! x3 := (let! t := (let! x7 := (let! m := (let! x4 := (Ok (OStr ($"transaction.duration"))) in let! x5 := (Ok ONone) in let! x6 := (Ok ONone) in mk_metric x4 x5 x6) in Ok (VMetric m)) in let! x8 := (Ok (OStr ($"sum"))) in let! x9 := (Ok ONone) in let! x10 := (Ok ONone) in let! x11 := (Ok ONone) in mk_timeseries x7 x8 x9 x10 x11) in Ok (VTS t)) in let! x12 := (let! t := (let! x16 := (let! m := (let! x13 := (Ok (OStr ($"transaction.duration"))) in let! x14 := (Ok ONone) in let! x15 := (Ok ONone) in mk_metric x13 x14 x15) in Ok (VMetric m)) in let! x17 := (Ok (OStr ($"count"))) in let! x18 := (Ok ONone) in let! x19 := (Ok ONone) in let! x20 := (Ok ONone) in mk_timeseries x16 x17 x18 x19 x20) in Ok (VTS t)) in let! x21 := (Ok (OStr ($"divide"))) in let! x22 := (Ok ONone) in let! x23 := (Ok ONone) in let! x24 := (Ok ONone) in Ok (VFormula x21 (Some KList) [x3; x12] x22 x23 x24)) in let! x25 := (Ok (OStr ($"topK"))) in let! x26 := (let! x27 := (Ok (OInt (10))) in Ok (OList [x27])) in let! x28 := (Ok ONone) in let! x29 := (Ok ONone) in Ok (VFormula x25 (Some KList) [x2] x26 x28 x29)) in let! x30 := (let! x31 := (Ok (ODateTime (mkDT (mkDate 2023 1 2) 3 4 5 0 (Some 0)))) in Ok (VObj x31)) in let! x32 := (let! x33 := (Ok (ODateTime (mkDT (mkDate 2023 1 16) 3 4 5 0 (Some 0)))) in Ok (VObj x33)) in let! x34 := (let! t := (let! x35 := (Ok (OInt (3600))) in let! x36 := (Ok ONone) in let! x37 := (Ok ONone) in let! x38 := (Ok (OInt (3600))) in mk_rollup x35 x36 x37 x38) in Ok (VRollup t)) in let! x39 := (let! t := (let! x42 := (let! x40 := (Ok (OInt (1))) in Ok (OList [x40])) in let! x43 := (let! x41 := (Ok (OInt (11))) in Ok (OList [x41])) in let! x44 := (Ok (OStr ($"transactions"))) in mk_scope x42 x43 x44) in Ok (VScope t)) in let! x45 := (let! x46 := (let! x47 := (Ok (OInt (100))) in mk_limit x47) in Ok (VObj x46)) in let! x48 := (let! x49 := (let! x50 := (Ok (OInt (5))) in mk_offset x50) in Ok (VObj x49)) in let! x51 := (Ok VNone) in let! x52 := (let! x53 := (Ok (ODict [] [])) in Ok (VObj x53)) in Ok (mkMQ x1 x30 x32 x34 x39 x45 x48 x51 x52)) in let! r := snd (mq_serialize q) in Ok (snd r)) (let! x54 := (Ok (OStr ($"2023-01-02T03:04:05+00:00"))) in let! x55 := (Ok (OStr ($"2023-01-16T03:04:05+00:00"))) in let! x56 := (let! x57 := (Ok ONone) in let! x58 := (Ok (OInt (3600))) in let! x59 := (Ok (OInt (3600))) in let! x60 := (Ok ONone) in Ok (ODict [($"orderby"); ($"granularity"); ($"interval"); ($"with_totals")] [x57; x58; x59; x60])) in let! x61 := (let! x62 := (let! x63 := (Ok (OInt (1))) in Ok (OList [x63])) in let! x64 := (let! x65 := (Ok (OInt (11))) in Ok (OList [x65])) in let! x66 := (Ok (OStr ($"transactions"))) in Ok (ODict [($"org_ids"); ($"project_ids"); ($"use_case_id")] [x62; x64; x66])) in let! x67 := (Ok (OInt (100))) in let! x68 := (Ok (OInt (5))) in let! x69 := (Ok ONone) in let! x70 := (Ok (ODict [] [])) in Ok (ODict [($"start"); ($"end"); ($"rollup"); ($"scope"); ($"limit"); ($"offset"); ($"extrapolate"); ($"indexer_mappings")] [x54; x55; x56; x61; x67; x68; x69; x70])) = true.
Proof. vm_compute. reflexivity. Qed.

(* test_metrics_mql_query.py, line 1078: test curried arbitrary function with inner aggregate and terms *)
Example t189_test_metrics_mql_query : passes (parse_mql ($"topK(10)((sum(transaction.duration) / count(transaction.duration)))")) = true.
Proof. vm_compute. reflexivity. Qed.

(* test_metrics_mql_query.py, line 1133: test curried arbitrary function with inner arbitrary function *)
Example t190_test_metrics_mql_query : passes (let! q := (let! x1 := (let! x2 := (let! x3 := (let! t := (let! x7 := (let! m := (let! x4 := (Ok (OStr ($"transaction.duration"))) in let! x5 := (Ok ONone) in let! x6 := (Ok ONone) in mk_metric x4 x5 x6) in Ok (VMetric m)) in let! x8 := (Ok (OStr ($"sum"))) in let! x9 := (Ok ONone) in let! x10 := (Ok ONone) in let! x11 := (Ok ONone) in mk_timeseries x7 x8 x9 x10 x11) in Ok (VTS t)) in let! x12 := (let! x13 := (Ok (OInt (500))) in Ok (VObj x13)) in let! x14 := (Ok (OStr ($"apdex"))) in let! x15 := (Ok ONone) in let! x16 := (let! x17 := (let! x20 := (let! x18 := (Ok (OStr ($"bar"))) in let! x19 := (Ok ONone) in mk_column x18 x19) in let! x21 := (Ok (OOp EQ)) in let! x22 := (Ok (OStr ($"baz"))) in mk_condition x20 x21 x22) in Ok (OList [x17])) in let! x23 := (Ok ONone) in Ok (VFormula x14 (Some KList) [x3; x12] x15 x16 x23)) in let! x24 := (Ok (OStr ($"topK"))) in let! x25 := (let! x26 := (Ok (OInt (10))) in Ok (OList [x26])) in let! x27 := (Ok ONone) in let! x28 := (Ok ONone) in Ok (VFormula x24 (Some KList) [x2] x25 x27 x28)) in let! x29 := (let! x30 := (Ok (ODateTime (mkDT (mkDate 2023 1 2) 3 4 5 0 (Some 0)))) in Ok (VObj x30)) in let! x31 := (let! x32 := (Ok (ODateTime (mkDT (mkDate 2023 1 16) 3 4 5 0 (Some 0)))) in Ok (VObj x32)) in let! x33 := (let! t := (let! x34 := (Ok (OInt (3600))) in let! x35 := (Ok ONone) in let! x36 := (Ok ONone) in let! x37 := (Ok (OInt (3600))) in mk_rollup x34 x35 x36 x37) in Ok (VRollup t)) in let! x38 := (let! t := (let! x41 := (let! x39 := (Ok (OInt (1))) in Ok (OList [x39])) in let! x42 := (let! x40 := (Ok (OInt (11))) in Ok (OList [x40])) in let! x43 := (Ok (OStr ($"transactions"))) in mk_scope x41 x42 x43) in Ok (VScope t)) in let! x44 := (let! x45 := (let! x46 := (Ok (OInt (100))) in mk_limit x46) in Ok (VObj x45)) in let! x47 := (let! x48 := (let! x49 := (Ok (OInt (5))) in mk_offset x49) in Ok (VObj x48)) in let! x50 := (Ok VNone) in let! x51 := (let! x52 := (Ok (ODict [] [])) in Ok (VObj x52)) in Ok (mkMQ x1 x29 x31 x33 x38 x44 x47 x50 x51)) in mq_validate q) = true.
Proof. vm_compute. reflexivity. Qed.

(* test_metrics_mql_query.py, line 1133: test curried arbitrary function with inner arbitrary function *)
Example t191_test_metrics_mql_query : same_str (let! q := (let! x1 := (let! x2 := (let! x3 := (let! t := (let! x7 := (let! m := (let! x4 := (Ok (OStr ($"transaction.duration"))) in let! x5 := (Ok ONone) in let! x6 := (Ok ONone) in mk_metric x4 x5 x6) in Ok (VMetric m)) in let! x8 := (Ok (OStr ($"sum"))) in let! x9 := (Ok ONone) in let! x10 := (Ok ONone) in let! x11 := (Ok ONone) in mk_timeseries x7 x8 x9 x10 x11) in Ok (VTS t)) in let! x12 := (let! x13 := (Ok (OInt (500))) in Ok (VObj x13)) in let! x14 := (Ok (OStr ($"apdex"))) in let! x15 := (Ok ONone) in let! x16 := (let! x17 := (let! x20 := (let! x18 := (Ok (OStr ($"bar"))) in let! x19 := (Ok ONone) in mk_column x18 x19) in let! x21 := (Ok (OOp EQ)) in let! x22 := (Ok (OStr ($"baz"))) in mk_condition x20 x21 x22) in Ok (OList [x17])) in let! x23 := (Ok ONone) in Ok (VFormula x14 (Some KList) [x3; x12] x15 x16 x23)) in let! x24 := (Ok (OStr ($"topK"))) in let! x25 := (let! x26 := (Ok (OInt (10))) in Ok (OList [x26])) in let! x27 := (Ok ONone) in let! x28 := (Ok ONone) in Ok (VFormula x24 (Some KList) [x2] x25 x27 x28)) in let! x29 := (let! x30 := (Ok (ODateTime (mkDT (mkDate 2023 1 2) 3 4 5 0 (Some 0)))) in Ok (VObj x30)) in let! x31 := (let! x32 := (Ok (ODateTime (mkDT (mkDate 2023 1 16) 3 4 5 0 (Some 0)))) in Ok (VObj x32)) in let! x33 := (let! t := (let! x34 := (Ok (OInt (3600))) in let! x35 := (Ok ONone) in let! x36 := (Ok ONone) in let! x37 := (Ok (OInt (3600))) in mk_rollup x34 x35 x36 x37) in Ok (VRollup t)) in let! x38 := (let! t := (let! x41 := (let! x39 := (Ok (OInt (1))) in Ok (OList [x39])) in let! x42 := (let! x40 := (Ok (OInt (11))) in Ok (OList [x40])) in let! x43 := (Ok (OStr ($"transactions"))) in mk_scope x41 x42 x43) in Ok (VScope t)) in let! x44 := (let! x45 := (let! x46 := (Ok (OInt (100))) in mk_limit x46) in Ok (VObj x45)) in let! x47 := (let! x48 := (let! x49 := (Ok (OInt (5))) in mk_offset x49) in Ok (VObj x48)) in let! x50 := (Ok VNone) in let! x51 := (let! x52 := (Ok (ODict [] [])) in Ok (VObj x52)) in Ok (mkMQ x1 x29 x31 x33 x38 x44 x47 x50 x51)) in let! r := snd (mq_serialize q) in Ok (fst r)) ($"topK(10)(apdex(sum(transaction.duration), 500){bar:""baz""})") = true.
Proof. vm_compute. reflexivity. Qed.

(* test_metrics_mql_query.py, line 1133: test curried arbitrary function with inner arbitrary function *)
Example t192_test_metrics_mql_query : same_dict (let! q := (let! x1 := (let! x2 := (let! x3 := (let! t := (let! x7 := (let! m := (let! x4 := (Ok (OStr ($"transaction.duration"))) in let! x5 := (Ok ONone) in let! x6 := (Ok ONone) in mk_metric x4 x5 x6) in Ok (VMetric m)) in let! x8 := (Ok (OStr ($"sum"))) in let! x9 := (Ok ONone) in let! x10 := (Ok ONone) in let! x11 := (Ok ONone) in mk_timeseries x7 x8 x9 x10 x11) in Ok (VTS t)) in let! x12 := (let! x13 := (Ok (OInt (500))) in Ok (VObj x13)) in let! x14 := (Ok (OStr ($"apdex"))) in let! x15 := (Ok ONone) in let! x16 := (let! x17 := (let! x20 := (let! x18 := (Ok (OStr ($"bar"))) in let! x19 := (Ok ONone) in mk_column x18 x19) in let! x21 := (Ok (OOp EQ)) in let! x22 := (Ok (OStr ($"baz"))) in mk_condition x20 x21 x22) in Ok (OList [x17])) in let! x23 := (Ok ONone) in Ok (VFormula x14 (Some KList) [x3; x12] x15 x16 x23)) in let! x24 := (Ok (OStr ($"topK"))) in let! x25 := (let! x26 := (Ok (OInt (10))) in Ok (OList [x26])) in let! x27 := (Ok ONone) in let! x28 := (Ok ONone) in Ok (VFormula x24 (Some KList) [x2] x25 x27 x28)) in let! x29 := (let! x30 := (Ok (ODateTime (mkDT (mkDate 2023 1 2) 3 4 5 0 (Some 0)))) in Ok (VObj x30)) in let! x31 := (let! x32 := (Ok (ODateTime (mkDT (mkDate 2023 1 16) 3 4 5 0 (Some 0)))) in Ok (VObj x32)) in let! x33 := (let! t := (let! x34 := (Ok (OInt (3600))) in let! x35 := (Ok ONone) in let! x36 := (Ok ONone) in let! x37 := (Ok (OInt (3600))) in mk_rollup x34 x35 x36 x37) in Ok (VRollup t)) in let! x38 := (let! t := (let! x41 := (let! x39 := (Ok (OInt (1))) in Ok (OList [x39])) in let! x42 := (let! x40 := (Ok (OInt (11))) in Ok (OList [x40])) in let! x43 := (Ok (OStr ($"transactions"))) in mk_scope x41 x42 x43) in Ok (VScope t)) in let! x44 := (let! x45 := (let! x46 := (Ok (OInt (100))) in mk_limit x46) in Ok (VObj x45)) in let! x47 := (let! x48 := (let! x49 := (Ok (OInt (5))) in mk_offset x49) in Ok (VObj x48)) in let! x50 := (Ok VNone) in let! x51 := (let! x52 := (Ok (ODict [] [])) in Ok (VObj x52)) in Ok (mkMQ x1 x29 x31 x33 x38 x44 x47 x50 x51)) in let! r := snd (mq_serialize q) in Ok (snd r)) (let! x53 := (Ok (OStr ($"2023-01-02T03:04:05+00:00"))) in let! x54 := (Ok (OStr ($"2023-01-16T03:04:05+00:00"))) in let! x55 := (let! x56 := (Ok ONone) in let! x57 := (Ok (OInt (3600))) in let! x58 := (Ok (OInt (3600))) in let! x59 := (Ok ONone) in Ok (ODict [($"orderby"); ($"granularity"); ($"interval"); ($"with_totals")] [x56; x57; x58; x59])) in let! x60 := (let! x61 := (let! x62 := (Ok (OInt (1))) in Ok (OList [x62])) in let! x63 := (let! x64 := (Ok (OInt (11))) in Ok (OList [x64])) in let! x65 := (Ok (OStr ($"transactions"))) in Ok (ODict [($"org_ids"); ($"project_ids"); ($"use_case_id")] [x61; x63; x65])) in let! x66 := (Ok (OInt (100))) in let! x67 := (Ok (OInt (5))) in let! x68 := (Ok ONone) in let! x69 := (Ok (ODict [] [])) in Ok (ODict [($"start"); ($"end"); ($"rollup"); ($"scope"); ($"limit"); ($"offset"); ($"extrapolate"); ($"indexer_mappings")] [x53; x54; x55; x60; x66; x67; x68; x69])) = true.
Proof. vm_compute. reflexivity. Qed.

(* test_metrics_mql_query.py, line 1133: test curried arbitrary function with inner arbitrary function *)
Example t193_test_metrics_mql_query : passes (parse_mql ($"topK(10)(apdex(sum(transaction.duration), 500){bar:""baz""})")) = true.
Proof. vm_compute. reflexivity. Qed.

(* test_metrics_mql_query.py, line 1186: test curried arbitrary function with inner arbitrary function *)
Example t194_test_metrics_mql_query : passes (let! q := (let! x1 := (let! x2 := (Ok (OStr ($"((sum(transaction.duration{transaction:t1}) / sum(transaction.duration)){transaction:t2} + sum(transaction.duration){transaction:t3}) by transaction"))) in Ok (VObj x2)) in let! x3 := (let! x4 := (Ok (ODateTime (mkDT (mkDate 2023 1 2) 3 4 5 0 (Some 0)))) in Ok (VObj x4)) in let! x5 := (let! x6 := (Ok (ODateTime (mkDT (mkDate 2023 1 16) 3 4 5 0 (Some 0)))) in Ok (VObj x6)) in let! x7 := (let! t := (let! x8 := (Ok (OInt (3600))) in let! x9 := (Ok ONone) in let! x10 := (Ok ONone) in let! x11 := (Ok (OInt (3600))) in mk_rollup x8 x9 x10 x11) in Ok (VRollup t)) in let! x12 := (let! t := (let! x15 := (let! x13 := (Ok (OInt (1))) in Ok (OList [x13])) in let! x16 := (let! x14 := (Ok (OInt (11))) in Ok (OList [x14])) in let! x17 := (Ok (OStr ($"transactions"))) in mk_scope x15 x16 x17) in Ok (VScope t)) in let! x18 := (let! x19 := (let! x20 := (Ok (OInt (100))) in mk_limit x20) in Ok (VObj x19)) in let! x21 := (let! x22 := (let! x23 := (Ok (OInt (5))) in mk_offset x23) in Ok (VObj x22)) in let! x24 := (Ok VNone) in let! x25 := (let! x26 := (Ok (ODict [] [])) in Ok (VObj x26)) in Ok (mkMQ x1 x3 x5 x7 x12 x18 x21 x24 x25)) in mq_validate q) = true.
Proof. vm_compute. reflexivity. Qed.

(* test_metrics_mql_query.py, line 1186: test curried arbitrary function with inner arbitrary function *)
Example t195_test_metrics_mql_query : same_str (let! q := (let! x1 := (let! x2 := (Ok (OStr ($"((sum(transaction.duration{transaction:t1}) / sum(transaction.duration)){transaction:t2} + sum(transaction.duration){transaction:t3}) by transaction"))) in Ok (VObj x2)) in let! x3 := (let! x4 := (Ok (ODateTime (mkDT (mkDate 2023 1 2) 3 4 5 0 (Some 0)))) in Ok (VObj x4)) in let! x5 := (let! x6 := (Ok (ODateTime (mkDT (mkDate 2023 1 16) 3 4 5 0 (Some 0)))) in Ok (VObj x6)) in let! x7 := (let! t := (let! x8 := (Ok (OInt (3600))) in let! x9 := (Ok ONone) in let! x10 := (Ok ONone) in let! x11 := (Ok (OInt (3600))) in mk_rollup x8 x9 x10 x11) in Ok (VRollup t)) in let! x12 := (let! t := (let! x15 := (let! x13 := (Ok (OInt (1))) in Ok (OList [x13])) in let! x16 := (let! x14 := (Ok (OInt (11))) in Ok (OList [x14])) in let! x17 := (Ok (OStr ($"transactions"))) in mk_scope x15 x16 x17) in Ok (VScope t)) in let! x18 := (let! x19 := (let! x20 := (Ok (OInt (100))) in mk_limit x20) in Ok (VObj x19)) in let! x21 := (let! x22 := (let! x23 := (Ok (OInt (5))) in mk_offset x23) in Ok (VObj x22)) in let! x24 := (Ok VNone) in let! x25 := (let! x26 := (Ok (ODict [] [])) in Ok (VObj x26)) in Ok (mkMQ x1 x3 x5 x7 x12 x18 x21 x24 x25)) in let! r := snd (mq_serialize q) in Ok (fst r)) ($"((sum(transaction.duration){transaction:""t1""} / sum(transaction.duration)){transaction:""t2""} + sum(transaction.duration){transaction:""t3""}) by (transaction)") = true.
Proof. vm_compute. reflexivity. Qed.

(* test_metrics_mql_query.py, line 1186: test curried arbitrary function with inner arbitrary function *)
Example t196_test_metrics_mql_query : same_dict (let! q := (let! x1 := (let! x2 := (Ok (OStr ($"((sum(transaction.duration{transaction:t1}) / sum(transaction.duration)){transaction:t2} + sum(transaction.duration){transaction:t3}) by transaction"))) in Ok (VObj x2)) in let! x3 := (let! x4 := (Ok (ODateTime (mkDT (mkDate 2023 1 2) 3 4 5 0 (Some 0)))) in Ok (VObj x4)) in let! x5 := (let! x6 := (Ok (ODateTime (mkDT (mkDate 2023 1 16) 3 4 5 0 (Some 0)))) in Ok (VObj x6)) in let! x7 := (let! t := (let! x8 := (Ok (OInt (3600))) in let! x9 := (Ok ONone) in let! x10 := (Ok ONone) in let! x11 := (Ok (OInt (3600))) in mk_rollup x8 x9 x10 x11) in Ok (VRollup t)) in let! x12 := (let! t := (let! x15 := (let! x13 := (Ok (OInt (1))) in Ok (OList [x13])) in let! x16 := (let! x14 := (Ok (OInt (11))) in Ok (OList [x14])) in let! x17 := (Ok (OStr ($"transactions"))) in mk_scope x15 x16 x17) in Ok (VScope t)) in let! x18 := (let! x19 := (let! x20 := (Ok (OInt (100))) in mk_limit x20) in Ok (VObj x19)) in let! x21 := (let! x22 := (let! x23 := (Ok (OInt (5))) in mk_offset x23) in Ok (VObj x22)) in let! x24 := (Ok VNone) in let! x25 := (let! x26 := (Ok (ODict [] [])) in Ok (VObj x26)) in Ok (mkMQ x1 x3 x5 x7 x12 x18 x21 x24 x25)) in let! r := snd (mq_serialize q) in Ok (snd r)) (let! x27 := (Ok (OStr ($"2023-01-02T03:04:05+00:00"))) in let! x28 := (Ok (OStr ($"2023-01-16T03:04:05+00:00"))) in let! x29 := (let! x30 := (Ok ONone) in let! x31 := (Ok (OInt (3600))) in let! x32 := (Ok (OInt (3600))) in let! x33 := (Ok ONone) in Ok (ODict [($"orderby"); ($"granularity"); ($"interval"); ($"with_totals")] [x30; x31; x32; x33])) in let! x34 := (let! x35 := (let! x36 := (Ok (OInt (1))) in Ok (OList [x36])) in let! x37 := (let! x38 := (Ok (OInt (11))) in Ok (OList [x38])) in let! x39 := (Ok (OStr ($"transactions"))) in Ok (ODict [($"org_ids"); ($"project_ids"); ($"use_case_id")] [x35; x37; x39])) in let! x40 := (Ok (OInt (100))) in let! x41 := (Ok (OInt (5))) in let! x42 := (Ok ONone) in let! x43 := (Ok (ODict [] [])) in Ok (ODict [($"start"); ($"end"); ($"rollup"); ($"scope"); ($"limit"); ($"offset"); ($"extrapolate"); ($"indexer_mappings")] [x27; x28; x29; x34; x40; x41; x42; x43])) = true.
Proof. vm_compute. reflexivity. Qed.

(* test_metrics_mql_query.py, line 1186: test curried arbitrary function with inner arbitrary function *)
Example t197_test_metrics_mql_query : passes (parse_mql ($"((sum(transaction.duration){transaction:""t1""} / sum(transaction.duration)){transaction:""t2""} + sum(transaction.duration){transaction:""t3""}) by (transaction)")) = true.
Proof. vm_compute. reflexivity. Qed.

(* test_metrics_mql_query.py, line 1223: test_or_optimized *)
Example t198_test_metrics_mql_query : passes (let! q := (let! x1 := (let! x2 := (let! t := (let! x6 := (let! m := (let! x3 := (Ok (OStr ($"foo"))) in let! x4 := (Ok ONone) in let! x5 := (Ok ONone) in mk_metric x3 x4 x5) in Ok (VMetric m)) in let! x7 := (Ok (OStr ($"sum"))) in let! x8 := (Ok ONone) in let! x9 := (Ok ONone) in let! x10 := (Ok ONone) in mk_timeseries x6 x7 x8 x9 x10) in Ok (VTS t)) in let! x11 := (let! x12 := (Ok (OInt (1000))) in Ok (VObj x12)) in let! x13 := (Ok (OStr ($"divide"))) in let! x14 := (Ok ONone) in let! x15 := (let! x16 := (let! x35 := (Ok (OBoolOp OR)) in let! x36 := (let! x17 := (let! x20 := (let! x18 := (Ok (OStr ($"transaction"))) in let! x19 := (Ok ONone) in mk_column x18 x19) in let! x21 := (Ok (OOp EQ)) in let! x22 := (Ok (OStr ($"a"))) in mk_condition x20 x21 x22) in let! x23 := (let! x26 := (let! x24 := (Ok (OStr ($"transaction"))) in let! x25 := (Ok ONone) in mk_column x24 x25) in let! x27 := (Ok (OOp EQ)) in let! x28 := (Ok (OStr ($"b"))) in mk_condition x26 x27 x28) in let! x29 := (let! x32 := (let! x30 := (Ok (OStr ($"transaction"))) in let! x31 := (Ok ONone) in mk_column x30 x31) in let! x33 := (Ok (OOp EQ)) in let! x34 := (Ok (OStr ($"c"))) in mk_condition x32 x33 x34) in Ok (OList [x17; x23; x29])) in mk_boolean_condition x35 x36) in Ok (OList [x16])) in let! x37 := (Ok ONone) in Ok (VFormula x13 (Some KList) [x2; x11] x14 x15 x37)) in let! x38 := (let! x39 := (Ok (ODateTime (mkDT (mkDate 2023 1 2) 3 4 5 0 (Some 0)))) in Ok (VObj x39)) in let! x40 := (let! x41 := (Ok (ODateTime (mkDT (mkDate 2023 1 16) 3 4 5 0 (Some 0)))) in Ok (VObj x41)) in let! x42 := (let! t := (let! x43 := (Ok (OInt (3600))) in let! x44 := (Ok ONone) in let! x45 := (Ok ONone) in let! x46 := (Ok (OInt (3600))) in mk_rollup x43 x44 x45 x46) in Ok (VRollup t)) in let! x47 := (let! t := (let! x50 := (let! x48 := (Ok (OInt (1))) in Ok (OList [x48])) in let! x51 := (let! x49 := (Ok (OInt (11))) in Ok (OList [x49])) in let! x52 := (Ok (OStr ($"transactions"))) in mk_scope x50 x51 x52) in Ok (VScope t)) in let! x53 := (let! x54 := (let! x55 := (Ok (OInt (100))) in mk_limit x55) in Ok (VObj x54)) in let! x56 := (let! x57 := (let! x58 := (Ok (OInt (5))) in mk_offset x58) in Ok (VObj x57)) in let! x59 := (Ok VNone) in let! x60 := (let! x61 := (Ok (ODict [] [])) in Ok (VObj x61)) in Ok (mkMQ x1 x38 x40 x42 x47 x53 x56 x59 x60)) in mq_validate q) = true.
Proof. vm_compute. reflexivity. Qed.

(* test_metrics_mql_query.py, line 1223: test_or_optimized *)
Example t199_test_metrics_mql_query : same_str (let! q := (let! x1 := (let! x2 := (let! t := (let! x6 := (let! m := (let! x3 := (Ok (OStr ($"foo"))) in let! x4 := (Ok ONone) in let! x5 := (Ok ONone) in mk_metric x3 x4 x5) in Ok (VMetric m)) in let! x7 := (Ok (OStr ($"sum"))) in let! x8 := (Ok ONone) in let! x9 := (Ok ONone) in let! x10 := (Ok ONone) in mk_timeseries x6 x7 x8 x9 x10) in Ok (VTS t)) in let! x11 := (let! x12 := (Ok (OInt (1000))) in Ok (VObj x12)) in let! x13 := (Ok (OStr ($"divide"))) in let! x14 := (Ok ONone) in let! x15 := (let! x16 := (let! x35 := (Ok (OBoolOp OR)) in let! x36 := (let! x17 := (let! x20 := (let! x18 := (Ok (OStr ($"transaction"))) in let! x19 := (Ok ONone) in mk_column x18 x19) in let! x21 := (Ok (OOp EQ)) in let! x22 := (Ok (OStr ($"a"))) in mk_condition x20 x21 x22) in let! x23 := (let! x26 := (let! x24 := (Ok (OStr ($"transaction"))) in let! x25 := (Ok ONone) in mk_column x24 x25) in let! x27 := (Ok (OOp EQ)) in let! x28 := (Ok (OStr ($"b"))) in mk_condition x26 x27 x28) in let! x29 := (let! x32 := (let! x30 := (Ok (OStr ($"transaction"))) in let! x31 := (Ok ONone) in mk_column x30 x31) in let! x33 := (Ok (OOp EQ)) in let! x34 := (Ok (OStr ($"c"))) in mk_condition x32 x33 x34) in Ok (OList [x17; x23; x29])) in mk_boolean_condition x35 x36) in Ok (OList [x16])) in let! x37 := (Ok ONone) in Ok (VFormula x13 (Some KList) [x2; x11] x14 x15 x37)) in let! x38 := (let! x39 := (Ok (ODateTime (mkDT (mkDate 2023 1 2) 3 4 5 0 (Some 0)))) in Ok (VObj x39)) in let! x40 := (let! x41 := (Ok (ODateTime (mkDT (mkDate 2023 1 16) 3 4 5 0 (Some 0)))) in Ok (VObj x41)) in let! x42 := (let! t := (let! x43 := (Ok (OInt (3600))) in let! x44 := (Ok ONone) in let! x45 := (Ok ONone) in let! x46 := (Ok (OInt (3600))) in mk_rollup x43 x44 x45 x46) in Ok (VRollup t)) in let! x47 := (let! t := (let! x50 := (let! x48 := (Ok (OInt (1))) in Ok (OList [x48])) in let! x51 := (let! x49 := (Ok (OInt (11))) in Ok (OList [x49])) in let! x52 := (Ok (OStr ($"transactions"))) in mk_scope x50 x51 x52) in Ok (VScope t)) in let! x53 := (let! x54 := (let! x55 := (Ok (OInt (100))) in mk_limit x55) in Ok (VObj x54)) in let! x56 := (let! x57 := (let! x58 := (Ok (OInt (5))) in mk_offset x58) in Ok (VObj x57)) in let! x59 := (Ok VNone) in let! x60 := (let! x61 := (Ok (ODict [] [])) in Ok (VObj x61)) in Ok (mkMQ x1 x38 x40 x42 x47 x53 x56 x59 x60)) in let! r := snd (mq_serialize q) in Ok (fst r)) ($"(sum(foo) / 1000){transaction:[""a"", ""b"", ""c""]}") = true.
Proof. vm_compute. reflexivity. Qed.

(* test_metrics_mql_query.py, line 1223: test_or_optimized *)
Example t200_test_metrics_mql_query : same_dict (let! q := (let! x1 := (let! x2 := (let! t := (let! x6 := (let! m := (let! x3 := (Ok (OStr ($"foo"))) in let! x4 := (Ok ONone) in let! x5 := (Ok ONone) in mk_metric x3 x4 x5) in Ok (VMetric m)) in let! x7 := (Ok (OStr ($"sum"))) in let! x8 := (Ok ONone) in let! x9 := (Ok ONone) in let! x10 := (Ok ONone) in mk_timeseries x6 x7 x8 x9 x10) in Ok (VTS t)) in let! x11 := (let! x12 := (Ok (OInt (1000))) in Ok (VObj x12)) in let! x13 := (Ok (OStr ($"divide"))) in let! x14 := (Ok ONone) in let! x15 := (let! x16 := (let! x35 := (Ok (OBoolOp OR)) in let! x36 := (let! x17 := (let! x20 := (let! x18 := (Ok (OStr ($"transaction"))) in let! x19 := (Ok ONone) in mk_column x18 x19) in let! x21 := (Ok (OOp EQ)) in let! x22 := (Ok (OStr ($"a"))) in mk_condition x20 x21 x22) in let! x23 := (let! x26 := (let! x24 := (Ok (OStr ($"transaction"))) in let! x25 := (Ok ONone) in mk_column x24 x25) in let! x27 := (Ok (OOp EQ)) in let! x28 := (Ok (OStr ($"b"))) in mk_condition x26 x27 x28) in let! x29 := (let! x32 := (let! x30 := (Ok (OStr ($"transaction"))) in let! x31 := (Ok ONone) in mk_column x30 x31) in let! x33 := (Ok (OOp EQ)) in let! x34 := (Ok (OStr ($"c"))) in mk_condition x32 x33 x34) in Ok (OList [x17; x23; x29])) in mk_boolean_condition x35 x36) in Ok (OList [x16])) in let! x37 := (Ok ONone) in Ok (VFormula x13 (Some KList) [x2; x11] x14 x15 x37)) in let! x38 := (let! x39 := (Ok (ODateTime (mkDT (mkDate 2023 1 2) 3 4 5 0 (Some 0)))) in Ok (VObj x39)) in let! x40 := (let! x41 := (Ok (ODateTime (mkDT (mkDate 2023 1 16) 3 4 5 0 (Some 0)))) in Ok (VObj x41)) in let! x42 := (let! t := (let! x43 := (Ok (OInt (3600))) in let! x44 := (Ok ONone) in let! x45 := (Ok ONone) in let! x46 := (Ok (OInt (3600))) in mk_rollup x43 x44 x45 x46) in Ok (VRollup t)) in let! x47 := (let! t := (let! x50 := (let! x48 := (Ok (OInt (1))) in Ok (OList [x48])) in let! x51 := (let! x49 := (Ok (OInt (11))) in Ok (OList [x49])) in let! x52 := (Ok (OStr ($"transactions"))) in mk_scope x50 x51 x52) in Ok (VScope t)) in let! x53 := (let! x54 := (let! x55 := (Ok (OInt (100))) in mk_limit x55) in Ok (VObj x54)) in let! x56 := (let! x57 := (let! x58 := (Ok (OInt (5))) in mk_offset x58) in Ok (VObj x57)) in let! x59 := (Ok VNone) in let! x60 := (let! x61 := (Ok (ODict [] [])) in Ok (VObj x61)) in Ok (mkMQ x1 x38 x40 x42 x47 x53 x56 x59 x60)) in let! r := snd (mq_serialize q) in Ok (snd r)) (let! x62 := (Ok (OStr ($"2023-01-02T03:04:05+00:00"))) in let! x63 := (Ok (OStr ($"2023-01-16T03:04:05+00:00"))) in let! x64 := (let! x65 := (Ok ONone) in let! x66 := (Ok (OInt (3600))) in let! x67 := (Ok (OInt (3600))) in let! x68 := (Ok ONone) in Ok (ODict [($"orderby"); ($"granularity"); ($"interval"); ($"with_totals")] [x65; x66; x67; x68])) in let! x69 := (let! x70 := (let! x71 := (Ok (OInt (1))) in Ok (OList [x71])) in let! x72 := (let! x73 := (Ok (OInt (11))) in Ok (OList [x73])) in let! x74 := (Ok (OStr ($"transactions"))) in Ok (ODict [($"org_ids"); ($"project_ids"); ($"use_case_id")] [x70; x72; x74])) in let! x75 := (Ok (OInt (100))) in let! x76 := (Ok (OInt (5))) in let! x77 := (Ok ONone) in let! x78 := (Ok (ODict [] [])) in Ok (ODict [($"start"); ($"end"); ($"rollup"); ($"scope"); ($"limit"); ($"offset"); ($"extrapolate"); ($"indexer_mappings")] [x62; x63; x64; x69; x75; x76; x77; x78])) = true.
Proof. vm_compute. reflexivity. Qed.

(* test_metrics_mql_query.py, line 1223: test_or_optimized *)
Example t201_test_metrics_mql_query : passes (parse_mql ($"(sum(foo) / 1000){transaction:[""a"", ""b"", ""c""]}")) = true.
Proof. vm_compute. reflexivity. Qed.

(* test_metrics_mql_query.py, line 806: missing query *)
Example t202_test_metrics_mql_query : fails (let! q := (let! x1 := (let! x2 := (Ok ONone) in Ok (VObj x2)) in let! x3 := (let! x4 := (Ok (ODateTime (mkDT (mkDate 2023 1 2) 3 4 5 0 (Some 0)))) in Ok (VObj x4)) in let! x5 := (let! x6 := (Ok (ODateTime (mkDT (mkDate 2023 1 16) 3 4 5 0 (Some 0)))) in Ok (VObj x6)) in let! x7 := (let! t := (let! x8 := (Ok (OInt (3600))) in let! x9 := (Ok ONone) in let! x10 := (Ok ONone) in let! x11 := (Ok (OInt (3600))) in mk_rollup x8 x9 x10 x11) in Ok (VRollup t)) in let! x12 := (let! t := (let! x15 := (let! x13 := (Ok (OInt (1))) in Ok (OList [x13])) in let! x16 := (let! x14 := (Ok (OInt (11))) in Ok (OList [x14])) in let! x17 := (Ok (OStr ($"transactions"))) in mk_scope x15 x16 x17) in Ok (VScope t)) in let! x18 := (Ok VNone) in let! x19 := (Ok VNone) in let! x20 := (Ok VNone) in let! x21 := (Ok VNone) in Ok (mkMQ x1 x3 x5 x7 x12 x18 x19 x20 x21)) in mq_validate q) (fun e => match e with InvalidMetricsQueryError => true | _ => false end) = true.
Proof. vm_compute. reflexivity. Qed.

(* test_request.py, line 51: flags *)
Example t203_test_request : passes (let! r := (let! a := (Ok (OStr ($"events"))) in let! b := (Ok (OStr ($"default"))) in let! c := (let! q := (let! q := (let! q := (let! x1 := (let! o := (let! x2 := (Ok (OStr ($"events"))) in let! x3 := (Ok ONone) in let! x4 := (Ok ONone) in let! x5 := (Ok ONone) in mk_entity x2 x3 x4 x5) in Ok (MObj o)) in let! x6 := (Ok ONone) in let! x7 := (Ok ONone) in let! x8 := (Ok ONone) in let! x9 := (Ok ONone) in let! x10 := (Ok ONone) in let! x11 := (Ok ONone) in let! x12 := (Ok ONone) in let! x13 := (Ok ONone) in let! x14 := (Ok ONone) in let! x15 := (Ok ONone) in let! x16 := (Ok ONone) in mk_query x1 (mkClauses x6 x7 x8 x9 x10 x11 x12 x13 x14 x15 x16)) in let! v := (let! x17 := (let! x18 := (Ok (OStr ($"event_id"))) in let! x19 := (Ok ONone) in mk_column x18 x19) in let! x20 := (let! x21 := (Ok (OStr ($"title"))) in let! x22 := (Ok ONone) in mk_column x21 x22) in Ok (OList [x17; x20])) in set_clause CSelect q v) in let! v := (let! x23 := (let! x26 := (let! x24 := (Ok (OStr ($"timestamp"))) in let! x25 := (Ok ONone) in mk_column x24 x25) in let! x27 := (Ok (OOp GT)) in let! x28 := (Ok (ODateTime (mkDT (mkDate 2021 1 2) 3 4 5 6 (Some 0)))) in mk_condition x26 x27 x28) in Ok (OList [x23])) in set_clause CWhere q v) in Ok (RQuery q)) in let! p := (Ok (OStr ($"s/g"))) in let! t := (let! x29 := (Ok (OInt (1))) in let! x30 := (Ok (OStr ($"default"))) in Ok (ODict [($"organization_id"); ($"referrer")] [x29; x30])) in let! x31 := (Ok ONone) in let! x32 := (Ok (OBool true)) in let! x33 := (Ok (OBool true)) in let! x34 := (Ok (OBool true)) in let! x35 := (Ok (OBool true)) in let! x36 := (Ok (OBool true)) in Ok (mkRequest a b c (RFlags (mkFlags x31 x32 x33 x34 x35 x36)) p t)) in request_validate r) = true.
Proof. vm_compute. reflexivity. Qed.

(* test_request.py, line 51: flags *)
Example t204_test_request : same_dict (let! r := (let! a := (Ok (OStr ($"events"))) in let! b := (Ok (OStr ($"default"))) in let! c := (let! q := (let! q := (let! q := (let! x1 := (let! o := (let! x2 := (Ok (OStr ($"events"))) in let! x3 := (Ok ONone) in let! x4 := (Ok ONone) in let! x5 := (Ok ONone) in mk_entity x2 x3 x4 x5) in Ok (MObj o)) in let! x6 := (Ok ONone) in let! x7 := (Ok ONone) in let! x8 := (Ok ONone) in let! x9 := (Ok ONone) in let! x10 := (Ok ONone) in let! x11 := (Ok ONone) in let! x12 := (Ok ONone) in let! x13 := (Ok ONone) in let! x14 := (Ok ONone) in let! x15 := (Ok ONone) in let! x16 := (Ok ONone) in mk_query x1 (mkClauses x6 x7 x8 x9 x10 x11 x12 x13 x14 x15 x16)) in let! v := (let! x17 := (let! x18 := (Ok (OStr ($"event_id"))) in let! x19 := (Ok ONone) in mk_column x18 x19) in let! x20 := (let! x21 := (Ok (OStr ($"title"))) in let! x22 := (Ok ONone) in mk_column x21 x22) in Ok (OList [x17; x20])) in set_clause CSelect q v) in let! v := (let! x23 := (let! x26 := (let! x24 := (Ok (OStr ($"timestamp"))) in let! x25 := (Ok ONone) in mk_column x24 x25) in let! x27 := (Ok (OOp GT)) in let! x28 := (Ok (ODateTime (mkDT (mkDate 2021 1 2) 3 4 5 6 (Some 0)))) in mk_condition x26 x27 x28) in Ok (OList [x23])) in set_clause CWhere q v) in Ok (RQuery q)) in let! p := (Ok (OStr ($"s/g"))) in let! t := (let! x29 := (Ok (OInt (1))) in let! x30 := (Ok (OStr ($"default"))) in Ok (ODict [($"organization_id"); ($"referrer")] [x29; x30])) in let! x31 := (Ok ONone) in let! x32 := (Ok (OBool true)) in let! x33 := (Ok (OBool true)) in let! x34 := (Ok (OBool true)) in let! x35 := (Ok (OBool true)) in let! x36 := (Ok (OBool true)) in Ok (mkRequest a b c (RFlags (mkFlags x31 x32 x33 x34 x35 x36)) p t)) in snd (request_to_dict r)) (let! x37 := (Ok (OStr ($"MATCH (events) SELECT event_id, title WHERE timestamp > toDateTime('2021-01-02T03:04:05.000006')"))) in let! x38 := (Ok (OBool true)) in let! x39 := (Ok (OBool true)) in let! x40 := (Ok (OBool true)) in let! x41 := (Ok (OBool true)) in let! x42 := (Ok (OStr ($"events"))) in let! x43 := (Ok (OStr ($"default"))) in let! x44 := (let! x45 := (Ok (OInt (1))) in let! x46 := (Ok (OStr ($"default"))) in Ok (ODict [($"organization_id"); ($"referrer")] [x45; x46])) in let! x47 := (Ok (OStr ($"s/g"))) in let! x48 := (Ok (OBool true)) in Ok (ODict [($"query"); ($"consistent"); ($"turbo"); ($"debug"); ($"dry_run"); ($"dataset"); ($"app_id"); ($"tenant_ids"); ($"parent_api"); ($"legacy")] [x37; x38; x39; x40; x41; x42; x43; x44; x47; x48])) = true.
Proof. vm_compute. reflexivity. Qed.

(* test_request.py, line 51: flags *)
Example t205_test_request : same_str (let! r := (let! a := (Ok (OStr ($"events"))) in let! b := (Ok (OStr ($"default"))) in let! c := (let! q := (let! q := (let! q := (let! x1 := (let! o := (let! x2 := (Ok (OStr ($"events"))) in let! x3 := (Ok ONone) in let! x4 := (Ok ONone) in let! x5 := (Ok ONone) in mk_entity x2 x3 x4 x5) in Ok (MObj o)) in let! x6 := (Ok ONone) in let! x7 := (Ok ONone) in let! x8 := (Ok ONone) in let! x9 := (Ok ONone) in let! x10 := (Ok ONone) in let! x11 := (Ok ONone) in let! x12 := (Ok ONone) in let! x13 := (Ok ONone) in let! x14 := (Ok ONone) in let! x15 := (Ok ONone) in let! x16 := (Ok ONone) in mk_query x1 (mkClauses x6 x7 x8 x9 x10 x11 x12 x13 x14 x15 x16)) in let! v := (let! x17 := (let! x18 := (Ok (OStr ($"event_id"))) in let! x19 := (Ok ONone) in mk_column x18 x19) in let! x20 := (let! x21 := (Ok (OStr ($"title"))) in let! x22 := (Ok ONone) in mk_column x21 x22) in Ok (OList [x17; x20])) in set_clause CSelect q v) in let! v := (let! x23 := (let! x26 := (let! x24 := (Ok (OStr ($"timestamp"))) in let! x25 := (Ok ONone) in mk_column x24 x25) in let! x27 := (Ok (OOp GT)) in let! x28 := (Ok (ODateTime (mkDT (mkDate 2021 1 2) 3 4 5 6 (Some 0)))) in mk_condition x26 x27 x28) in Ok (OList [x23])) in set_clause CWhere q v) in Ok (RQuery q)) in let! p := (Ok (OStr ($"s/g"))) in let! t := (let! x29 := (Ok (OInt (1))) in let! x30 := (Ok (OStr ($"default"))) in Ok (ODict [($"organization_id"); ($"referrer")] [x29; x30])) in let! x31 := (Ok ONone) in let! x32 := (Ok (OBool true)) in let! x33 := (Ok (OBool true)) in let! x34 := (Ok (OBool true)) in let! x35 := (Ok (OBool true)) in let! x36 := (Ok (OBool true)) in Ok (mkRequest a b c (RFlags (mkFlags x31 x32 x33 x34 x35 x36)) p t)) in snd (request_print r)) [123; 10; 32; 32; 32; 32; 34; 97; 112; 112; 95; 105; 100; 34; 58; 32; 34; 100; 101; 102; 97; 117; 108; 116; 34; 44; 10; 32; 32; 32; 32; 34; 99; 111; 110; 115; 105; 115; 116; 101; 110; 116; 34; 58; 32; 116; 114; 117; 101; 44; 10; 32; 32; 32; 32; 34; 100; 97; 116; 97; 115; 101; 116; 34; 58; 32; 34; 101; 118; 101; 110; 116; 115; 34; 44; 10; 32; 32; 32; 32; 34; 100; 101; 98; 117; 103; 34; 58; 32; 116; 114; 117; 101; 44; 10; 32; 32; 32; 32; 34; 100; 114; 121; 95; 114; 117; 110; 34; 58; 32; 116; 114; 117; 101; 44; 10; 32; 32; 32; 32; 34; 108; 101; 103; 97; 99; 121; 34; 58; 32; 116; 114; 117; 101; 44; 10; 32; 32; 32; 32; 34; 112; 97; 114; 101; 110; 116; 95; 97; 112; 105; 34; 58; 32; 34; 115; 47; 103; 34; 44; 10; 32; 32; 32; 32; 34; 113; 117; 101; 114; 121; 34; 58; 32; 34; 77; 65; 84; 67; 72; 32; 40; 101; 118; 101; 110; 116; 115; 41; 32; 83; 69; 76; 69; 67; 84; 32; 101; 118; 101; 110; 116; 95; 105; 100; 44; 32; 116; 105; 116; 108; 101; 32; 87; 72; 69; 82; 69; 32; 116; 105; 109; 101; 115; 116; 97; 109; 112; 32; 62; 32; 116; 111; 68; 97; 116; 101; 84; 105; 109; 101; 40; 39; 50; 48; 50; 49; 45; 48; 49; 45; 48; 50; 84; 48; 51; 58; 48; 52; 58; 48; 53; 46; 48; 48; 48; 48; 48; 54; 39; 41; 34; 44; 10; 32; 32; 32; 32; 34; 116; 101; 110; 97; 110; 116; 95; 105; 100; 115; 34; 58; 32; 123; 10; 32; 32; 32; 32; 32; 32; 32; 32; 34; 111; 114; 103; 97; 110; 105; 122; 97; 116; 105; 111; 110; 95; 105; 100; 34; 58; 32; 49; 44; 10; 32; 32; 32; 32; 32; 32; 32; 32; 34; 114; 101; 102; 101; 114; 114; 101; 114; 34; 58; 32; 34; 100; 101; 102; 97; 117; 108; 116; 34; 10; 32; 32; 32; 32; 125; 44; 10; 32; 32; 32; 32; 34; 116; 117; 114; 98; 111; 34; 58; 32; 116; 114; 117; 101; 10; 125]%N = true.
Proof. vm_compute. reflexivity. Qed.

(* test_request.py, line 73: flags *)
Example t206_test_request : passes (let! r := (let! a := (Ok (OStr ($"events"))) in let! b := (Ok (OStr ($"default"))) in let! c := (let! q := (let! q := (let! q := (let! x1 := (let! o := (let! x2 := (Ok (OStr ($"events"))) in let! x3 := (Ok ONone) in let! x4 := (Ok ONone) in mk_storage x2 x3 x4) in Ok (MObj o)) in let! x5 := (Ok ONone) in let! x6 := (Ok ONone) in let! x7 := (Ok ONone) in let! x8 := (Ok ONone) in let! x9 := (Ok ONone) in let! x10 := (Ok ONone) in let! x11 := (Ok ONone) in let! x12 := (Ok ONone) in let! x13 := (Ok ONone) in let! x14 := (Ok ONone) in let! x15 := (Ok ONone) in mk_query x1 (mkClauses x5 x6 x7 x8 x9 x10 x11 x12 x13 x14 x15)) in let! v := (let! x16 := (let! x17 := (Ok (OStr ($"event_id"))) in let! x18 := (Ok ONone) in mk_column x17 x18) in let! x19 := (let! x20 := (Ok (OStr ($"title"))) in let! x21 := (Ok ONone) in mk_column x20 x21) in Ok (OList [x16; x19])) in set_clause CSelect q v) in let! v := (let! x22 := (let! x25 := (let! x23 := (Ok (OStr ($"timestamp"))) in let! x24 := (Ok ONone) in mk_column x23 x24) in let! x26 := (Ok (OOp GT)) in let! x27 := (Ok (ODateTime (mkDT (mkDate 2021 1 2) 3 4 5 6 (Some 0)))) in mk_condition x25 x26 x27) in Ok (OList [x22])) in set_clause CWhere q v) in Ok (RQuery q)) in let! p := (Ok (OStr ($"s/g"))) in let! t := (let! x28 := (Ok (OInt (1))) in let! x29 := (Ok (OStr ($"default"))) in Ok (ODict [($"organization_id"); ($"referrer")] [x28; x29])) in let! x30 := (Ok ONone) in let! x31 := (Ok (OBool true)) in let! x32 := (Ok (OBool true)) in let! x33 := (Ok (OBool true)) in let! x34 := (Ok (OBool true)) in let! x35 := (Ok (OBool true)) in Ok (mkRequest a b c (RFlags (mkFlags x30 x31 x32 x33 x34 x35)) p t)) in request_validate r) = true.
Proof. vm_compute. reflexivity. Qed.

(* test_request.py, line 73: flags *)
Example t207_test_request : same_dict (let! r := (let! a := (Ok (OStr ($"events"))) in let! b := (Ok (OStr ($"default"))) in let! c := (let! q := (let! q := (let! q := (let! x1 := (let! o := (let! x2 := (Ok (OStr ($"events"))) in let! x3 := (Ok ONone) in let! x4 := (Ok ONone) in mk_storage x2 x3 x4) in Ok (MObj o)) in let! x5 := (Ok ONone) in let! x6 := (Ok ONone) in let! x7 := (Ok ONone) in let! x8 := (Ok ONone) in let! x9 := (Ok ONone) in let! x10 := (Ok ONone) in let! x11 := (Ok ONone) in let! x12 := (Ok ONone) in let! x13 := (Ok ONone) in let! x14 := (Ok ONone) in let! x15 := (Ok ONone) in mk_query x1 (mkClauses x5 x6 x7 x8 x9 x10 x11 x12 x13 x14 x15)) in let! v := (let! x16 := (let! x17 := (Ok (OStr ($"event_id"))) in let! x18 := (Ok ONone) in mk_column x17 x18) in let! x19 := (let! x20 := (Ok (OStr ($"title"))) in let! x21 := (Ok ONone) in mk_column x20 x21) in Ok (OList [x16; x19])) in set_clause CSelect q v) in let! v := (let! x22 := (let! x25 := (let! x23 := (Ok (OStr ($"timestamp"))) in let! x24 := (Ok ONone) in mk_column x23 x24) in let! x26 := (Ok (OOp GT)) in let! x27 := (Ok (ODateTime (mkDT (mkDate 2021 1 2) 3 4 5 6 (Some 0)))) in mk_condition x25 x26 x27) in Ok (OList [x22])) in set_clause CWhere q v) in Ok (RQuery q)) in let! p := (Ok (OStr ($"s/g"))) in let! t := (let! x28 := (Ok (OInt (1))) in let! x29 := (Ok (OStr ($"default"))) in Ok (ODict [($"organization_id"); ($"referrer")] [x28; x29])) in let! x30 := (Ok ONone) in let! x31 := (Ok (OBool true)) in let! x32 := (Ok (OBool true)) in let! x33 := (Ok (OBool true)) in let! x34 := (Ok (OBool true)) in let! x35 := (Ok (OBool true)) in Ok (mkRequest a b c (RFlags (mkFlags x30 x31 x32 x33 x34 x35)) p t)) in snd (request_to_dict r)) (let! x36 := (Ok (OStr ($"MATCH STORAGE(events) SELECT event_id, title WHERE timestamp > toDateTime('2021-01-02T03:04:05.000006')"))) in let! x37 := (Ok (OBool true)) in let! x38 := (Ok (OBool true)) in let! x39 := (Ok (OBool true)) in let! x40 := (Ok (OBool true)) in let! x41 := (Ok (OStr ($"events"))) in let! x42 := (Ok (OStr ($"default"))) in let! x43 := (let! x44 := (Ok (OInt (1))) in let! x45 := (Ok (OStr ($"default"))) in Ok (ODict [($"organization_id"); ($"referrer")] [x44; x45])) in let! x46 := (Ok (OStr ($"s/g"))) in let! x47 := (Ok (OBool true)) in Ok (ODict [($"query"); ($"consistent"); ($"turbo"); ($"debug"); ($"dry_run"); ($"dataset"); ($"app_id"); ($"tenant_ids"); ($"parent_api"); ($"legacy")] [x36; x37; x38; x39; x40; x41; x42; x43; x46; x47])) = true.
Proof. vm_compute. reflexivity. Qed.

(* test_request.py, line 73: flags *)
Example t208_test_request : same_str (let! r := (let! a := (Ok (OStr ($"events"))) in let! b := (Ok (OStr ($"default"))) in let! c := (let! q := (let! q := (let! q := (let! x1 := (let! o := (let! x2 := (Ok (OStr ($"events"))) in let! x3 := (Ok ONone) in let! x4 := (Ok ONone) in mk_storage x2 x3 x4) in Ok (MObj o)) in let! x5 := (Ok ONone) in let! x6 := (Ok ONone) in let! x7 := (Ok ONone) in let! x8 := (Ok ONone) in let! x9 := (Ok ONone) in let! x10 := (Ok ONone) in let! x11 := (Ok ONone) in let! x12 := (Ok ONone) in let! x13 := (Ok ONone) in let! x14 := (Ok ONone) in let! x15 := (Ok ONone) in mk_query x1 (mkClauses x5 x6 x7 x8 x9 x10 x11 x12 x13 x14 x15)) in let! v := (let! x16 := (let! x17 := (Ok (OStr ($"event_id"))) in let! x18 := (Ok ONone) in mk_column x17 x18) in let! x19 := (let! x20 := (Ok (OStr ($"title"))) in let! x21 := (Ok ONone) in mk_column x20 x21) in Ok (OList [x16; x19])) in set_clause CSelect q v) in let! v := (let! x22 := (let! x25 := (let! x23 := (Ok (OStr ($"timestamp"))) in let! x24 := (Ok ONone) in mk_column x23 x24) in let! x26 := (Ok (OOp GT)) in let! x27 := (Ok (ODateTime (mkDT (mkDate 2021 1 2) 3 4 5 6 (Some 0)))) in mk_condition x25 x26 x27) in Ok (OList [x22])) in set_clause CWhere q v) in Ok (RQuery q)) in let! p := (Ok (OStr ($"s/g"))) in let! t := (let! x28 := (Ok (OInt (1))) in let! x29 := (Ok (OStr ($"default"))) in Ok (ODict [($"organization_id"); ($"referrer")] [x28; x29])) in let! x30 := (Ok ONone) in let! x31 := (Ok (OBool true)) in let! x32 := (Ok (OBool true)) in let! x33 := (Ok (OBool true)) in let! x34 := (Ok (OBool true)) in let! x35 := (Ok (OBool true)) in Ok (mkRequest a b c (RFlags (mkFlags x30 x31 x32 x33 x34 x35)) p t)) in snd (request_print r)) [123; 10; 32; 32; 32; 32; 34; 97; 112; 112; 95; 105; 100; 34; 58; 32; 34; 100; 101; 102; 97; 117; 108; 116; 34; 44; 10; 32; 32; 32; 32; 34; 99; 111; 110; 115; 105; 115; 116; 101; 110; 116; 34; 58; 32; 116; 114; 117; 101; 44; 10; 32; 32; 32; 32; 34; 100; 97; 116; 97; 115; 101; 116; 34; 58; 32; 34; 101; 118; 101; 110; 116; 115; 34; 44; 10; 32; 32; 32; 32; 34; 100; 101; 98; 117; 103; 34; 58; 32; 116; 114; 117; 101; 44; 10; 32; 32; 32; 32; 34; 100; 114; 121; 95; 114; 117; 110; 34; 58; 32; 116; 114; 117; 101; 44; 10; 32; 32; 32; 32; 34; 108; 101; 103; 97; 99; 121; 34; 58; 32; 116; 114; 117; 101; 44; 10; 32; 32; 32; 32; 34; 112; 97; 114; 101; 110; 116; 95; 97; 112; 105; 34; 58; 32; 34; 115; 47; 103; 34; 44; 10; 32; 32; 32; 32; 34; 113; 117; 101; 114; 121; 34; 58; 32; 34; 77; 65; 84; 67; 72; 32; 83; 84; 79; 82; 65; 71; 69; 40; 101; 118; 101; 110; 116; 115; 41; 32; 83; 69; 76; 69; 67; 84; 32; 101; 118; 101; 110; 116; 95; 105; 100; 44; 32; 116; 105; 116; 108; 101; 32; 87; 72; 69; 82; 69; 32; 116; 105; 109; 101; 115; 116; 97; 109; 112; 32; 62; 32; 116; 111; 68; 97; 116; 101; 84; 105; 109; 101; 40; 39; 50; 48; 50; 49; 45; 48; 49; 45; 48; 50; 84; 48; 51; 58; 48; 52; 58; 48; 53; 46; 48; 48; 48; 48; 48; 54; 39; 41; 34; 44; 10; 32; 32; 32; 32; 34; 116; 101; 110; 97; 110; 116; 95; 105; 100; 115; 34; 58; 32; 123; 10; 32; 32; 32; 32; 32; 32; 32; 32; 34; 111; 114; 103; 97; 110; 105; 122; 97; 116; 105; 111; 110; 95; 105; 100; 34; 58; 32; 49; 44; 10; 32; 32; 32; 32; 32; 32; 32; 32; 34; 114; 101; 102; 101; 114; 114; 101; 114; 34; 58; 32; 34; 100; 101; 102; 97; 117; 108; 116; 34; 10; 32; 32; 32; 32; 125; 44; 10; 32; 32; 32; 32; 34; 116; 117; 114; 98; 111; 34; 58; 32; 116; 114; 117; 101; 10; 125]%N = true.
Proof. vm_compute. reflexivity. Qed.

(* test_request.py, line 95: flags *)
Example t209_test_request : passes (let! r := (let! a := (Ok (OStr ($"events"))) in let! b := (Ok (OStr ($"default"))) in let! c := (let! q := (let! x1 := (let! t := (let! x14 := (let! m := (let! x2 := (Ok ONone) in let! x3 := (Ok (OStr ($"d:transactions/duration@millisecond"))) in let! x4 := (Ok (OInt (11235813))) in mk_metric x2 x3 x4) in Ok (VMetric m)) in let! x15 := (Ok (OStr ($"max"))) in let! x16 := (Ok ONone) in let! x17 := (let! x5 := (let! x8 := (let! x6 := (Ok (OStr ($"bar"))) in let! x7 := (Ok ONone) in mk_column x6 x7) in let! x9 := (Ok (OOp EQ)) in let! x10 := (Ok (OStr ($"baz"))) in mk_condition x8 x9 x10) in Ok (OList [x5])) in let! x18 := (let! x11 := (let! x12 := (Ok (OStr ($"transaction"))) in let! x13 := (Ok ONone) in mk_column x12 x13) in Ok (OList [x11])) in mk_timeseries x14 x15 x16 x17 x18) in Ok (VTS t)) in let! x19 := (let! x20 := (Ok (ODateTime (mkDT (mkDate 2021 1 2) 3 4 5 6 (Some 0)))) in Ok (VObj x20)) in let! x21 := (let! x22 := (Ok (ODateTime (mkDT (mkDate 2021 1 16) 3 4 5 6 (Some 0)))) in Ok (VObj x22)) in let! x23 := (let! t := (let! x24 := (Ok (OInt (3600))) in let! x25 := (Ok ONone) in let! x26 := (Ok ONone) in let! x27 := (Ok (OInt (3600))) in mk_rollup x24 x25 x26 x27) in Ok (VRollup t)) in let! x28 := (let! t := (let! x31 := (let! x29 := (Ok (OInt (1))) in Ok (OList [x29])) in let! x32 := (let! x30 := (Ok (OInt (11))) in Ok (OList [x30])) in let! x33 := (Ok (OStr ($"transactions"))) in mk_scope x31 x32 x33) in Ok (VScope t)) in let! x34 := (Ok VNone) in let! x35 := (Ok VNone) in let! x36 := (Ok VNone) in let! x37 := (let! x38 := (Ok (ODict [] [])) in Ok (VObj x38)) in Ok (mkMQ x1 x19 x21 x23 x28 x34 x35 x36 x37)) in Ok (RMetrics q)) in let! p := (Ok (OStr ($"s/g"))) in let! t := (let! x39 := (Ok (OInt (1))) in let! x40 := (Ok (OStr ($"default"))) in Ok (ODict [($"organization_id"); ($"referrer")] [x39; x40])) in let! x41 := (Ok ONone) in let! x42 := (Ok (OBool true)) in let! x43 := (Ok (OBool true)) in let! x44 := (Ok (OBool true)) in let! x45 := (Ok (OBool true)) in let! x46 := (Ok (OBool true)) in Ok (mkRequest a b c (RFlags (mkFlags x41 x42 x43 x44 x45 x46)) p t)) in request_validate r) = true.
Proof. vm_compute. reflexivity. Qed.

(* test_request.py, line 95: flags *)
Example t210_test_request : same_dict (let! r := (let! a := (Ok (OStr ($"events"))) in let! b := (Ok (OStr ($"default"))) in let! c := (let! q := (let! x1 := (let! t := (let! x14 := (let! m := (let! x2 := (Ok ONone) in let! x3 := (Ok (OStr ($"d:transactions/duration@millisecond"))) in let! x4 := (Ok (OInt (11235813))) in mk_metric x2 x3 x4) in Ok (VMetric m)) in let! x15 := (Ok (OStr ($"max"))) in let! x16 := (Ok ONone) in let! x17 := (let! x5 := (let! x8 := (let! x6 := (Ok (OStr ($"bar"))) in let! x7 := (Ok ONone) in mk_column x6 x7) in let! x9 := (Ok (OOp EQ)) in let! x10 := (Ok (OStr ($"baz"))) in mk_condition x8 x9 x10) in Ok (OList [x5])) in let! x18 := (let! x11 := (let! x12 := (Ok (OStr ($"transaction"))) in let! x13 := (Ok ONone) in mk_column x12 x13) in Ok (OList [x11])) in mk_timeseries x14 x15 x16 x17 x18) in Ok (VTS t)) in let! x19 := (let! x20 := (Ok (ODateTime (mkDT (mkDate 2021 1 2) 3 4 5 6 (Some 0)))) in Ok (VObj x20)) in let! x21 := (let! x22 := (Ok (ODateTime (mkDT (mkDate 2021 1 16) 3 4 5 6 (Some 0)))) in Ok (VObj x22)) in let! x23 := (let! t := (let! x24 := (Ok (OInt (3600))) in let! x25 := (Ok ONone) in let! x26 := (Ok ONone) in let! x27 := (Ok (OInt (3600))) in mk_rollup x24 x25 x26 x27) in Ok (VRollup t)) in let! x28 := (let! t := (let! x31 := (let! x29 := (Ok (OInt (1))) in Ok (OList [x29])) in let! x32 := (let! x30 := (Ok (OInt (11))) in Ok (OList [x30])) in let! x33 := (Ok (OStr ($"transactions"))) in mk_scope x31 x32 x33) in Ok (VScope t)) in let! x34 := (Ok VNone) in let! x35 := (Ok VNone) in let! x36 := (Ok VNone) in let! x37 := (let! x38 := (Ok (ODict [] [])) in Ok (VObj x38)) in Ok (mkMQ x1 x19 x21 x23 x28 x34 x35 x36 x37)) in Ok (RMetrics q)) in let! p := (Ok (OStr ($"s/g"))) in let! t := (let! x39 := (Ok (OInt (1))) in let! x40 := (Ok (OStr ($"default"))) in Ok (ODict [($"organization_id"); ($"referrer")] [x39; x40])) in let! x41 := (Ok ONone) in let! x42 := (Ok (OBool true)) in let! x43 := (Ok (OBool true)) in let! x44 := (Ok (OBool true)) in let! x45 := (Ok (OBool true)) in let! x46 := (Ok (OBool true)) in Ok (mkRequest a b c (RFlags (mkFlags x41 x42 x43 x44 x45 x46)) p t)) in snd (request_to_dict r)) (let! x47 := (Ok (OStr ($"max(d:transactions/duration@millisecond){bar:""baz""} by (transaction)"))) in let! x48 := (let! x49 := (Ok (OStr ($"2021-01-02T03:04:05.000006+00:00"))) in let! x50 := (Ok (OStr ($"2021-01-16T03:04:05.000006+00:00"))) in let! x51 := (Ok (ODict [] [])) in let! x52 := (Ok ONone) in let! x53 := (Ok ONone) in let! x54 := (Ok ONone) in let! x55 := (let! x56 := (Ok (OInt (3600))) in let! x57 := (Ok (OInt (3600))) in let! x58 := (Ok ONone) in let! x59 := (Ok ONone) in Ok (ODict [($"granularity"); ($"interval"); ($"orderby"); ($"with_totals")] [x56; x57; x58; x59])) in let! x60 := (let! x61 := (let! x62 := (Ok (OInt (1))) in Ok (OList [x62])) in let! x63 := (let! x64 := (Ok (OInt (11))) in Ok (OList [x64])) in let! x65 := (Ok (OStr ($"transactions"))) in Ok (ODict [($"org_ids"); ($"project_ids"); ($"use_case_id")] [x61; x63; x65])) in Ok (ODict [($"start"); ($"end"); ($"indexer_mappings"); ($"limit"); ($"offset"); ($"extrapolate"); ($"rollup"); ($"scope")] [x49; x50; x51; x52; x53; x54; x55; x60])) in let! x66 := (Ok (OBool true)) in let! x67 := (Ok (OBool true)) in let! x68 := (Ok (OBool true)) in let! x69 := (Ok (OBool true)) in let! x70 := (Ok (OStr ($"events"))) in let! x71 := (Ok (OStr ($"default"))) in let! x72 := (let! x73 := (Ok (OInt (1))) in let! x74 := (Ok (OStr ($"default"))) in Ok (ODict [($"organization_id"); ($"referrer")] [x73; x74])) in let! x75 := (Ok (OStr ($"s/g"))) in let! x76 := (Ok (OBool true)) in Ok (ODict [($"query"); ($"mql_context"); ($"consistent"); ($"turbo"); ($"debug"); ($"dry_run"); ($"dataset"); ($"app_id"); ($"tenant_ids"); ($"parent_api"); ($"legacy")] [x47; x48; x66; x67; x68; x69; x70; x71; x72; x75; x76])) = true.
Proof. vm_compute. reflexivity. Qed.

(* test_request.py, line 95: flags *)
Example t211_test_request : same_str (let! r := (let! a := (Ok (OStr ($"events"))) in let! b := (Ok (OStr ($"default"))) in let! c := (let! q := (let! x1 := (let! t := (let! x14 := (let! m := (let! x2 := (Ok ONone) in let! x3 := (Ok (OStr ($"d:transactions/duration@millisecond"))) in let! x4 := (Ok (OInt (11235813))) in mk_metric x2 x3 x4) in Ok (VMetric m)) in let! x15 := (Ok (OStr ($"max"))) in let! x16 := (Ok ONone) in let! x17 := (let! x5 := (let! x8 := (let! x6 := (Ok (OStr ($"bar"))) in let! x7 := (Ok ONone) in mk_column x6 x7) in let! x9 := (Ok (OOp EQ)) in let! x10 := (Ok (OStr ($"baz"))) in mk_condition x8 x9 x10) in Ok (OList [x5])) in let! x18 := (let! x11 := (let! x12 := (Ok (OStr ($"transaction"))) in let! x13 := (Ok ONone) in mk_column x12 x13) in Ok (OList [x11])) in mk_timeseries x14 x15 x16 x17 x18) in Ok (VTS t)) in let! x19 := (let! x20 := (Ok (ODateTime (mkDT (mkDate 2021 1 2) 3 4 5 6 (Some 0)))) in Ok (VObj x20)) in let! x21 := (let! x22 := (Ok (ODateTime (mkDT (mkDate 2021 1 16) 3 4 5 6 (Some 0)))) in Ok (VObj x22)) in let! x23 := (let! t := (let! x24 := (Ok (OInt (3600))) in let! x25 := (Ok ONone) in let! x26 := (Ok ONone) in let! x27 := (Ok (OInt (3600))) in mk_rollup x24 x25 x26 x27) in Ok (VRollup t)) in let! x28 := (let! t := (let! x31 := (let! x29 := (Ok (OInt (1))) in Ok (OList [x29])) in let! x32 := (let! x30 := (Ok (OInt (11))) in Ok (OList [x30])) in let! x33 := (Ok (OStr ($"transactions"))) in mk_scope x31 x32 x33) in Ok (VScope t)) in let! x34 := (Ok VNone) in let! x35 := (Ok VNone) in let! x36 := (Ok VNone) in let! x37 := (let! x38 := (Ok (ODict [] [])) in Ok (VObj x38)) in Ok (mkMQ x1 x19 x21 x23 x28 x34 x35 x36 x37)) in Ok (RMetrics q)) in let! p := (Ok (OStr ($"s/g"))) in let! t := (let! x39 := (Ok (OInt (1))) in let! x40 := (Ok (OStr ($"default"))) in Ok (ODict [($"organization_id"); ($"referrer")] [x39; x40])) in let! x41 := (Ok ONone) in let! x42 := (Ok (OBool true)) in let! x43 := (Ok (OBool true)) in let! x44 := (Ok (OBool true)) in let! x45 := (Ok (OBool true)) in let! x46 := (Ok (OBool true)) in Ok (mkRequest a b c (RFlags (mkFlags x41 x42 x43 x44 x45 x46)) p t)) in snd (request_print r)) [123; 10; 32; 32; 32; 32; 34; 97; 112; 112; 95; 105; 100; 34; 58; 32; 34; 100; 101; 102; 97; 117; 108; 116; 34; 44; 10; 32; 32; 32; 32; 34; 99; 111; 110; 115; 105; 115; 116; 101; 110; 116; 34; 58; 32; 116; 114; 117; 101; 44; 10; 32; 32; 32; 32; 34; 100; 97; 116; 97; 115; 101; 116; 34; 58; 32; 34; 101; 118; 101; 110; 116; 115; 34; 44; 10; 32; 32; 32; 32; 34; 100; 101; 98; 117; 103; 34; 58; 32; 116; 114; 117; 101; 44; 10; 32; 32; 32; 32; 34; 100; 114; 121; 95; 114; 117; 110; 34; 58; 32; 116; 114; 117; 101; 44; 10; 32; 32; 32; 32; 34; 108; 101; 103; 97; 99; 121; 34; 58; 32; 116; 114; 117; 101; 44; 10; 32; 32; 32; 32; 34; 109; 113; 108; 95; 99; 111; 110; 116; 101; 120; 116; 34; 58; 32; 123; 10; 32; 32; 32; 32; 32; 32; 32; 32; 34; 101; 110; 100; 34; 58; 32; 34; 50; 48; 50; 49; 45; 48; 49; 45; 49; 54; 84; 48; 51; 58; 48; 52; 58; 48; 53; 46; 48; 48; 48; 48; 48; 54; 43; 48; 48; 58; 48; 48; 34; 44; 10; 32; 32; 32; 32; 32; 32; 32; 32; 34; 101; 120; 116; 114; 97; 112; 111; 108; 97; 116; 101; 34; 58; 32; 110; 117; 108; 108; 44; 10; 32; 32; 32; 32; 32; 32; 32; 32; 34; 105; 110; 100; 101; 120; 101; 114; 95; 109; 97; 112; 112; 105; 110; 103; 115; 34; 58; 32; 123; 125; 44; 10; 32; 32; 32; 32; 32; 32; 32; 32; 34; 108; 105; 109; 105; 116; 34; 58; 32; 110; 117; 108; 108; 44; 10; 32; 32; 32; 32; 32; 32; 32; 32; 34; 111; 102; 102; 115; 101; 116; 34; 58; 32; 110; 117; 108; 108; 44; 10; 32; 32; 32; 32; 32; 32; 32; 32; 34; 114; 111; 108; 108; 117; 112; 34; 58; 32; 123; 10; 32; 32; 32; 32; 32; 32; 32; 32; 32; 32; 32; 32; 34; 103; 114; 97; 110; 117; 108; 97; 114; 105; 116; 121; 34; 58; 32; 51; 54; 48; 48; 44; 10; 32; 32; 32; 32; 32; 32; 32; 32; 32; 32; 32; 32; 34; 105; 110; 116; 101; 114; 118; 97; 108; 34; 58; 32; 51; 54; 48; 48; 44; 10; 32; 32; 32; 32; 32; 32; 32; 32; 32; 32; 32; 32; 34; 111; 114; 100; 101; 114; 98; 121; 34; 58; 32; 110; 117; 108; 108; 44; 10; 32; 32; 32; 32; 32; 32; 32; 32; 32; 32; 32; 32; 34; 119; 105; 116; 104; 95; 116; 111; 116; 97; 108; 115; 34; 58; 32; 110; 117; 108; 108; 10; 32; 32; 32; 32; 32; 32; 32; 32; 125; 44; 10; 32; 32; 32; 32; 32; 32; 32; 32; 34; 115; 99; 111; 112; 101; 34; 58; 32; 123; 10; 32; 32; 32; 32; 32; 32; 32; 32; 32; 32; 32; 32; 34; 111; 114; 103; 95; 105; 100; 115; 34; 58; 32; 91; 10; 32; 32; 32; 32; 32; 32; 32; 32; 32; 32; 32; 32; 32; 32; 32; 32; 49; 10; 32; 32; 32; 32; 32; 32; 32; 32; 32; 32; 32; 32; 93; 44; 10; 32; 32; 32; 32; 32; 32; 32; 32; 32; 32; 32; 32; 34; 112; 114; 111; 106; 101; 99; 116; 95; 105; 100; 115; 34; 58; 32; 91; 10; 32; 32; 32; 32; 32; 32; 32; 32; 32; 32; 32; 32; 32; 32; 32; 32; 49; 49; 10; 32; 32; 32; 32; 32; 32; 32; 32; 32; 32; 32; 32; 93; 44; 10; 32; 32; 32; 32; 32; 32; 32; 32; 32; 32; 32; 32; 34; 117; 115; 101; 95; 99; 97; 115; 101; 95; 105; 100; 34; 58; 32; 34; 116; 114; 97; 110; 115; 97; 99; 116; 105; 111; 110; 115; 34; 10; 32; 32; 32; 32; 32; 32; 32; 32; 125; 44; 10; 32; 32; 32; 32; 32; 32; 32; 32; 34; 115; 116; 97; 114; 116; 34; 58; 32; 34; 50; 48; 50; 49; 45; 48; 49; 45; 48; 50; 84; 48; 51; 58; 48; 52; 58; 48; 53; 46; 48; 48; 48; 48; 48; 54; 43; 48; 48; 58; 48; 48; 34; 10; 32; 32; 32; 32; 125; 44; 10; 32; 32; 32; 32; 34; 112; 97; 114; 101; 110; 116; 95; 97; 112; 105; 34; 58; 32; 34; 115; 47; 103; 34; 44; 10; 32; 32; 32; 32; 34; 113; 117; 101; 114; 121; 34; 58; 32; 34; 109; 97; 120; 40; 100; 58; 116; 114; 97; 110; 115; 97; 99; 116; 105; 111; 110; 115; 47; 100; 117; 114; 97; 116; 105; 111; 110; 64; 109; 105; 108; 108; 105; 115; 101; 99; 111; 110; 100; 41; 123; 98; 97; 114; 58; 92; 34; 98; 97; 122; 92; 34; 125; 32; 98; 121; 32; 40; 116; 114; 97; 110; 115; 97; 99; 116; 105; 111; 110; 41; 34; 44; 10; 32; 32; 32; 32; 34; 116; 101; 110; 97; 110; 116; 95; 105; 100; 115; 34; 58; 32; 123; 10; 32; 32; 32; 32; 32; 32; 32; 32; 34; 111; 114; 103; 97; 110; 105; 122; 97; 116; 105; 111; 110; 95; 105; 100; 34; 58; 32; 49; 44; 10; 32; 32; 32; 32; 32; 32; 32; 32; 34; 114; 101; 102; 101; 114; 114; 101; 114; 34; 58; 32; 34; 100; 101; 102; 97; 117; 108; 116; 34; 10; 32; 32; 32; 32; 125; 44; 10; 32; 32; 32; 32; 34; 116; 117; 114; 98; 111; 34; 58; 32; 116; 114; 117; 101; 10; 125]%N = true.
Proof. vm_compute. reflexivity. Qed.

(* test_request.py, line 136: invalid_dataset *)
Example t212_test_request : fails (let! r := (let! a := (Ok ONone) in let! b := (Ok (OStr ($"default"))) in let! c := (let! q := (let! q := (let! q := (let! x1 := (let! o := (let! x2 := (Ok (OStr ($"events"))) in let! x3 := (Ok ONone) in let! x4 := (Ok ONone) in let! x5 := (Ok ONone) in mk_entity x2 x3 x4 x5) in Ok (MObj o)) in let! x6 := (Ok ONone) in let! x7 := (Ok ONone) in let! x8 := (Ok ONone) in let! x9 := (Ok ONone) in let! x10 := (Ok ONone) in let! x11 := (Ok ONone) in let! x12 := (Ok ONone) in let! x13 := (Ok ONone) in let! x14 := (Ok ONone) in let! x15 := (Ok ONone) in let! x16 := (Ok ONone) in mk_query x1 (mkClauses x6 x7 x8 x9 x10 x11 x12 x13 x14 x15 x16)) in let! v := (let! x17 := (let! x18 := (Ok (OStr ($"event_id"))) in let! x19 := (Ok ONone) in mk_column x18 x19) in let! x20 := (let! x21 := (Ok (OStr ($"title"))) in let! x22 := (Ok ONone) in mk_column x21 x22) in Ok (OList [x17; x20])) in set_clause CSelect q v) in let! v := (let! x23 := (let! x26 := (let! x24 := (Ok (OStr ($"timestamp"))) in let! x25 := (Ok ONone) in mk_column x24 x25) in let! x27 := (Ok (OOp GT)) in let! x28 := (Ok (ODateTime (mkDT (mkDate 2021 1 2) 3 4 5 6 (Some 0)))) in mk_condition x26 x27 x28) in Ok (OList [x23])) in set_clause CWhere q v) in Ok (RQuery q)) in let! p := (Ok (OStr ($"s/g"))) in let! t := (let! x29 := (Ok (OInt (1))) in let! x30 := (Ok (OStr ($"default"))) in Ok (ODict [($"organization_id"); ($"referrer")] [x29; x30])) in let! x31 := (Ok ONone) in let! x32 := (Ok (OBool true)) in let! x33 := (Ok ONone) in let! x34 := (Ok ONone) in let! x35 := (Ok ONone) in let! x36 := (Ok ONone) in Ok (mkRequest a b c (RFlags (mkFlags x31 x32 x33 x34 x35 x36)) p t)) in request_validate r) (fun e => match e with InvalidRequestError => true | _ => false end) = true.
Proof. vm_compute. reflexivity. Qed.

(* test_request.py, line 147: invalid_dataset_chars *)
Example t213_test_request : fails (let! r := (let! a := (Ok (OStr ($"@@ff@@"))) in let! b := (Ok (OStr ($"default"))) in let! c := (let! q := (let! q := (let! q := (let! x1 := (let! o := (let! x2 := (Ok (OStr ($"events"))) in let! x3 := (Ok ONone) in let! x4 := (Ok ONone) in let! x5 := (Ok ONone) in mk_entity x2 x3 x4 x5) in Ok (MObj o)) in let! x6 := (Ok ONone) in let! x7 := (Ok ONone) in let! x8 := (Ok ONone) in let! x9 := (Ok ONone) in let! x10 := (Ok ONone) in let! x11 := (Ok ONone) in let! x12 := (Ok ONone) in let! x13 := (Ok ONone) in let! x14 := (Ok ONone) in let! x15 := (Ok ONone) in let! x16 := (Ok ONone) in mk_query x1 (mkClauses x6 x7 x8 x9 x10 x11 x12 x13 x14 x15 x16)) in let! v := (let! x17 := (let! x18 := (Ok (OStr ($"event_id"))) in let! x19 := (Ok ONone) in mk_column x18 x19) in let! x20 := (let! x21 := (Ok (OStr ($"title"))) in let! x22 := (Ok ONone) in mk_column x21 x22) in Ok (OList [x17; x20])) in set_clause CSelect q v) in let! v := (let! x23 := (let! x26 := (let! x24 := (Ok (OStr ($"timestamp"))) in let! x25 := (Ok ONone) in mk_column x24 x25) in let! x27 := (Ok (OOp GT)) in let! x28 := (Ok (ODateTime (mkDT (mkDate 2021 1 2) 3 4 5 6 (Some 0)))) in mk_condition x26 x27 x28) in Ok (OList [x23])) in set_clause CWhere q v) in Ok (RQuery q)) in let! p := (Ok (OStr ($"s/g"))) in let! t := (let! x29 := (Ok (OInt (1))) in let! x30 := (Ok (OStr ($"default"))) in Ok (ODict [($"organization_id"); ($"referrer")] [x29; x30])) in let! x31 := (Ok ONone) in let! x32 := (Ok (OBool true)) in let! x33 := (Ok ONone) in let! x34 := (Ok ONone) in let! x35 := (Ok ONone) in let! x36 := (Ok ONone) in Ok (mkRequest a b c (RFlags (mkFlags x31 x32 x33 x34 x35 x36)) p t)) in request_validate r) (fun e => match e with InvalidRequestError => true | _ => false end) = true.
Proof. vm_compute. reflexivity. Qed.

(* test_request.py, line 158: invalid_app_id *)
Example t214_test_request : fails (let! r := (let! a := (Ok (OStr ($"events"))) in let! b := (Ok (OInt (2))) in let! c := (let! q := (let! q := (let! q := (let! x1 := (let! o := (let! x2 := (Ok (OStr ($"events"))) in let! x3 := (Ok ONone) in let! x4 := (Ok ONone) in let! x5 := (Ok ONone) in mk_entity x2 x3 x4 x5) in Ok (MObj o)) in let! x6 := (Ok ONone) in let! x7 := (Ok ONone) in let! x8 := (Ok ONone) in let! x9 := (Ok ONone) in let! x10 := (Ok ONone) in let! x11 := (Ok ONone) in let! x12 := (Ok ONone) in let! x13 := (Ok ONone) in let! x14 := (Ok ONone) in let! x15 := (Ok ONone) in let! x16 := (Ok ONone) in mk_query x1 (mkClauses x6 x7 x8 x9 x10 x11 x12 x13 x14 x15 x16)) in let! v := (let! x17 := (let! x18 := (Ok (OStr ($"event_id"))) in let! x19 := (Ok ONone) in mk_column x18 x19) in let! x20 := (let! x21 := (Ok (OStr ($"title"))) in let! x22 := (Ok ONone) in mk_column x21 x22) in Ok (OList [x17; x20])) in set_clause CSelect q v) in let! v := (let! x23 := (let! x26 := (let! x24 := (Ok (OStr ($"timestamp"))) in let! x25 := (Ok ONone) in mk_column x24 x25) in let! x27 := (Ok (OOp GT)) in let! x28 := (Ok (ODateTime (mkDT (mkDate 2021 1 2) 3 4 5 6 (Some 0)))) in mk_condition x26 x27 x28) in Ok (OList [x23])) in set_clause CWhere q v) in Ok (RQuery q)) in let! p := (Ok (OStr ($"s/g"))) in let! t := (let! x29 := (Ok (OInt (1))) in let! x30 := (Ok (OStr ($"default"))) in Ok (ODict [($"organization_id"); ($"referrer")] [x29; x30])) in let! x31 := (Ok ONone) in let! x32 := (Ok (OBool true)) in let! x33 := (Ok ONone) in let! x34 := (Ok ONone) in let! x35 := (Ok ONone) in let! x36 := (Ok ONone) in Ok (mkRequest a b c (RFlags (mkFlags x31 x32 x33 x34 x35 x36)) p t)) in request_validate r) (fun e => match e with InvalidRequestError => true | _ => false end) = true.
Proof. vm_compute. reflexivity. Qed.

(* test_request.py, line 169: invalid_app_id_chars *)
Example t215_test_request : fails (let! r := (let! a := (Ok (OStr ($"events"))) in let! b := (Ok (OStr ($"@@ff@@"))) in let! c := (let! q := (let! q := (let! q := (let! x1 := (let! o := (let! x2 := (Ok (OStr ($"events"))) in let! x3 := (Ok ONone) in let! x4 := (Ok ONone) in let! x5 := (Ok ONone) in mk_entity x2 x3 x4 x5) in Ok (MObj o)) in let! x6 := (Ok ONone) in let! x7 := (Ok ONone) in let! x8 := (Ok ONone) in let! x9 := (Ok ONone) in let! x10 := (Ok ONone) in let! x11 := (Ok ONone) in let! x12 := (Ok ONone) in let! x13 := (Ok ONone) in let! x14 := (Ok ONone) in let! x15 := (Ok ONone) in let! x16 := (Ok ONone) in mk_query x1 (mkClauses x6 x7 x8 x9 x10 x11 x12 x13 x14 x15 x16)) in let! v := (let! x17 := (let! x18 := (Ok (OStr ($"event_id"))) in let! x19 := (Ok ONone) in mk_column x18 x19) in let! x20 := (let! x21 := (Ok (OStr ($"title"))) in let! x22 := (Ok ONone) in mk_column x21 x22) in Ok (OList [x17; x20])) in set_clause CSelect q v) in let! v := (let! x23 := (let! x26 := (let! x24 := (Ok (OStr ($"timestamp"))) in let! x25 := (Ok ONone) in mk_column x24 x25) in let! x27 := (Ok (OOp GT)) in let! x28 := (Ok (ODateTime (mkDT (mkDate 2021 1 2) 3 4 5 6 (Some 0)))) in mk_condition x26 x27 x28) in Ok (OList [x23])) in set_clause CWhere q v) in Ok (RQuery q)) in let! p := (Ok (OStr ($"s/g"))) in let! t := (let! x29 := (Ok (OInt (1))) in let! x30 := (Ok (OStr ($"default"))) in Ok (ODict [($"organization_id"); ($"referrer")] [x29; x30])) in let! x31 := (Ok ONone) in let! x32 := (Ok (OBool true)) in let! x33 := (Ok ONone) in let! x34 := (Ok ONone) in let! x35 := (Ok ONone) in let! x36 := (Ok ONone) in Ok (mkRequest a b c (RFlags (mkFlags x31 x32 x33 x34 x35 x36)) p t)) in request_validate r) (fun e => match e with InvalidRequestError => true | _ => false end) = true.
Proof. vm_compute. reflexivity. Qed.

(* test_request.py, line 180: invalid_parent_api *)
Example t216_test_request : fails (let! r := (let! a := (Ok (OStr ($"events"))) in let! b := (Ok (OStr ($"default"))) in let! c := (let! q := (let! q := (let! q := (let! x1 := (let! o := (let! x2 := (Ok (OStr ($"events"))) in let! x3 := (Ok ONone) in let! x4 := (Ok ONone) in let! x5 := (Ok ONone) in mk_entity x2 x3 x4 x5) in Ok (MObj o)) in let! x6 := (Ok ONone) in let! x7 := (Ok ONone) in let! x8 := (Ok ONone) in let! x9 := (Ok ONone) in let! x10 := (Ok ONone) in let! x11 := (Ok ONone) in let! x12 := (Ok ONone) in let! x13 := (Ok ONone) in let! x14 := (Ok ONone) in let! x15 := (Ok ONone) in let! x16 := (Ok ONone) in mk_query x1 (mkClauses x6 x7 x8 x9 x10 x11 x12 x13 x14 x15 x16)) in let! v := (let! x17 := (let! x18 := (Ok (OStr ($"event_id"))) in let! x19 := (Ok ONone) in mk_column x18 x19) in let! x20 := (let! x21 := (Ok (OStr ($"title"))) in let! x22 := (Ok ONone) in mk_column x21 x22) in Ok (OList [x17; x20])) in set_clause CSelect q v) in let! v := (let! x23 := (let! x26 := (let! x24 := (Ok (OStr ($"timestamp"))) in let! x25 := (Ok ONone) in mk_column x24 x25) in let! x27 := (Ok (OOp GT)) in let! x28 := (Ok (ODateTime (mkDT (mkDate 2021 1 2) 3 4 5 6 (Some 0)))) in mk_condition x26 x27 x28) in Ok (OList [x23])) in set_clause CWhere q v) in Ok (RQuery q)) in let! p := (Ok (OInt (6))) in let! t := (let! x29 := (Ok (OInt (1))) in let! x30 := (Ok (OStr ($"default"))) in Ok (ODict [($"organization_id"); ($"referrer")] [x29; x30])) in let! x31 := (Ok ONone) in let! x32 := (Ok (OBool true)) in let! x33 := (Ok ONone) in let! x34 := (Ok ONone) in let! x35 := (Ok ONone) in let! x36 := (Ok ONone) in Ok (mkRequest a b c (RFlags (mkFlags x31 x32 x33 x34 x35 x36)) p t)) in request_validate r) (fun e => match e with InvalidRequestError => true | _ => false end) = true.
Proof. vm_compute. reflexivity. Qed.

(* test_request.py, line 191: invalid_query *)
Example t217_test_request : fails (let! r := (let! a := (Ok (OStr ($"events"))) in let! b := (Ok (OStr ($"default"))) in let! c := (let! q := (let! x1 := (let! o := (let! x2 := (Ok (OStr ($"events"))) in let! x3 := (Ok ONone) in let! x4 := (Ok ONone) in let! x5 := (Ok ONone) in mk_entity x2 x3 x4 x5) in Ok (MObj o)) in let! x6 := (Ok ONone) in let! x7 := (Ok ONone) in let! x8 := (Ok ONone) in let! x9 := (Ok ONone) in let! x10 := (Ok ONone) in let! x11 := (Ok ONone) in let! x12 := (Ok ONone) in let! x13 := (Ok ONone) in let! x14 := (Ok ONone) in let! x15 := (Ok ONone) in let! x16 := (Ok ONone) in mk_query x1 (mkClauses x6 x7 x8 x9 x10 x11 x12 x13 x14 x15 x16)) in Ok (RQuery q)) in let! p := (Ok (OStr ($"s/g"))) in let! t := (let! x17 := (Ok (OInt (1))) in let! x18 := (Ok (OStr ($"default"))) in Ok (ODict [($"organization_id"); ($"referrer")] [x17; x18])) in let! x19 := (Ok ONone) in let! x20 := (Ok (OBool true)) in let! x21 := (Ok (OBool true)) in let! x22 := (Ok (OBool true)) in let! x23 := (Ok (OBool true)) in let! x24 := (Ok (OBool true)) in Ok (mkRequest a b c (RFlags (mkFlags x19 x20 x21 x22 x23 x24)) p t)) in request_validate r) (fun e => match e with InvalidQueryError => true | _ => false end) = true.
Proof. vm_compute. reflexivity. Qed.

(* test_request.py, line 202: invalid_flags *)
Example t218_test_request : fails (let! r := (let! a := (Ok (OStr ($"events"))) in let! b := (Ok (OStr ($"default"))) in let! c := (let! q := (let! q := (let! q := (let! x1 := (let! o := (let! x2 := (Ok (OStr ($"events"))) in let! x3 := (Ok ONone) in let! x4 := (Ok ONone) in let! x5 := (Ok ONone) in mk_entity x2 x3 x4 x5) in Ok (MObj o)) in let! x6 := (Ok ONone) in let! x7 := (Ok ONone) in let! x8 := (Ok ONone) in let! x9 := (Ok ONone) in let! x10 := (Ok ONone) in let! x11 := (Ok ONone) in let! x12 := (Ok ONone) in let! x13 := (Ok ONone) in let! x14 := (Ok ONone) in let! x15 := (Ok ONone) in let! x16 := (Ok ONone) in mk_query x1 (mkClauses x6 x7 x8 x9 x10 x11 x12 x13 x14 x15 x16)) in let! v := (let! x17 := (let! x18 := (Ok (OStr ($"event_id"))) in let! x19 := (Ok ONone) in mk_column x18 x19) in let! x20 := (let! x21 := (Ok (OStr ($"title"))) in let! x22 := (Ok ONone) in mk_column x21 x22) in Ok (OList [x17; x20])) in set_clause CSelect q v) in let! v := (let! x23 := (let! x26 := (let! x24 := (Ok (OStr ($"timestamp"))) in let! x25 := (Ok ONone) in mk_column x24 x25) in let! x27 := (Ok (OOp GT)) in let! x28 := (Ok (ODateTime (mkDT (mkDate 2021 1 2) 3 4 5 6 (Some 0)))) in mk_condition x26 x27 x28) in Ok (OList [x23])) in set_clause CWhere q v) in Ok (RQuery q)) in let! p := (Ok (OStr ($"s/g"))) in let! t := (let! x29 := (Ok (OInt (1))) in let! x30 := (Ok (OStr ($"default"))) in Ok (ODict [($"organization_id"); ($"referrer")] [x29; x30])) in let! x31 := (Ok ONone) in let! x32 := (Ok (OInt (1))) in let! x33 := (Ok ONone) in let! x34 := (Ok ONone) in let! x35 := (Ok ONone) in let! x36 := (Ok ONone) in Ok (mkRequest a b c (RFlags (mkFlags x31 x32 x33 x34 x35 x36)) p t)) in request_validate r) (fun e => match e with InvalidFlagError => true | _ => false end) = true.
Proof. vm_compute. reflexivity. Qed.

(* test_delete_query.py, line 9: serialize *)
Example t219_test_delete_query : same_dict (let! c := (let! x1 := (let! x2 := (Ok (OInt (1))) in Ok (OList [x2])) in let! x3 := (let! x4 := (Ok (OStr ($"1234"))) in Ok (OList [x4])) in Ok (ODict [($"project_id"); ($"occurrence_id")] [x1; x3])) in delete_serialize (mkDelete (OStr ($"non-real-storage")) c)) (let! x5 := (let! x6 := (let! x7 := (Ok (OInt (1))) in Ok (OList [x7])) in let! x8 := (let! x9 := (Ok (OStr ($"1234"))) in Ok (OList [x9])) in Ok (ODict [($"project_id"); ($"occurrence_id")] [x6; x8])) in Ok (ODict [($"columns")] [x5])) = true.
Proof. vm_compute. reflexivity. Qed.

(* test_delete_query.py, line 20: serialize_request *)
Example t220_test_delete_query : same_str
  (let! c := (let! x1 := (let! x2 := (Ok (OInt (1))) in Ok (OList [x2])) in let! x3 := (let! x4 := (Ok (OStr ($"1234"))) in Ok (OList [x4])) in Ok (ODict [($"project_id"); ($"occurrence_id")] [x1; x3])) in snd (request_serialize (mkRequest (OStr ($"search_issues")) (OStr ($"myapp"))
     (RDelete (mkDelete (OStr ($"search_issues")) c)) (RFlags (mkFlags ONone ONone ONone ONone ONone ONone)) (OStr ($"<unknown>")) (ODict [] [])))) ($"{""query"": {""columns"": {""project_id"": [1], ""occurrence_id"": [""1234""]}}, ""app_id"": ""myapp"", ""tenant_ids"": {}, ""parent_api"": ""<unknown>""}") = true.
Proof. vm_compute. reflexivity. Qed.

(* test_delete_query.py, line 38: empty conditions *)
Example t221_test_delete_query : fails (let! c := (Ok (ODict [] [])) in delete_serialize (mkDelete (OStr ($"search_issues")) c)) (fun e => match e with InvalidDeleteQueryError => true | _ => false end) = true.
Proof. vm_compute. reflexivity. Qed.

(* test_delete_query.py, line 50: empty conditions *)
Example t222_test_delete_query : fails (let! c := (let! x1 := (Ok (OList [])) in Ok (ODict [($"project_id")] [x1])) in delete_serialize (mkDelete (OStr ($"search_issues")) c)) (fun e => match e with InvalidDeleteQueryError => true | _ => false end) = true.
Proof. vm_compute. reflexivity. Qed.

(* test_flags.py, line 8: flag *)
Example t223_test_flags : passes (let! f := (let! f_totals := (Ok (OBool true)) in let! f_consistent := (Ok ONone) in let! f_turbo := (Ok ONone) in let! f_debug := (Ok ONone) in let! f_dry_run := (Ok ONone) in let! f_legacy := (Ok ONone) in Ok (mkFlags f_totals f_consistent f_turbo f_debug f_dry_run f_legacy)) in flags_validate f) = true.
Proof. vm_compute. reflexivity. Qed.

(* test_flags.py, line 8: flag *)
Example t224_test_flags : same_dict (let! f := (let! f_totals := (Ok (OBool true)) in let! f_consistent := (Ok ONone) in let! f_turbo := (Ok ONone) in let! f_debug := (Ok ONone) in let! f_dry_run := (Ok ONone) in let! f_legacy := (Ok ONone) in Ok (mkFlags f_totals f_consistent f_turbo f_debug f_dry_run f_legacy)) in let! d := flags_to_dict f in Ok (dict_obj d)) (let! x1 := (Ok (OBool true)) in Ok (ODict [($"totals")] [x1])) = true.
Proof. vm_compute. reflexivity. Qed.

(* test_flags.py, line 9: flag *)
Example t225_test_flags : passes (let! f := (let! f_totals := (Ok ONone) in let! f_consistent := (Ok (OBool false)) in let! f_turbo := (Ok ONone) in let! f_debug := (Ok ONone) in let! f_dry_run := (Ok ONone) in let! f_legacy := (Ok ONone) in Ok (mkFlags f_totals f_consistent f_turbo f_debug f_dry_run f_legacy)) in flags_validate f) = true.
Proof. vm_compute. reflexivity. Qed.

(* test_flags.py, line 9: flag *)
Example t226_test_flags : same_dict (let! f := (let! f_totals := (Ok ONone) in let! f_consistent := (Ok (OBool false)) in let! f_turbo := (Ok ONone) in let! f_debug := (Ok ONone) in let! f_dry_run := (Ok ONone) in let! f_legacy := (Ok ONone) in Ok (mkFlags f_totals f_consistent f_turbo f_debug f_dry_run f_legacy)) in let! d := flags_to_dict f in Ok (dict_obj d)) (let! x1 := (Ok (OBool false)) in Ok (ODict [($"consistent")] [x1])) = true.
Proof. vm_compute. reflexivity. Qed.

(* test_flags.py, line 10: flag *)
Example t227_test_flags : fails (let! f := (let! f_totals := (Ok ONone) in let! f_consistent := (Ok ONone) in let! f_turbo := (Ok (OInt (1))) in let! f_debug := (Ok ONone) in let! f_dry_run := (Ok ONone) in let! f_legacy := (Ok ONone) in Ok (mkFlags f_totals f_consistent f_turbo f_debug f_dry_run f_legacy)) in flags_validate f) (fun e => match e with InvalidFlagError => true | _ => false end) = true.
Proof. vm_compute. reflexivity. Qed.

(* test_flags.py, line 11: flag *)
Example t228_test_flags : fails (let! f := (let! f_totals := (Ok ONone) in let! f_consistent := (Ok ONone) in let! f_turbo := (Ok ONone) in let! f_debug := (Ok ONone) in let! f_dry_run := (Ok (OStr ($"string"))) in let! f_legacy := (Ok ONone) in Ok (mkFlags f_totals f_consistent f_turbo f_debug f_dry_run f_legacy)) in flags_validate f) (fun e => match e with InvalidFlagError => true | _ => false end) = true.
Proof. vm_compute. reflexivity. Qed.

(* test_flags.py, line 31: flag *)
Example t229_test_flags : passes (let! f := (let! f_totals := (Ok (OBool false)) in let! f_consistent := (Ok ONone) in let! f_turbo := (Ok ONone) in let! f_debug := (Ok ONone) in let! f_dry_run := (Ok (OBool true)) in let! f_legacy := (Ok ONone) in Ok (mkFlags f_totals f_consistent f_turbo f_debug f_dry_run f_legacy)) in flags_validate f) = true.
Proof. vm_compute. reflexivity. Qed.

(* test_flags.py, line 31: flag *)
Example t230_test_flags : same_dict (let! f := (let! f_totals := (Ok (OBool false)) in let! f_consistent := (Ok ONone) in let! f_turbo := (Ok ONone) in let! f_debug := (Ok ONone) in let! f_dry_run := (Ok (OBool true)) in let! f_legacy := (Ok ONone) in Ok (mkFlags f_totals f_consistent f_turbo f_debug f_dry_run f_legacy)) in let! d := flags_to_dict f in Ok (dict_obj d)) (let! x1 := (Ok (OBool false)) in let! x2 := (Ok (OBool true)) in Ok (ODict [($"totals"); ($"dry_run")] [x1; x2])) = true.
Proof. vm_compute. reflexivity. Qed.
