(** GENERATED by tools/gen_tests_sdk.py from /repo/tests: the repository's own tests, run on
    the model. These are tests of the model, not properties. *)
From Verif Require Import PyBase DateTime Objects Exprs Translate Optimizer Query Metrics Mql MetricsQuery Json Request Concrete.
#[local] Existing Instance demoRT.
#[local] Instance testST : PyStr := {| str_other := fun _ => [] |}.
Open Scope Z_scope.

Definition same_str (r : result str) (s : str) : bool := match r with Ok x => str_eqb x s | Raise _ => false end.
(** == s, or the given exception (the tests check the class and the text; here the class) *)
Definition fails {A} (r : result A) (f : exn -> bool) : bool := match r with Ok _ => false | Raise e => f e end.
Definition passes {A} (r : result A) : bool := match r with Ok _ => true | Raise _ => false end.
Definition equals (a b : result obj) : bool := match a, b with Ok x, Ok y => py_eq x y | _, _ => false end.
(** dictionaries: equal up to the order of keys (compared as sorted JSON) *)
Definition same_dict (a b : result obj) : bool :=
  match (let! x := a in json_pretty true 0 x), (let! y := b in json_pretty true 0 y) with
  | Ok s, Ok t => str_eqb s t
  | _, _ => false
  end.

(* test_aliased_expression.py, line 12: simple *)
Example t1_test_aliased_expression : same_str (let! o := (let! x3 := (let! x1 := (Ok (OStr ($"stuff"))) in let! x2 := (Ok ONone) in mk_column x1 x2) in let! x4 := (Ok (OStr ($"things"))) in mk_aliased x3 x4) in visit false true o) ($"stuff AS `things`") = true.
Proof. vm_compute. reflexivity. Qed.

(* test_aliased_expression.py, line 13: complex alias *)
Example t2_test_aliased_expression : same_str (let! o := (let! x3 := (let! x1 := (Ok (OStr ($"stuff"))) in let! x2 := (Ok ONone) in mk_column x1 x2) in let! x4 := (Ok (OStr ($"things[1.c-2:3_]"))) in mk_aliased x3 x4) in visit false true o) ($"stuff AS `things[1.c-2:3_]`") = true.
Proof. vm_compute. reflexivity. Qed.

(* test_aliased_expression.py, line 20: exp must be a Column *)
Example t3_test_aliased_expression : fails (let! x1 := (Ok (OStr ($"stuff"))) in let! x2 := (Ok (OStr ($"things[1.c-2:3]"))) in mk_aliased x1 x2) is_invalid_expression = true.
Proof. vm_compute. reflexivity. Qed.

(* test_aliased_expression.py, line 27: alias can't be empty string *)
Example t4_test_aliased_expression : fails (let! x3 := (let! x1 := (Ok (OStr ($"stuff"))) in let! x2 := (Ok ONone) in mk_column x1 x2) in let! x4 := (Ok (OStr ($""))) in mk_aliased x3 x4) is_invalid_expression = true.
Proof. vm_compute. reflexivity. Qed.

(* test_aliased_expression.py, line 36: alias must be string *)
Example t5_test_aliased_expression : fails (let! x3 := (let! x1 := (Ok (OStr ($"stuff"))) in let! x2 := (Ok ONone) in mk_column x1 x2) in let! x4 := (Ok (OInt (1))) in mk_aliased x3 x4) is_invalid_expression = true.
Proof. vm_compute. reflexivity. Qed.

(* test_aliased_expression.py, line 45: alias has invalid characters *)
Example t6_test_aliased_expression : fails (let! x3 := (let! x1 := (Ok (OStr ($"stuff"))) in let! x2 := (Ok ONone) in mk_column x1 x2) in let! x4 := (Ok (OStr ($"what???||things!!"))) in mk_aliased x3 x4) is_invalid_expression = true.
Proof. vm_compute. reflexivity. Qed.

(* test_aliased_expression.py, line 54: alias with parenthesis *)
Example t7_test_aliased_expression : same_str (let! o := (let! x3 := (let! x1 := (Ok (OStr ($"stuff"))) in let! x2 := (Ok ONone) in mk_column x1 x2) in let! x4 := (Ok (OStr ($"sum(things)"))) in mk_aliased x3 x4) in visit false true o) ($"stuff AS `sum(things)`") = true.
Proof. vm_compute. reflexivity. Qed.

(* test_aliased_expression.py, line 61: alias with mri *)
Example t8_test_aliased_expression : same_str (let! o := (let! x3 := (let! x1 := (Ok (OStr ($"stuff"))) in let! x2 := (Ok ONone) in mk_column x1 x2) in let! x4 := (Ok (OStr ($"sum(c:sessions/session@none)"))) in mk_aliased x3 x4) in visit false true o) ($"stuff AS `sum(c:sessions/session@none)`") = true.
Proof. vm_compute. reflexivity. Qed.

(* test_column.py, line 13: basic column test *)
Example t9_test_column : same_str (let! o := (let! x1 := (Ok (OStr ($"valid"))) in let! x2 := (Ok ONone) in mk_column x1 x2) in visit false true o) ($"valid") = true.
Proof. vm_compute. reflexivity. Qed.

(* test_column.py, line 13: basic column test *)
Example t10_test_column : match (let! x1 := (Ok (OStr ($"valid"))) in let! x2 := (Ok ONone) in mk_column x1 x2) with Ok (OColumn c) => py_eq (OColumn c) (OColumn (mkColumn ($"valid") None None None)) | _ => false end = true.
Proof. vm_compute. reflexivity. Qed.

(* test_column.py, line 14: underscore column test *)
Example t11_test_column : same_str (let! o := (let! x1 := (Ok (OStr ($"valid_"))) in let! x2 := (Ok ONone) in mk_column x1 x2) in visit false true o) ($"valid_") = true.
Proof. vm_compute. reflexivity. Qed.

(* test_column.py, line 14: underscore column test *)
Example t12_test_column : match (let! x1 := (Ok (OStr ($"valid_"))) in let! x2 := (Ok ONone) in mk_column x1 x2) with Ok (OColumn c) => py_eq (OColumn c) (OColumn (mkColumn ($"valid_") None None None)) | _ => false end = true.
Proof. vm_compute. reflexivity. Qed.

(* test_column.py, line 17: dot column test *)
Example t13_test_column : same_str (let! o := (let! x1 := (Ok (OStr ($"va_lid.stuff"))) in let! x2 := (Ok ONone) in mk_column x1 x2) in visit false true o) ($"va_lid.stuff") = true.
Proof. vm_compute. reflexivity. Qed.

(* test_column.py, line 17: dot column test *)
Example t14_test_column : match (let! x1 := (Ok (OStr ($"va_lid.stuff"))) in let! x2 := (Ok ONone) in mk_column x1 x2) with Ok (OColumn c) => py_eq (OColumn c) (OColumn (mkColumn ($"va_lid.stuff") None None None)) | _ => false end = true.
Proof. vm_compute. reflexivity. Qed.

(* test_column.py, line 24: colon column test *)
Example t15_test_column : same_str (let! o := (let! x1 := (Ok (OStr ($"va_lid:stuff"))) in let! x2 := (Ok ONone) in mk_column x1 x2) in visit false true o) ($"va_lid:stuff") = true.
Proof. vm_compute. reflexivity. Qed.

(* test_column.py, line 24: colon column test *)
Example t16_test_column : match (let! x1 := (Ok (OStr ($"va_lid:stuff"))) in let! x2 := (Ok ONone) in mk_column x1 x2) with Ok (OColumn c) => py_eq (OColumn c) (OColumn (mkColumn ($"va_lid:stuff") None None None)) | _ => false end = true.
Proof. vm_compute. reflexivity. Qed.

(* test_column.py, line 31: single char subscriptable *)
Example t17_test_column : same_str (let! o := (let! x1 := (Ok (OStr ($"a[b]"))) in let! x2 := (Ok ONone) in mk_column x1 x2) in visit false true o) ($"a[b]") = true.
Proof. vm_compute. reflexivity. Qed.

(* test_column.py, line 31: single char subscriptable *)
Example t18_test_column : match (let! x1 := (Ok (OStr ($"a[b]"))) in let! x2 := (Ok ONone) in mk_column x1 x2) with Ok (OColumn c) => py_eq (OColumn c) (OColumn (mkColumn ($"a[b]") None (Some ($"a")) (Some ($"b")))) | _ => false end = true.
Proof. vm_compute. reflexivity. Qed.

(* test_column.py, line 34: number subscriptable *)
Example t19_test_column : same_str (let! o := (let! x1 := (Ok (OStr ($"a1[a1]"))) in let! x2 := (Ok ONone) in mk_column x1 x2) in visit false true o) ($"a1[a1]") = true.
Proof. vm_compute. reflexivity. Qed.

(* test_column.py, line 34: number subscriptable *)
Example t20_test_column : match (let! x1 := (Ok (OStr ($"a1[a1]"))) in let! x2 := (Ok ONone) in mk_column x1 x2) with Ok (OColumn c) => py_eq (OColumn c) (OColumn (mkColumn ($"a1[a1]") None (Some ($"a1")) (Some ($"a1")))) | _ => false end = true.
Proof. vm_compute. reflexivity. Qed.

(* test_column.py, line 37: dot subscriptable *)
Example t21_test_column : same_str (let! o := (let! x1 := (Ok (OStr ($"a1[a.2]"))) in let! x2 := (Ok ONone) in mk_column x1 x2) in visit false true o) ($"a1[a.2]") = true.
Proof. vm_compute. reflexivity. Qed.

(* test_column.py, line 37: dot subscriptable *)
Example t22_test_column : match (let! x1 := (Ok (OStr ($"a1[a.2]"))) in let! x2 := (Ok ONone) in mk_column x1 x2) with Ok (OColumn c) => py_eq (OColumn c) (OColumn (mkColumn ($"a1[a.2]") None (Some ($"a1")) (Some ($"a.2")))) | _ => false end = true.
Proof. vm_compute. reflexivity. Qed.

(* test_column.py, line 40: colon subscriptable *)
Example t23_test_column : same_str (let! o := (let! x1 := (Ok (OStr ($"a1.2[a:bdsd]"))) in let! x2 := (Ok ONone) in mk_column x1 x2) in visit false true o) ($"a1.2[a:bdsd]") = true.
Proof. vm_compute. reflexivity. Qed.

(* test_column.py, line 40: colon subscriptable *)
Example t24_test_column : match (let! x1 := (Ok (OStr ($"a1.2[a:bdsd]"))) in let! x2 := (Ok ONone) in mk_column x1 x2) with Ok (OColumn c) => py_eq (OColumn c) (OColumn (mkColumn ($"a1.2[a:bdsd]") None (Some ($"a1.2")) (Some ($"a:bdsd")))) | _ => false end = true.
Proof. vm_compute. reflexivity. Qed.

(* test_column.py, line 47: mri format *)
Example t25_test_column : same_str (let! o := (let! x1 := (Ok (OStr ($"e:sessions/duration@millisecond"))) in let! x2 := (Ok ONone) in mk_column x1 x2) in visit false true o) ($"e:sessions/duration@millisecond") = true.
Proof. vm_compute. reflexivity. Qed.

(* test_column.py, line 47: mri format *)
Example t26_test_column : match (let! x1 := (Ok (OStr ($"e:sessions/duration@millisecond"))) in let! x2 := (Ok ONone) in mk_column x1 x2) with Ok (OColumn c) => py_eq (OColumn c) (OColumn (mkColumn ($"e:sessions/duration@millisecond") None None None)) | _ => false end = true.
Proof. vm_compute. reflexivity. Qed.

(* test_column.py, line 54: only one subscriptable *)
Example t27_test_column : fails (let! x1 := (Ok (OStr ($"a1[a:b][aasdc]"))) in let! x2 := (Ok ONone) in mk_column x1 x2) (fun e => match e with InvalidColumnError => true | _ => false end) = true.
Proof. vm_compute. reflexivity. Qed.

(* test_column.py, line 63: underscore column test *)
Example t28_test_column : fails (let! x1 := (Ok (OStr ($":_valid"))) in let! x2 := (Ok ONone) in mk_column x1 x2) (fun e => match e with InvalidColumnError => true | _ => false end) = true.
Proof. vm_compute. reflexivity. Qed.

(* test_column.py, line 70: invalid column *)
Example t29_test_column : fails (let! x1 := (Ok (OStr ($"..valid"))) in let! x2 := (Ok ONone) in mk_column x1 x2) (fun e => match e with InvalidColumnError => true | _ => false end) = true.
Proof. vm_compute. reflexivity. Qed.

(* test_column.py, line 77: invalid column type *)
Example t30_test_column : fails (let! x1 := (Ok (OInt (10))) in let! x2 := (Ok ONone) in mk_column x1 x2) (fun e => match e with InvalidColumnError => true | _ => false end) = true.
Proof. vm_compute. reflexivity. Qed.

(* test_column.py, line 84: empty column *)
Example t31_test_column : fails (let! x1 := (Ok (OStr ($""))) in let! x2 := (Ok ONone) in mk_column x1 x2) (fun e => match e with InvalidColumnError => true | _ => false end) = true.
Proof. vm_compute. reflexivity. Qed.

(* test_column.py, line 116: column with entity *)
Example t32_test_column : same_str (let! o := (let! x5 := (Ok (OStr ($"foo"))) in let! x6 := (let! x1 := (Ok (OStr ($"events"))) in let! x2 := (Ok (OStr ($"e"))) in let! x3 := (Ok ONone) in let! x4 := (Ok ONone) in mk_entity x1 x2 x3 x4) in mk_column x5 x6) in visit false true o) ($"e.foo") = true.
Proof. vm_compute. reflexivity. Qed.

(* test_column.py, line 117: column with entity but no alias *)
Example t33_test_column : fails (let! x5 := (Ok (OStr ($"foo"))) in let! x6 := (let! x1 := (Ok (OStr ($"events"))) in let! x2 := (Ok ONone) in let! x3 := (Ok ONone) in let! x4 := (Ok ONone) in mk_entity x1 x2 x3 x4) in mk_column x5 x6) (fun e => match e with InvalidColumnError => true | _ => false end) = true.
Proof. vm_compute. reflexivity. Qed.

(* test_column.py, line 124: column with non-entity *)
Example t34_test_column : fails (let! x1 := (Ok (OStr ($"foo"))) in let! x2 := (Ok (OStr ($"events"))) in mk_column x1 x2) (fun e => match e with InvalidColumnError => true | _ => false end) = true.
Proof. vm_compute. reflexivity. Qed.

(* test_condition.py, line 21: basic condition test *)
Example t35_test_condition : same_str (let! o := (let! x3 := (let! x1 := (Ok (OStr ($"event_id"))) in let! x2 := (Ok ONone) in mk_column x1 x2) in let! x4 := (Ok (OOp EQ)) in let! x5 := (Ok (OStr ($"foo"))) in mk_condition x3 x4 x5) in visit false true o) ($"event_id = 'foo'") = true.
Proof. vm_compute. reflexivity. Qed.

(* test_condition.py, line 21: basic condition test *)
Example t36_test_condition : equals (let! x3 := (let! x1 := (Ok (OStr ($"event_id"))) in let! x2 := (Ok ONone) in mk_column x1 x2) in let! x4 := (Ok (OOp EQ)) in let! x5 := (Ok (OStr ($"foo"))) in mk_condition x3 x4 x5) (let! x8 := (let! x6 := (Ok (OStr ($"event_id"))) in let! x7 := (Ok ONone) in mk_column x6 x7) in let! x9 := (Ok (OOp EQ)) in let! x10 := (Ok (OStr ($"foo"))) in mk_condition x8 x9 x10) = true.
Proof. vm_compute. reflexivity. Qed.

(* test_condition.py, line 28: lhs function *)
Example t37_test_condition : same_str (let! o := (let! x7 := (let! x4 := (Ok (OStr ($"toString"))) in let! x5 := (let! x1 := (let! x2 := (Ok (OStr ($"event_id"))) in let! x3 := (Ok ONone) in mk_column x2 x3) in Ok (OList [x1])) in let! x6 := (Ok ONone) in mk_function x4 x5 x6) in let! x8 := (Ok (OOp NEQ)) in let! x9 := (Ok (OStr ($"foo"))) in mk_condition x7 x8 x9) in visit false true o) ($"toString(event_id) != 'foo'") = true.
Proof. vm_compute. reflexivity. Qed.

(* test_condition.py, line 28: lhs function *)
Example t38_test_condition : equals (let! x7 := (let! x4 := (Ok (OStr ($"toString"))) in let! x5 := (let! x1 := (let! x2 := (Ok (OStr ($"event_id"))) in let! x3 := (Ok ONone) in mk_column x2 x3) in Ok (OList [x1])) in let! x6 := (Ok ONone) in mk_function x4 x5 x6) in let! x8 := (Ok (OOp NEQ)) in let! x9 := (Ok (OStr ($"foo"))) in mk_condition x7 x8 x9) (let! x16 := (let! x13 := (Ok (OStr ($"toString"))) in let! x14 := (let! x10 := (let! x11 := (Ok (OStr ($"event_id"))) in let! x12 := (Ok ONone) in mk_column x11 x12) in Ok (OList [x10])) in let! x15 := (Ok ONone) in mk_function x13 x14 x15) in let! x17 := (Ok (OOp NEQ)) in let! x18 := (Ok (OStr ($"foo"))) in mk_condition x16 x17 x18) = true.
Proof. vm_compute. reflexivity. Qed.

(* test_condition.py, line 35: rhs column *)
Example t39_test_condition : same_str (let! o := (let! x5 := (let! x1 := (Ok (OStr ($"event_id"))) in let! x2 := (Ok ONone) in mk_column x1 x2) in let! x6 := (Ok (OOp GT)) in let! x7 := (let! x3 := (Ok (OStr ($"group_id"))) in let! x4 := (Ok ONone) in mk_column x3 x4) in mk_condition x5 x6 x7) in visit false true o) ($"event_id > group_id") = true.
Proof. vm_compute. reflexivity. Qed.

(* test_condition.py, line 35: rhs column *)
Example t40_test_condition : equals (let! x5 := (let! x1 := (Ok (OStr ($"event_id"))) in let! x2 := (Ok ONone) in mk_column x1 x2) in let! x6 := (Ok (OOp GT)) in let! x7 := (let! x3 := (Ok (OStr ($"group_id"))) in let! x4 := (Ok ONone) in mk_column x3 x4) in mk_condition x5 x6 x7) (let! x12 := (let! x8 := (Ok (OStr ($"event_id"))) in let! x9 := (Ok ONone) in mk_column x8 x9) in let! x13 := (Ok (OOp GT)) in let! x14 := (let! x10 := (Ok (OStr ($"group_id"))) in let! x11 := (Ok ONone) in mk_column x10 x11) in mk_condition x12 x13 x14) = true.
Proof. vm_compute. reflexivity. Qed.

(* test_condition.py, line 42: rhs function *)
Example t41_test_condition : same_str (let! o := (let! x9 := (let! x1 := (Ok (OStr ($"event_id"))) in let! x2 := (Ok ONone) in mk_column x1 x2) in let! x10 := (Ok (OOp NOT_LIKE)) in let! x11 := (let! x6 := (Ok (OStr ($"toString"))) in let! x7 := (let! x3 := (let! x4 := (Ok (OStr ($"group_id"))) in let! x5 := (Ok ONone) in mk_column x4 x5) in Ok (OList [x3])) in let! x8 := (Ok ONone) in mk_function x6 x7 x8) in mk_condition x9 x10 x11) in visit false true o) ($"event_id NOT LIKE toString(group_id)") = true.
Proof. vm_compute. reflexivity. Qed.

(* test_condition.py, line 42: rhs function *)
Example t42_test_condition : equals (let! x9 := (let! x1 := (Ok (OStr ($"event_id"))) in let! x2 := (Ok ONone) in mk_column x1 x2) in let! x10 := (Ok (OOp NOT_LIKE)) in let! x11 := (let! x6 := (Ok (OStr ($"toString"))) in let! x7 := (let! x3 := (let! x4 := (Ok (OStr ($"group_id"))) in let! x5 := (Ok ONone) in mk_column x4 x5) in Ok (OList [x3])) in let! x8 := (Ok ONone) in mk_function x6 x7 x8) in mk_condition x9 x10 x11) (let! x20 := (let! x12 := (Ok (OStr ($"event_id"))) in let! x13 := (Ok ONone) in mk_column x12 x13) in let! x21 := (Ok (OOp NOT_LIKE)) in let! x22 := (let! x17 := (Ok (OStr ($"toString"))) in let! x18 := (let! x14 := (let! x15 := (Ok (OStr ($"group_id"))) in let! x16 := (Ok ONone) in mk_column x15 x16) in Ok (OList [x14])) in let! x19 := (Ok ONone) in mk_function x17 x18 x19) in mk_condition x20 x21 x22) = true.
Proof. vm_compute. reflexivity. Qed.

(* test_condition.py, line 53: unary condition test *)
Example t43_test_condition : same_str (let! o := (let! x3 := (let! x1 := (Ok (OStr ($"event_id"))) in let! x2 := (Ok ONone) in mk_column x1 x2) in let! x4 := (Ok (OOp IS_NULL)) in let! x5 := (Ok ONone) in mk_condition x3 x4 x5) in visit false true o) ($"event_id IS NULL") = true.
Proof. vm_compute. reflexivity. Qed.

(* test_condition.py, line 53: unary condition test *)
Example t44_test_condition : equals (let! x3 := (let! x1 := (Ok (OStr ($"event_id"))) in let! x2 := (Ok ONone) in mk_column x1 x2) in let! x4 := (Ok (OOp IS_NULL)) in let! x5 := (Ok ONone) in mk_condition x3 x4 x5) (let! x8 := (let! x6 := (Ok (OStr ($"event_id"))) in let! x7 := (Ok ONone) in mk_column x6 x7) in let! x9 := (Ok (OOp IS_NULL)) in let! x10 := (Ok ONone) in mk_condition x8 x9 x10) = true.
Proof. vm_compute. reflexivity. Qed.

(* test_condition.py, line 60: unary too many conditions *)
Example t45_test_condition : fails (let! x3 := (let! x1 := (Ok (OStr ($"foo"))) in let! x2 := (Ok ONone) in mk_column x1 x2) in let! x4 := (Ok (OOp IS_NULL)) in let! x5 := (Ok (OStr ($"foo"))) in mk_condition x3 x4 x5) (fun e => match e with InvalidConditionError => true | _ => false end) = true.
Proof. vm_compute. reflexivity. Qed.

(* test_condition.py, line 69: lhs invalid type *)
Example t46_test_condition : fails (let! x1 := (Ok (OStr ($"foo"))) in let! x2 := (Ok (OOp EQ)) in let! x3 := (Ok (OStr ($"foo"))) in mk_condition x1 x2 x3) (fun e => match e with InvalidConditionError => true | _ => false end) = true.
Proof. vm_compute. reflexivity. Qed.

(* test_condition.py, line 78: op invalid type *)
Example t47_test_condition : fails (let! x5 := (let! x1 := (Ok (OStr ($"foo"))) in let! x2 := (Ok ONone) in mk_column x1 x2) in let! x6 := (let! x3 := (Ok (OStr ($"bar"))) in let! x4 := (Ok ONone) in mk_column x3 x4) in let! x7 := (Ok (OStr ($"foo"))) in mk_condition x5 x6 x7) (fun e => match e with InvalidConditionError => true | _ => false end) = true.
Proof. vm_compute. reflexivity. Qed.

(* test_condition.py, line 87: rhs invalid type *)
Example t48_test_condition : fails (let! x3 := (let! x1 := (Ok (OStr ($"foo"))) in let! x2 := (Ok ONone) in mk_column x1 x2) in let! x4 := (Ok (OOp EQ)) in let! x5 := (Ok (OOp EQ)) in mk_condition x3 x4 x5) (fun e => match e with InvalidConditionError => true | _ => false end) = true.
Proof. vm_compute. reflexivity. Qed.

(* test_condition.py, line 122: basic boolean test *)
Example t49_test_condition : same_str (let! o := (let! x13 := (Ok (OBoolOp OR)) in let! x14 := (let! x1 := (let! x4 := (let! x2 := (Ok (OStr ($"a"))) in let! x3 := (Ok ONone) in mk_column x2 x3) in let! x5 := (Ok (OOp EQ)) in let! x6 := (Ok (OInt (1))) in mk_condition x4 x5 x6) in let! x7 := (let! x10 := (let! x8 := (Ok (OStr ($"a"))) in let! x9 := (Ok ONone) in mk_column x8 x9) in let! x11 := (Ok (OOp EQ)) in let! x12 := (Ok (OInt (2))) in mk_condition x10 x11 x12) in Ok (OList [x1; x7])) in mk_boolean_condition x13 x14) in visit false true o) ($"(a = 1 OR a = 2)") = true.
Proof. vm_compute. reflexivity. Qed.

(* test_condition.py, line 122: basic boolean test *)
Example t50_test_condition : equals (let! x13 := (Ok (OBoolOp OR)) in let! x14 := (let! x1 := (let! x4 := (let! x2 := (Ok (OStr ($"a"))) in let! x3 := (Ok ONone) in mk_column x2 x3) in let! x5 := (Ok (OOp EQ)) in let! x6 := (Ok (OInt (1))) in mk_condition x4 x5 x6) in let! x7 := (let! x10 := (let! x8 := (Ok (OStr ($"a"))) in let! x9 := (Ok ONone) in mk_column x8 x9) in let! x11 := (Ok (OOp EQ)) in let! x12 := (Ok (OInt (2))) in mk_condition x10 x11 x12) in Ok (OList [x1; x7])) in mk_boolean_condition x13 x14) (let! x27 := (Ok (OBoolOp OR)) in let! x28 := (let! x15 := (let! x18 := (let! x16 := (Ok (OStr ($"a"))) in let! x17 := (Ok ONone) in mk_column x16 x17) in let! x19 := (Ok (OOp EQ)) in let! x20 := (Ok (OInt (1))) in mk_condition x18 x19 x20) in let! x21 := (let! x24 := (let! x22 := (Ok (OStr ($"a"))) in let! x23 := (Ok ONone) in mk_column x22 x23) in let! x25 := (Ok (OOp EQ)) in let! x26 := (Ok (OInt (2))) in mk_condition x24 x25 x26) in Ok (OList [x15; x21])) in mk_boolean_condition x27 x28) = true.
Proof. vm_compute. reflexivity. Qed.

(* test_condition.py, line 135: more than two boolean test *)
Example t51_test_condition : same_str (let! o := (let! x19 := (let! x1 := (let! x4 := (let! x2 := (Ok (OStr ($"a"))) in let! x3 := (Ok ONone) in mk_column x2 x3) in let! x5 := (Ok (OOp EQ)) in let! x6 := (Ok (OInt (1))) in mk_condition x4 x5 x6) in let! x7 := (let! x10 := (let! x8 := (Ok (OStr ($"b"))) in let! x9 := (Ok ONone) in mk_column x8 x9) in let! x11 := (Ok (OOp EQ)) in let! x12 := (Ok (OInt (2))) in mk_condition x10 x11 x12) in let! x13 := (let! x16 := (let! x14 := (Ok (OStr ($"c"))) in let! x15 := (Ok ONone) in mk_column x14 x15) in let! x17 := (Ok (OOp EQ)) in let! x18 := (Ok (OInt (3))) in mk_condition x16 x17 x18) in Ok (OList [x1; x7; x13])) in mk_and x19) in visit false true o) ($"(a = 1 AND b = 2 AND c = 3)") = true.
Proof. vm_compute. reflexivity. Qed.

(* test_condition.py, line 135: more than two boolean test *)
Example t52_test_condition : equals (let! x19 := (let! x1 := (let! x4 := (let! x2 := (Ok (OStr ($"a"))) in let! x3 := (Ok ONone) in mk_column x2 x3) in let! x5 := (Ok (OOp EQ)) in let! x6 := (Ok (OInt (1))) in mk_condition x4 x5 x6) in let! x7 := (let! x10 := (let! x8 := (Ok (OStr ($"b"))) in let! x9 := (Ok ONone) in mk_column x8 x9) in let! x11 := (Ok (OOp EQ)) in let! x12 := (Ok (OInt (2))) in mk_condition x10 x11 x12) in let! x13 := (let! x16 := (let! x14 := (Ok (OStr ($"c"))) in let! x15 := (Ok ONone) in mk_column x14 x15) in let! x17 := (Ok (OOp EQ)) in let! x18 := (Ok (OInt (3))) in mk_condition x16 x17 x18) in Ok (OList [x1; x7; x13])) in mk_and x19) (let! x38 := (let! x20 := (let! x23 := (let! x21 := (Ok (OStr ($"a"))) in let! x22 := (Ok ONone) in mk_column x21 x22) in let! x24 := (Ok (OOp EQ)) in let! x25 := (Ok (OInt (1))) in mk_condition x23 x24 x25) in let! x26 := (let! x29 := (let! x27 := (Ok (OStr ($"b"))) in let! x28 := (Ok ONone) in mk_column x27 x28) in let! x30 := (Ok (OOp EQ)) in let! x31 := (Ok (OInt (2))) in mk_condition x29 x30 x31) in let! x32 := (let! x35 := (let! x33 := (Ok (OStr ($"c"))) in let! x34 := (Ok ONone) in mk_column x33 x34) in let! x36 := (Ok (OOp EQ)) in let! x37 := (Ok (OInt (3))) in mk_condition x35 x36 x37) in Ok (OList [x20; x26; x32])) in mk_and x38) = true.
Proof. vm_compute. reflexivity. Qed.

(* test_condition.py, line 154: nested boolean test *)
Example t53_test_condition : same_str (let! o := (let! x35 := (let! x1 := (let! x4 := (let! x2 := (Ok (OStr ($"a"))) in let! x3 := (Ok ONone) in mk_column x2 x3) in let! x5 := (Ok (OOp EQ)) in let! x6 := (Ok (OInt (1))) in mk_condition x4 x5 x6) in let! x7 := (let! x20 := (let! x8 := (let! x11 := (let! x9 := (Ok (OStr ($"b"))) in let! x10 := (Ok ONone) in mk_column x9 x10) in let! x12 := (Ok (OOp EQ)) in let! x13 := (Ok (OInt (2))) in mk_condition x11 x12 x13) in let! x14 := (let! x17 := (let! x15 := (Ok (OStr ($"c"))) in let! x16 := (Ok ONone) in mk_column x15 x16) in let! x18 := (Ok (OOp EQ)) in let! x19 := (Ok (OInt (3))) in mk_condition x17 x18 x19) in Ok (OList [x8; x14])) in mk_or x20) in let! x21 := (let! x34 := (let! x22 := (let! x25 := (let! x23 := (Ok (OStr ($"d"))) in let! x24 := (Ok ONone) in mk_column x23 x24) in let! x26 := (Ok (OOp EQ)) in let! x27 := (Ok (OInt (4))) in mk_condition x25 x26 x27) in let! x28 := (let! x31 := (let! x29 := (Ok (OStr ($"e"))) in let! x30 := (Ok ONone) in mk_column x29 x30) in let! x32 := (Ok (OOp EQ)) in let! x33 := (Ok (OInt (5))) in mk_condition x31 x32 x33) in Ok (OList [x22; x28])) in mk_and x34) in Ok (OList [x1; x7; x21])) in mk_and x35) in visit false true o) ($"(a = 1 AND (b = 2 OR c = 3) AND (d = 4 AND e = 5))") = true.
Proof. vm_compute. reflexivity. Qed.

(* test_condition.py, line 154: nested boolean test *)
Example t54_test_condition : equals (let! x35 := (let! x1 := (let! x4 := (let! x2 := (Ok (OStr ($"a"))) in let! x3 := (Ok ONone) in mk_column x2 x3) in let! x5 := (Ok (OOp EQ)) in let! x6 := (Ok (OInt (1))) in mk_condition x4 x5 x6) in let! x7 := (let! x20 := (let! x8 := (let! x11 := (let! x9 := (Ok (OStr ($"b"))) in let! x10 := (Ok ONone) in mk_column x9 x10) in let! x12 := (Ok (OOp EQ)) in let! x13 := (Ok (OInt (2))) in mk_condition x11 x12 x13) in let! x14 := (let! x17 := (let! x15 := (Ok (OStr ($"c"))) in let! x16 := (Ok ONone) in mk_column x15 x16) in let! x18 := (Ok (OOp EQ)) in let! x19 := (Ok (OInt (3))) in mk_condition x17 x18 x19) in Ok (OList [x8; x14])) in mk_or x20) in let! x21 := (let! x34 := (let! x22 := (let! x25 := (let! x23 := (Ok (OStr ($"d"))) in let! x24 := (Ok ONone) in mk_column x23 x24) in let! x26 := (Ok (OOp EQ)) in let! x27 := (Ok (OInt (4))) in mk_condition x25 x26 x27) in let! x28 := (let! x31 := (let! x29 := (Ok (OStr ($"e"))) in let! x30 := (Ok ONone) in mk_column x29 x30) in let! x32 := (Ok (OOp EQ)) in let! x33 := (Ok (OInt (5))) in mk_condition x31 x32 x33) in Ok (OList [x22; x28])) in mk_and x34) in Ok (OList [x1; x7; x21])) in mk_and x35) (let! x70 := (let! x36 := (let! x39 := (let! x37 := (Ok (OStr ($"a"))) in let! x38 := (Ok ONone) in mk_column x37 x38) in let! x40 := (Ok (OOp EQ)) in let! x41 := (Ok (OInt (1))) in mk_condition x39 x40 x41) in let! x42 := (let! x55 := (let! x43 := (let! x46 := (let! x44 := (Ok (OStr ($"b"))) in let! x45 := (Ok ONone) in mk_column x44 x45) in let! x47 := (Ok (OOp EQ)) in let! x48 := (Ok (OInt (2))) in mk_condition x46 x47 x48) in let! x49 := (let! x52 := (let! x50 := (Ok (OStr ($"c"))) in let! x51 := (Ok ONone) in mk_column x50 x51) in let! x53 := (Ok (OOp EQ)) in let! x54 := (Ok (OInt (3))) in mk_condition x52 x53 x54) in Ok (OList [x43; x49])) in mk_or x55) in let! x56 := (let! x69 := (let! x57 := (let! x60 := (let! x58 := (Ok (OStr ($"d"))) in let! x59 := (Ok ONone) in mk_column x58 x59) in let! x61 := (Ok (OOp EQ)) in let! x62 := (Ok (OInt (4))) in mk_condition x60 x61 x62) in let! x63 := (let! x66 := (let! x64 := (Ok (OStr ($"e"))) in let! x65 := (Ok ONone) in mk_column x64 x65) in let! x67 := (Ok (OOp EQ)) in let! x68 := (Ok (OInt (5))) in mk_condition x66 x67 x68) in Ok (OList [x57; x63])) in mk_and x69) in Ok (OList [x36; x42; x56])) in mk_and x70) = true.
Proof. vm_compute. reflexivity. Qed.

(* test_condition.py, line 193: invalid op *)
Example t55_test_condition : fails (let! x13 := (Ok (OStr ($"or"))) in let! x14 := (let! x1 := (let! x4 := (let! x2 := (Ok (OStr ($"a"))) in let! x3 := (Ok ONone) in mk_column x2 x3) in let! x5 := (Ok (OOp EQ)) in let! x6 := (Ok (OInt (1))) in mk_condition x4 x5 x6) in let! x7 := (let! x10 := (let! x8 := (Ok (OStr ($"a"))) in let! x9 := (Ok ONone) in mk_column x8 x9) in let! x11 := (Ok (OOp EQ)) in let! x12 := (Ok (OInt (2))) in mk_condition x10 x11 x12) in Ok (OList [x1; x7])) in mk_boolean_condition x13 x14) (fun e => match e with InvalidConditionError => true | _ => false end) = true.
Proof. vm_compute. reflexivity. Qed.

(* test_condition.py, line 205: not a list *)
Example t56_test_condition : fails (let! x6 := (let! x3 := (let! x1 := (Ok (OStr ($"a"))) in let! x2 := (Ok ONone) in mk_column x1 x2) in let! x4 := (Ok (OOp EQ)) in let! x5 := (Ok (OInt (1))) in mk_condition x3 x4 x5) in mk_and x6) (fun e => match e with InvalidConditionError => true | _ => false end) = true.
Proof. vm_compute. reflexivity. Qed.

(* test_condition.py, line 214: only one *)
Example t57_test_condition : fails (let! x7 := (Ok (OBoolOp OR)) in let! x8 := (let! x1 := (let! x4 := (let! x2 := (Ok (OStr ($"a"))) in let! x3 := (Ok ONone) in mk_column x2 x3) in let! x5 := (Ok (OOp EQ)) in let! x6 := (Ok (OInt (1))) in mk_condition x4 x5 x6) in Ok (OList [x1])) in mk_boolean_condition x7 x8) (fun e => match e with InvalidConditionError => true | _ => false end) = true.
Proof. vm_compute. reflexivity. Qed.

(* test_condition.py, line 221: not all conditions *)
Example t58_test_condition : fails (let! x10 := (let! x1 := (let! x4 := (let! x2 := (Ok (OStr ($"a"))) in let! x3 := (Ok ONone) in mk_column x2 x3) in let! x5 := (Ok (OOp EQ)) in let! x6 := (Ok (OInt (1))) in mk_condition x4 x5 x6) in let! x7 := (let! x8 := (Ok (OStr ($"event_id"))) in let! x9 := (Ok ONone) in mk_column x8 x9) in Ok (OList [x1; x7])) in mk_or x10) (fun e => match e with InvalidConditionError => true | _ => false end) = true.
Proof. vm_compute. reflexivity. Qed.

(* test_function.py, line 19: basic function test *)
Example t59_test_function : same_str (let! o := (let! x4 := (Ok (OStr ($"toString"))) in let! x5 := (let! x1 := (let! x2 := (Ok (OStr ($"event_id"))) in let! x3 := (Ok ONone) in mk_column x2 x3) in Ok (OList [x1])) in let! x6 := (Ok (OStr ($"event_id_str"))) in mk_function x4 x5 x6) in visit false true o) ($"toString(event_id) AS `event_id_str`") = true.
Proof. vm_compute. reflexivity. Qed.

(* test_function.py, line 19: basic function test *)
Example t60_test_function : equals (let! x4 := (Ok (OStr ($"toString"))) in let! x5 := (let! x1 := (let! x2 := (Ok (OStr ($"event_id"))) in let! x3 := (Ok ONone) in mk_column x2 x3) in Ok (OList [x1])) in let! x6 := (Ok (OStr ($"event_id_str"))) in mk_function x4 x5 x6) (let! x10 := (Ok (OStr ($"toString"))) in let! x11 := (let! x7 := (let! x8 := (Ok (OStr ($"event_id"))) in let! x9 := (Ok ONone) in mk_column x8 x9) in Ok (OList [x7])) in let! x12 := (Ok (OStr ($"event_id_str"))) in mk_function x10 x11 x12) = true.
Proof. vm_compute. reflexivity. Qed.

(* test_function.py, line 26: no alias required *)
Example t61_test_function : same_str (let! o := (let! x4 := (Ok (OStr ($"toString"))) in let! x5 := (let! x1 := (let! x2 := (Ok (OStr ($"event_id"))) in let! x3 := (Ok ONone) in mk_column x2 x3) in Ok (OList [x1])) in let! x6 := (Ok ONone) in mk_function x4 x5 x6) in visit false true o) ($"toString(event_id)") = true.
Proof. vm_compute. reflexivity. Qed.

(* test_function.py, line 26: no alias required *)
Example t62_test_function : equals (let! x4 := (Ok (OStr ($"toString"))) in let! x5 := (let! x1 := (let! x2 := (Ok (OStr ($"event_id"))) in let! x3 := (Ok ONone) in mk_column x2 x3) in Ok (OList [x1])) in let! x6 := (Ok ONone) in mk_function x4 x5 x6) (let! x10 := (Ok (OStr ($"toString"))) in let! x11 := (let! x7 := (let! x8 := (Ok (OStr ($"event_id"))) in let! x9 := (Ok ONone) in mk_column x8 x9) in Ok (OList [x7])) in let! x12 := (Ok ONone) in mk_function x10 x11 x12) = true.
Proof. vm_compute. reflexivity. Qed.

(* test_function.py, line 33: all possible parameter types *)
Example t63_test_function : same_str (let! o := (let! x13 := (Ok (OStr ($"someFunc"))) in let! x14 := (let! x1 := (let! x2 := (Ok (OStr ($"event_id"))) in let! x3 := (Ok ONone) in mk_column x2 x3) in let! x4 := (Ok ONone) in let! x5 := (Ok (OStr ($"stuff"))) in let! x6 := (let! x10 := (Ok (OStr ($"toString"))) in let! x11 := (let! x7 := (let! x8 := (Ok (OStr ($"event_id"))) in let! x9 := (Ok ONone) in mk_column x8 x9) in Ok (OList [x7])) in let! x12 := (Ok (OStr ($"event_id_str"))) in mk_function x10 x11 x12) in Ok (OList [x1; x4; x5; x6])) in let! x15 := (Ok (OStr ($"someFunc"))) in mk_function x13 x14 x15) in visit false true o) ($"someFunc(event_id, NULL, 'stuff', toString(event_id) AS `event_id_str`) AS `someFunc`") = true.
Proof. vm_compute. reflexivity. Qed.

(* test_function.py, line 33: all possible parameter types *)
Example t64_test_function : equals (let! x13 := (Ok (OStr ($"someFunc"))) in let! x14 := (let! x1 := (let! x2 := (Ok (OStr ($"event_id"))) in let! x3 := (Ok ONone) in mk_column x2 x3) in let! x4 := (Ok ONone) in let! x5 := (Ok (OStr ($"stuff"))) in let! x6 := (let! x10 := (Ok (OStr ($"toString"))) in let! x11 := (let! x7 := (let! x8 := (Ok (OStr ($"event_id"))) in let! x9 := (Ok ONone) in mk_column x8 x9) in Ok (OList [x7])) in let! x12 := (Ok (OStr ($"event_id_str"))) in mk_function x10 x11 x12) in Ok (OList [x1; x4; x5; x6])) in let! x15 := (Ok (OStr ($"someFunc"))) in mk_function x13 x14 x15) (let! x28 := (Ok (OStr ($"someFunc"))) in let! x29 := (let! x16 := (let! x17 := (Ok (OStr ($"event_id"))) in let! x18 := (Ok ONone) in mk_column x17 x18) in let! x19 := (Ok ONone) in let! x20 := (Ok (OStr ($"stuff"))) in let! x21 := (let! x25 := (Ok (OStr ($"toString"))) in let! x26 := (let! x22 := (let! x23 := (Ok (OStr ($"event_id"))) in let! x24 := (Ok ONone) in mk_column x23 x24) in Ok (OList [x22])) in let! x27 := (Ok (OStr ($"event_id_str"))) in mk_function x25 x26 x27) in Ok (OList [x16; x19; x20; x21])) in let! x30 := (Ok (OStr ($"someFunc"))) in mk_function x28 x29 x30) = true.
Proof. vm_compute. reflexivity. Qed.

(* test_function.py, line 58: higher order function *)
Example t65_test_function : same_str (let! o := (let! x13 := (Ok (OStr ($"arrayMap"))) in let! x14 := (let! x1 := (let! x8 := (let! x2 := (Ok (OStr ($"x"))) in Ok (OList [x2])) in let! x9 := (let! x5 := (Ok (OStr ($"identity"))) in let! x6 := (let! x3 := (let! x4 := (Ok (OStr ($"x"))) in mk_identifier x4) in Ok (OList [x3])) in let! x7 := (Ok ONone) in mk_function x5 x6 x7) in mk_lambda x8 x9) in let! x10 := (let! x11 := (Ok (OStr ($"foo"))) in let! x12 := (Ok ONone) in mk_column x11 x12) in Ok (OList [x1; x10])) in let! x15 := (Ok (OStr ($"equation[0]"))) in mk_function x13 x14 x15) in visit false true o) ($"arrayMap((`x`) -> identity(`x`), foo) AS `equation[0]`") = true.
Proof. vm_compute. reflexivity. Qed.

(* test_function.py, line 58: higher order function *)
Example t66_test_function : equals (let! x13 := (Ok (OStr ($"arrayMap"))) in let! x14 := (let! x1 := (let! x8 := (let! x2 := (Ok (OStr ($"x"))) in Ok (OList [x2])) in let! x9 := (let! x5 := (Ok (OStr ($"identity"))) in let! x6 := (let! x3 := (let! x4 := (Ok (OStr ($"x"))) in mk_identifier x4) in Ok (OList [x3])) in let! x7 := (Ok ONone) in mk_function x5 x6 x7) in mk_lambda x8 x9) in let! x10 := (let! x11 := (Ok (OStr ($"foo"))) in let! x12 := (Ok ONone) in mk_column x11 x12) in Ok (OList [x1; x10])) in let! x15 := (Ok (OStr ($"equation[0]"))) in mk_function x13 x14 x15) (let! x28 := (Ok (OStr ($"arrayMap"))) in let! x29 := (let! x16 := (let! x23 := (let! x17 := (Ok (OStr ($"x"))) in Ok (OList [x17])) in let! x24 := (let! x20 := (Ok (OStr ($"identity"))) in let! x21 := (let! x18 := (let! x19 := (Ok (OStr ($"x"))) in mk_identifier x19) in Ok (OList [x18])) in let! x22 := (Ok ONone) in mk_function x20 x21 x22) in mk_lambda x23 x24) in let! x25 := (let! x26 := (Ok (OStr ($"foo"))) in let! x27 := (Ok ONone) in mk_column x26 x27) in Ok (OList [x16; x25])) in let! x30 := (Ok (OStr ($"equation[0]"))) in mk_function x28 x29 x30) = true.
Proof. vm_compute. reflexivity. Qed.

(* test_function.py, line 73: alias with square brackets *)
Example t67_test_function : same_str (let! o := (let! x4 := (Ok (OStr ($"foo"))) in let! x5 := (let! x1 := (let! x2 := (Ok (OStr ($"foo"))) in let! x3 := (Ok ONone) in mk_column x2 x3) in Ok (OList [x1])) in let! x6 := (Ok (OStr ($"equation[0]"))) in mk_function x4 x5 x6) in visit false true o) ($"foo(foo) AS `equation[0]`") = true.
Proof. vm_compute. reflexivity. Qed.

(* test_function.py, line 73: alias with square brackets *)
Example t68_test_function : equals (let! x4 := (Ok (OStr ($"foo"))) in let! x5 := (let! x1 := (let! x2 := (Ok (OStr ($"foo"))) in let! x3 := (Ok ONone) in mk_column x2 x3) in Ok (OList [x1])) in let! x6 := (Ok (OStr ($"equation[0]"))) in mk_function x4 x5 x6) (let! x10 := (Ok (OStr ($"foo"))) in let! x11 := (let! x7 := (let! x8 := (Ok (OStr ($"foo"))) in let! x9 := (Ok ONone) in mk_column x8 x9) in Ok (OList [x7])) in let! x12 := (Ok (OStr ($"equation[0]"))) in mk_function x10 x11 x12) = true.
Proof. vm_compute. reflexivity. Qed.

(* test_function.py, line 80: alias with parenthesis *)
Example t69_test_function : same_str (let! o := (let! x4 := (Ok (OStr ($"sum"))) in let! x5 := (let! x1 := (let! x2 := (Ok (OStr ($"value"))) in let! x3 := (Ok ONone) in mk_column x2 x3) in Ok (OList [x1])) in let! x6 := (Ok (OStr ($"sum(value)"))) in mk_function x4 x5 x6) in visit false true o) ($"sum(value) AS `sum(value)`") = true.
Proof. vm_compute. reflexivity. Qed.

(* test_function.py, line 80: alias with parenthesis *)
Example t70_test_function : equals (let! x4 := (Ok (OStr ($"sum"))) in let! x5 := (let! x1 := (let! x2 := (Ok (OStr ($"value"))) in let! x3 := (Ok ONone) in mk_column x2 x3) in Ok (OList [x1])) in let! x6 := (Ok (OStr ($"sum(value)"))) in mk_function x4 x5 x6) (let! x10 := (Ok (OStr ($"sum"))) in let! x11 := (let! x7 := (let! x8 := (Ok (OStr ($"value"))) in let! x9 := (Ok ONone) in mk_column x8 x9) in Ok (OList [x7])) in let! x12 := (Ok (OStr ($"sum(value)"))) in mk_function x10 x11 x12) = true.
Proof. vm_compute. reflexivity. Qed.

(* test_function.py, line 87: invalid function *)
Example t71_test_function : fails (let! x2 := (Ok (OInt (1))) in let! x3 := (let! x1 := (Ok (OStr ($"foo"))) in Ok (OList [x1])) in let! x4 := (Ok (OStr ($"invalid"))) in mk_function x2 x3 x4) (fun e => match e with InvalidFunctionError => true | _ => false end) = true.
Proof. vm_compute. reflexivity. Qed.

(* test_function.py, line 94: empty function *)
Example t72_test_function : fails (let! x2 := (Ok (OStr ($""))) in let! x3 := (let! x1 := (Ok (OStr ($"foo"))) in Ok (OList [x1])) in let! x4 := (Ok (OStr ($"invalid"))) in mk_function x2 x3 x4) (fun e => match e with InvalidFunctionError => true | _ => false end) = true.
Proof. vm_compute. reflexivity. Qed.

(* test_function.py, line 101: empty function *)
Example t73_test_function : fails (let! x2 := (Ok (OStr [161; 97; 109; 105; 103; 111; 33]%N)) in let! x3 := (let! x1 := (Ok (OStr ($"foo"))) in Ok (OList [x1])) in let! x4 := (Ok (OStr ($"invalid"))) in mk_function x2 x3 x4) (fun e => match e with InvalidFunctionError => true | _ => false end) = true.
Proof. vm_compute. reflexivity. Qed.

(* test_function.py, line 108: invalid alias type *)
Example t74_test_function : fails (let! x2 := (Ok (OStr ($"foo"))) in let! x3 := (let! x1 := (Ok (OStr ($"foo"))) in Ok (OList [x1])) in let! x4 := (Ok (OInt (10))) in mk_function x2 x3 x4) (fun e => match e with InvalidFunctionError => true | _ => false end) = true.
Proof. vm_compute. reflexivity. Qed.

(* test_function.py, line 117: empty alias *)
Example t75_test_function : fails (let! x2 := (Ok (OStr ($"foo"))) in let! x3 := (let! x1 := (Ok (OStr ($"foo"))) in Ok (OList [x1])) in let! x4 := (Ok (OStr ($""))) in mk_function x2 x3 x4) (fun e => match e with InvalidFunctionError => true | _ => false end) = true.
Proof. vm_compute. reflexivity. Qed.

(* test_function.py, line 126: invalid alias *)
Example t76_test_function : fails (let! x2 := (Ok (OStr ($"foo"))) in let! x3 := (let! x1 := (Ok (OStr ($"foo"))) in Ok (OList [x1])) in let! x4 := (Ok (OStr ($"'amigo!"))) in mk_function x2 x3 x4) (fun e => match e with InvalidFunctionError => true | _ => false end) = true.
Proof. vm_compute. reflexivity. Qed.

(* test_function.py, line 135: invalid function parameter type *)
Example t77_test_function : fails (let! x6 := (Ok (OStr ($"toString"))) in let! x7 := (let! x1 := (Ok (OStr ($"foo"))) in let! x2 := (Ok (OOp EQ)) in let! x3 := (let! x4 := (Ok (OStr ($"foo"))) in let! x5 := (Ok ONone) in mk_column x4 x5) in Ok (OList [x1; x2; x3])) in let! x8 := (Ok (OStr ($"invalid"))) in mk_function x6 x7 x8) (fun e => match e with InvalidFunctionError => true | _ => false end) = true.
Proof. vm_compute. reflexivity. Qed.

(* test_function.py, line 144: invalid function parameter *)
Example t78_test_function : fails (let! x5 := (Ok (OStr ($"toString"))) in let! x6 := (let! x1 := (Ok (OStr ($"foo"))) in let! x2 := (let! x3 := (Ok (OStr [161; 97; 109; 105; 103; 111; 33]%N)) in let! x4 := (Ok ONone) in mk_column x3 x4) in Ok (OList [x1; x2])) in let! x7 := (Ok (OStr ($"invalid"))) in mk_function x5 x6 x7) (fun e => match e with InvalidColumnError => true | _ => false end) = true.
Proof. vm_compute. reflexivity. Qed.

(* test_function.py, line 177: all curried possible parameter types *)
Example t79_test_function : same_str (let! o := (let! x31 := (Ok (OStr ($"someFunc"))) in let! x32 := (let! x1 := (let! x2 := (Ok (OStr ($"event_id"))) in let! x3 := (Ok ONone) in mk_column x2 x3) in let! x4 := (Ok ONone) in let! x5 := (Ok (OStr ($"stuff"))) in Ok (OList [x1; x4; x5])) in let! x33 := (let! x6 := (let! x7 := (Ok (OStr ($"event_id"))) in let! x8 := (Ok ONone) in mk_column x7 x8) in let! x9 := (Ok ONone) in let! x10 := (Ok (OStr ($"stuff"))) in let! x11 := (let! x12 := (Ok (OInt (1))) in let! x13 := (Ok (OInt (2))) in let! x14 := (Ok (OInt (3))) in Ok (OList [x12; x13; x14])) in let! x15 := (let! x19 := (Ok (OStr ($"toString"))) in let! x20 := (let! x16 := (let! x17 := (Ok (OStr ($"event_id"))) in let! x18 := (Ok ONone) in mk_column x17 x18) in Ok (OList [x16])) in let! x21 := (Ok (OStr ($"event_id_str"))) in mk_function x19 x20 x21) in let! x22 := (let! x27 := (Ok (OStr ($"quantile"))) in let! x28 := (let! x23 := (Ok (OFloat (FFin false 1%N (-1)))) in Ok (OList [x23])) in let! x29 := (let! x24 := (let! x25 := (Ok (OStr ($"duration"))) in let! x26 := (Ok ONone) in mk_column x25 x26) in Ok (OList [x24])) in let! x30 := (Ok (OStr ($"cur_str"))) in mk_curried x27 x28 x29 x30) in Ok (OList [x6; x9; x10; x11; x15; x22])) in let! x34 := (Ok (OStr ($"someFunc"))) in mk_curried x31 x32 x33 x34) in visit false true o) ($"someFunc(event_id, NULL, 'stuff')(event_id, NULL, 'stuff', array(1, 2, 3), toString(event_id) AS `event_id_str`, quantile(0.5)(duration) AS `cur_str`) AS `someFunc`") = true.
Proof. vm_compute. reflexivity. Qed.

(* test_function.py, line 177: all curried possible parameter types *)
Example t80_test_function : equals (let! x31 := (Ok (OStr ($"someFunc"))) in let! x32 := (let! x1 := (let! x2 := (Ok (OStr ($"event_id"))) in let! x3 := (Ok ONone) in mk_column x2 x3) in let! x4 := (Ok ONone) in let! x5 := (Ok (OStr ($"stuff"))) in Ok (OList [x1; x4; x5])) in let! x33 := (let! x6 := (let! x7 := (Ok (OStr ($"event_id"))) in let! x8 := (Ok ONone) in mk_column x7 x8) in let! x9 := (Ok ONone) in let! x10 := (Ok (OStr ($"stuff"))) in let! x11 := (let! x12 := (Ok (OInt (1))) in let! x13 := (Ok (OInt (2))) in let! x14 := (Ok (OInt (3))) in Ok (OList [x12; x13; x14])) in let! x15 := (let! x19 := (Ok (OStr ($"toString"))) in let! x20 := (let! x16 := (let! x17 := (Ok (OStr ($"event_id"))) in let! x18 := (Ok ONone) in mk_column x17 x18) in Ok (OList [x16])) in let! x21 := (Ok (OStr ($"event_id_str"))) in mk_function x19 x20 x21) in let! x22 := (let! x27 := (Ok (OStr ($"quantile"))) in let! x28 := (let! x23 := (Ok (OFloat (FFin false 1%N (-1)))) in Ok (OList [x23])) in let! x29 := (let! x24 := (let! x25 := (Ok (OStr ($"duration"))) in let! x26 := (Ok ONone) in mk_column x25 x26) in Ok (OList [x24])) in let! x30 := (Ok (OStr ($"cur_str"))) in mk_curried x27 x28 x29 x30) in Ok (OList [x6; x9; x10; x11; x15; x22])) in let! x34 := (Ok (OStr ($"someFunc"))) in mk_curried x31 x32 x33 x34) (let! x65 := (Ok (OStr ($"someFunc"))) in let! x66 := (let! x35 := (let! x36 := (Ok (OStr ($"event_id"))) in let! x37 := (Ok ONone) in mk_column x36 x37) in let! x38 := (Ok ONone) in let! x39 := (Ok (OStr ($"stuff"))) in Ok (OList [x35; x38; x39])) in let! x67 := (let! x40 := (let! x41 := (Ok (OStr ($"event_id"))) in let! x42 := (Ok ONone) in mk_column x41 x42) in let! x43 := (Ok ONone) in let! x44 := (Ok (OStr ($"stuff"))) in let! x45 := (let! x46 := (Ok (OInt (1))) in let! x47 := (Ok (OInt (2))) in let! x48 := (Ok (OInt (3))) in Ok (OList [x46; x47; x48])) in let! x49 := (let! x53 := (Ok (OStr ($"toString"))) in let! x54 := (let! x50 := (let! x51 := (Ok (OStr ($"event_id"))) in let! x52 := (Ok ONone) in mk_column x51 x52) in Ok (OList [x50])) in let! x55 := (Ok (OStr ($"event_id_str"))) in mk_function x53 x54 x55) in let! x56 := (let! x61 := (Ok (OStr ($"quantile"))) in let! x62 := (let! x57 := (Ok (OFloat (FFin false 1%N (-1)))) in Ok (OList [x57])) in let! x63 := (let! x58 := (let! x59 := (Ok (OStr ($"duration"))) in let! x60 := (Ok ONone) in mk_column x59 x60) in Ok (OList [x58])) in let! x64 := (Ok (OStr ($"cur_str"))) in mk_curried x61 x62 x63 x64) in Ok (OList [x40; x43; x44; x45; x49; x56])) in let! x68 := (Ok (OStr ($"someFunc"))) in mk_curried x65 x66 x67 x68) = true.
Proof. vm_compute. reflexivity. Qed.

(* test_function.py, line 208: zero length initializers *)
Example t81_test_function : same_str (let! o := (let! x4 := (Ok (OStr ($"someFunc"))) in let! x5 := (Ok (OList [])) in let! x6 := (let! x1 := (let! x2 := (Ok (OStr ($"event_id"))) in let! x3 := (Ok ONone) in mk_column x2 x3) in Ok (OList [x1])) in let! x7 := (Ok (OStr ($"someFunc"))) in mk_curried x4 x5 x6 x7) in visit false true o) ($"someFunc()(event_id) AS `someFunc`") = true.
Proof. vm_compute. reflexivity. Qed.

(* test_function.py, line 208: zero length initializers *)
Example t82_test_function : equals (let! x4 := (Ok (OStr ($"someFunc"))) in let! x5 := (Ok (OList [])) in let! x6 := (let! x1 := (let! x2 := (Ok (OStr ($"event_id"))) in let! x3 := (Ok ONone) in mk_column x2 x3) in Ok (OList [x1])) in let! x7 := (Ok (OStr ($"someFunc"))) in mk_curried x4 x5 x6 x7) (let! x11 := (Ok (OStr ($"someFunc"))) in let! x12 := (Ok (OList [])) in let! x13 := (let! x8 := (let! x9 := (Ok (OStr ($"event_id"))) in let! x10 := (Ok ONone) in mk_column x9 x10) in Ok (OList [x8])) in let! x14 := (Ok (OStr ($"someFunc"))) in mk_curried x11 x12 x13 x14) = true.
Proof. vm_compute. reflexivity. Qed.

(* test_function.py, line 220: None initializers *)
Example t83_test_function : same_str (let! o := (let! x4 := (Ok (OStr ($"someFunc"))) in let! x5 := (Ok ONone) in let! x6 := (let! x1 := (let! x2 := (Ok (OStr ($"event_id"))) in let! x3 := (Ok ONone) in mk_column x2 x3) in Ok (OList [x1])) in let! x7 := (Ok (OStr ($"someFunc"))) in mk_curried x4 x5 x6 x7) in visit false true o) ($"someFunc(event_id) AS `someFunc`") = true.
Proof. vm_compute. reflexivity. Qed.

(* test_function.py, line 220: None initializers *)
Example t84_test_function : equals (let! x4 := (Ok (OStr ($"someFunc"))) in let! x5 := (Ok ONone) in let! x6 := (let! x1 := (let! x2 := (Ok (OStr ($"event_id"))) in let! x3 := (Ok ONone) in mk_column x2 x3) in Ok (OList [x1])) in let! x7 := (Ok (OStr ($"someFunc"))) in mk_curried x4 x5 x6 x7) (let! x11 := (Ok (OStr ($"someFunc"))) in let! x12 := (Ok ONone) in let! x13 := (let! x8 := (let! x9 := (Ok (OStr ($"event_id"))) in let! x10 := (Ok ONone) in mk_column x9 x10) in Ok (OList [x8])) in let! x14 := (Ok (OStr ($"someFunc"))) in mk_curried x11 x12 x13 x14) = true.
Proof. vm_compute. reflexivity. Qed.

(* test_function.py, line 232: invalid initializers *)
Example t85_test_function : fails (let! x6 := (Ok (OStr ($"foo"))) in let! x7 := (let! x1 := (let! x2 := (Ok (OInt (1))) in let! x3 := (Ok (OInt (2))) in let! x4 := (Ok (OInt (3))) in Ok (OList [x2; x3; x4])) in Ok (OList [x1])) in let! x8 := (let! x5 := (Ok (OStr ($"foo"))) in Ok (OList [x5])) in let! x9 := (Ok (OStr ($"invalid"))) in mk_curried x6 x7 x8 x9) (fun e => match e with InvalidFunctionError => true | _ => false end) = true.
Proof. vm_compute. reflexivity. Qed.

(* test_lambda.py, line 15: basic lambda *)
Example t86_test_lambda : same_str (let! o := (let! x7 := (let! x1 := (Ok (OStr ($"x"))) in Ok (OList [x1])) in let! x8 := (let! x4 := (Ok (OStr ($"identity"))) in let! x5 := (let! x2 := (let! x3 := (Ok (OStr ($"x"))) in mk_identifier x3) in Ok (OList [x2])) in let! x6 := (Ok ONone) in mk_function x4 x5 x6) in mk_lambda x7 x8) in visit false false o) ($"(`x`) -> identity(`x`)") = true.
Proof. vm_compute. reflexivity. Qed.

(* test_lambda.py, line 15: basic lambda *)
Example t87_test_lambda : equals (let! x7 := (let! x1 := (Ok (OStr ($"x"))) in Ok (OList [x1])) in let! x8 := (let! x4 := (Ok (OStr ($"identity"))) in let! x5 := (let! x2 := (let! x3 := (Ok (OStr ($"x"))) in mk_identifier x3) in Ok (OList [x2])) in let! x6 := (Ok ONone) in mk_function x4 x5 x6) in mk_lambda x7 x8) (let! x15 := (let! x9 := (Ok (OStr ($"x"))) in Ok (OList [x9])) in let! x16 := (let! x12 := (Ok (OStr ($"identity"))) in let! x13 := (let! x10 := (let! x11 := (Ok (OStr ($"x"))) in mk_identifier x11) in Ok (OList [x10])) in let! x14 := (Ok ONone) in mk_function x12 x13 x14) in mk_lambda x15 x16) = true.
Proof. vm_compute. reflexivity. Qed.

(* test_lambda.py, line 23: lambda with multiple identifiers *)
Example t88_test_lambda : same_str (let! o := (let! x10 := (let! x1 := (Ok (OStr ($"x"))) in let! x2 := (Ok (OStr ($"y"))) in Ok (OList [x1; x2])) in let! x11 := (let! x7 := (Ok (OStr ($"identity"))) in let! x8 := (let! x3 := (let! x4 := (Ok (OStr ($"x"))) in mk_identifier x4) in let! x5 := (let! x6 := (Ok (OStr ($"y"))) in mk_identifier x6) in Ok (OList [x3; x5])) in let! x9 := (Ok ONone) in mk_function x7 x8 x9) in mk_lambda x10 x11) in visit false false o) ($"(`x`, `y`) -> identity(`x`, `y`)") = true.
Proof. vm_compute. reflexivity. Qed.

(* test_lambda.py, line 23: lambda with multiple identifiers *)
Example t89_test_lambda : equals (let! x10 := (let! x1 := (Ok (OStr ($"x"))) in let! x2 := (Ok (OStr ($"y"))) in Ok (OList [x1; x2])) in let! x11 := (let! x7 := (Ok (OStr ($"identity"))) in let! x8 := (let! x3 := (let! x4 := (Ok (OStr ($"x"))) in mk_identifier x4) in let! x5 := (let! x6 := (Ok (OStr ($"y"))) in mk_identifier x6) in Ok (OList [x3; x5])) in let! x9 := (Ok ONone) in mk_function x7 x8 x9) in mk_lambda x10 x11) (let! x21 := (let! x12 := (Ok (OStr ($"x"))) in let! x13 := (Ok (OStr ($"y"))) in Ok (OList [x12; x13])) in let! x22 := (let! x18 := (Ok (OStr ($"identity"))) in let! x19 := (let! x14 := (let! x15 := (Ok (OStr ($"x"))) in mk_identifier x15) in let! x16 := (let! x17 := (Ok (OStr ($"y"))) in mk_identifier x17) in Ok (OList [x14; x16])) in let! x20 := (Ok ONone) in mk_function x18 x19 x20) in mk_lambda x21 x22) = true.
Proof. vm_compute. reflexivity. Qed.

(* test_lambda.py, line 34: lambda with nested lambdas *)
Example t90_test_lambda : same_str (let! o := (let! x16 := (let! x1 := (Ok (OStr ($"x"))) in Ok (OList [x1])) in let! x17 := (let! x13 := (Ok (OStr ($"identity"))) in let! x14 := (let! x2 := (let! x11 := (let! x3 := (Ok (OStr ($"y"))) in Ok (OList [x3])) in let! x12 := (let! x8 := (Ok (OStr ($"tuple"))) in let! x9 := (let! x4 := (let! x5 := (Ok (OStr ($"x"))) in mk_identifier x5) in let! x6 := (let! x7 := (Ok (OStr ($"y"))) in mk_identifier x7) in Ok (OList [x4; x6])) in let! x10 := (Ok ONone) in mk_function x8 x9 x10) in mk_lambda x11 x12) in Ok (OList [x2])) in let! x15 := (Ok ONone) in mk_function x13 x14 x15) in mk_lambda x16 x17) in visit false false o) ($"(`x`) -> identity((`y`) -> tuple(`x`, `y`))") = true.
Proof. vm_compute. reflexivity. Qed.

(* test_lambda.py, line 34: lambda with nested lambdas *)
Example t91_test_lambda : equals (let! x16 := (let! x1 := (Ok (OStr ($"x"))) in Ok (OList [x1])) in let! x17 := (let! x13 := (Ok (OStr ($"identity"))) in let! x14 := (let! x2 := (let! x11 := (let! x3 := (Ok (OStr ($"y"))) in Ok (OList [x3])) in let! x12 := (let! x8 := (Ok (OStr ($"tuple"))) in let! x9 := (let! x4 := (let! x5 := (Ok (OStr ($"x"))) in mk_identifier x5) in let! x6 := (let! x7 := (Ok (OStr ($"y"))) in mk_identifier x7) in Ok (OList [x4; x6])) in let! x10 := (Ok ONone) in mk_function x8 x9 x10) in mk_lambda x11 x12) in Ok (OList [x2])) in let! x15 := (Ok ONone) in mk_function x13 x14 x15) in mk_lambda x16 x17) (let! x33 := (let! x18 := (Ok (OStr ($"x"))) in Ok (OList [x18])) in let! x34 := (let! x30 := (Ok (OStr ($"identity"))) in let! x31 := (let! x19 := (let! x28 := (let! x20 := (Ok (OStr ($"y"))) in Ok (OList [x20])) in let! x29 := (let! x25 := (Ok (OStr ($"tuple"))) in let! x26 := (let! x21 := (let! x22 := (Ok (OStr ($"x"))) in mk_identifier x22) in let! x23 := (let! x24 := (Ok (OStr ($"y"))) in mk_identifier x24) in Ok (OList [x21; x23])) in let! x27 := (Ok ONone) in mk_function x25 x26 x27) in mk_lambda x28 x29) in Ok (OList [x19])) in let! x32 := (Ok ONone) in mk_function x30 x31 x32) in mk_lambda x33 x34) = true.
Proof. vm_compute. reflexivity. Qed.

(* test_lambda.py, line 51: invalid identifier *)
Example t92_test_lambda : fails (let! x7 := (let! x1 := (Ok (OInt (1))) in Ok (OList [x1])) in let! x8 := (let! x4 := (Ok (OStr ($"identity"))) in let! x5 := (let! x2 := (let! x3 := (Ok (OStr ($"x"))) in mk_identifier x3) in Ok (OList [x2])) in let! x6 := (Ok ONone) in mk_function x4 x5 x6) in mk_lambda x7 x8) (fun e => match e with InvalidLambdaError => true | _ => false end) = true.
Proof. vm_compute. reflexivity. Qed.

(* test_lambda.py, line 59: invalid identifier chars *)
Example t93_test_lambda : fails (let! x7 := (let! x1 := (Ok (OStr ($"$sdsd!"))) in Ok (OList [x1])) in let! x8 := (let! x4 := (Ok (OStr ($"identity"))) in let! x5 := (let! x2 := (let! x3 := (Ok (OStr ($"x"))) in mk_identifier x3) in Ok (OList [x2])) in let! x6 := (Ok ONone) in mk_function x4 x5 x6) in mk_lambda x7 x8) (fun e => match e with InvalidLambdaError => true | _ => false end) = true.
Proof. vm_compute. reflexivity. Qed.

(* test_lambda.py, line 67: invalid transformation *)
Example t94_test_lambda : fails (let! x4 := (let! x1 := (Ok (OStr ($"x"))) in Ok (OList [x1])) in let! x5 := (let! x2 := (Ok (OStr ($"x"))) in let! x3 := (Ok ONone) in mk_column x2 x3) in mk_lambda x4 x5) (fun e => match e with InvalidLambdaError => true | _ => false end) = true.
Proof. vm_compute. reflexivity. Qed.

(* test_scalar.py, line 11:  *)
Example t95_test_scalar : same_str (let! o := (Ok ONone) in visit false true o) ($"NULL") = true.
Proof. vm_compute. reflexivity. Qed.

(* test_scalar.py, line 12:  *)
Example t96_test_scalar : same_str (let! o := (Ok (OBool true)) in visit false true o) ($"TRUE") = true.
Proof. vm_compute. reflexivity. Qed.

(* test_scalar.py, line 13:  *)
Example t97_test_scalar : same_str (let! o := (Ok (OBool false)) in visit false true o) ($"FALSE") = true.
Proof. vm_compute. reflexivity. Qed.

(* test_scalar.py, line 14:  *)
Example t98_test_scalar : same_str (let! o := (Ok (OInt (1))) in visit false true o) ($"1") = true.
Proof. vm_compute. reflexivity. Qed.

(* test_scalar.py, line 15:  *)
Example t99_test_scalar : same_str (let! o := (Ok (OInt (1000000000000000000))) in visit false true o) ($"1000000000000000000") = true.
Proof. vm_compute. reflexivity. Qed.

(* test_scalar.py, line 16:  *)
Example t100_test_scalar : same_str (let! o := (Ok (OInt (-1000000000000000000))) in visit false true o) ($"-1000000000000000000") = true.
Proof. vm_compute. reflexivity. Qed.

(* test_scalar.py, line 17:  *)
Example t101_test_scalar : same_str (let! o := (Ok (OFloat (FFin false 1%N (0)))) in visit false true o) ($"1.0") = true.
Proof. vm_compute. reflexivity. Qed.

(* test_scalar.py, line 18:  *)
Example t102_test_scalar : same_str (let! o := (Ok (OFloat (FFin false 3537115888337719%N (-50)))) in visit false true o) ($"3.14159") = true.
Proof. vm_compute. reflexivity. Qed.

(* test_scalar.py, line 19:  *)
Example t103_test_scalar : same_str (let! o := (Ok (OFloat (FFin false 0%N (0)))) in visit false true o) ($"0.0") = true.
Proof. vm_compute. reflexivity. Qed.

(* test_scalar.py, line 20:  *)
Example t104_test_scalar : same_str (let! o := (Ok (ODate (mkDate 2020 12 25))) in visit false true o) ($"toDateTime('2020-12-25')") = true.
Proof. vm_compute. reflexivity. Qed.

(* test_scalar.py, line 21:  *)
Example t105_test_scalar : same_str (let! o := (Ok (ODateTime (mkDT (mkDate 2020 12 25) 1 12 35 81321 None))) in visit false true o) ($"toDateTime('2020-12-25T01:12:35.081321')") = true.
Proof. vm_compute. reflexivity. Qed.

(* test_scalar.py, line 25:  *)
Example t106_test_scalar : same_str (let! o := (Ok (ODateTime (mkDT (mkDate 2020 12 25) 1 12 35 81321 (Some 0)))) in visit false true o) ($"toDateTime('2020-12-25T01:12:35.081321')") = true.
Proof. vm_compute. reflexivity. Qed.

(* test_scalar.py, line 29:  *)
Example t107_test_scalar : same_str (let! o := (Ok (ODateTime (mkDT (mkDate 2020 12 25) 1 12 35 81321 (Some 18000000000)))) in visit false true o) ($"toDateTime('2020-12-24T20:12:35.081321')") = true.
Proof. vm_compute. reflexivity. Qed.

(* test_scalar.py, line 33:  *)
Example t108_test_scalar : same_str (let! o := (Ok (OStr ($"abc"))) in visit false true o) ($"'abc'") = true.
Proof. vm_compute. reflexivity. Qed.

(* test_scalar.py, line 34:  *)
Example t109_test_scalar : same_str (let! o := (Ok (OBytes [97; 98; 99]%N)) in visit false true o) ($"'abc'") = true.
Proof. vm_compute. reflexivity. Qed.

(* test_scalar.py, line 35:  *)
Example t110_test_scalar : same_str (let! o := (Ok (OStr ($"a'b''c'"))) in visit false true o) ($"'a\'b\'\'c\''") = true.
Proof. vm_compute. reflexivity. Qed.

(* test_scalar.py, line 36:  *)
Example t111_test_scalar : same_str (let! o := (Ok (OStr ($"a\''b''c'"))) in visit false true o) ($"'a\\\'\'b\'\'c\''") = true.
Proof. vm_compute. reflexivity. Qed.

(* test_scalar.py, line 37:  *)
Example t112_test_scalar : same_str (let! o := (Ok (OStr [97; 10; 98; 10; 99]%N)) in visit false true o) ($"'a\nb\nc'") = true.
Proof. vm_compute. reflexivity. Qed.

(* test_scalar.py, line 38:  *)
Example t113_test_scalar : same_str (let! o := (let! x1 := (Ok (OInt (1))) in let! x2 := (Ok (OInt (2))) in let! x3 := (Ok (OInt (3))) in Ok (OList [x1; x2; x3])) in visit false true o) ($"array(1, 2, 3)") = true.
Proof. vm_compute. reflexivity. Qed.

(* test_scalar.py, line 39:  *)
Example t114_test_scalar : same_str (let! o := (let! x1 := (let! x2 := (Ok (OInt (1))) in let! x3 := (Ok (OInt (2))) in let! x4 := (Ok ONone) in Ok (OList [x2; x3; x4])) in let! x5 := (let! x6 := (Ok ONone) in let! x7 := (Ok (OInt (5))) in let! x8 := (Ok (OInt (6))) in Ok (OList [x6; x7; x8])) in Ok (OList [x1; x5])) in visit false true o) ($"array(array(1, 2, NULL), array(NULL, 5, 6))") = true.
Proof. vm_compute. reflexivity. Qed.

(* test_scalar.py, line 42:  *)
Example t115_test_scalar : same_str (let! o := (let! x1 := (let! x2 := (Ok (OInt (1))) in let! x3 := (Ok (OInt (2))) in let! x4 := (let! x5 := (Ok (OStr ($"stuff"))) in let! x6 := (Ok ONone) in mk_column x5 x6) in Ok (OList [x2; x3; x4])) in let! x7 := (let! x8 := (let! x9 := (Ok (OStr ($"things"))) in let! x10 := (Ok ONone) in mk_column x9 x10) in let! x11 := (Ok (OInt (5))) in let! x12 := (Ok (OInt (6))) in Ok (OList [x8; x11; x12])) in Ok (OList [x1; x7])) in visit false true o) ($"array(array(1, 2, stuff), array(things, 5, 6))") = true.
Proof. vm_compute. reflexivity. Qed.

(* test_scalar.py, line 46:  *)
Example t116_test_scalar : same_str (let! o := (let! x1 := (Ok (OStr ($"a"))) in let! x2 := (Ok (OStr ($"b"))) in let! x3 := (Ok (OStr ($"c"))) in Ok (OTuple [x1; x2; x3])) in visit false true o) ($"tuple('a', 'b', 'c')") = true.
Proof. vm_compute. reflexivity. Qed.

(* test_scalar.py, line 47:  *)
Example t117_test_scalar : same_str (let! o := (let! x1 := (let! x2 := (Ok (OStr ($"a"))) in let! x3 := (Ok (OInt (1))) in let! x4 := (Ok (OBool true)) in Ok (OTuple [x2; x3; x4])) in let! x5 := (let! x6 := (Ok ONone) in let! x7 := (Ok (OStr ($"b"))) in let! x8 := (Ok ONone) in Ok (OTuple [x6; x7; x8])) in Ok (OTuple [x1; x5])) in visit false true o) ($"tuple(tuple('a', 1, TRUE), tuple(NULL, 'b', NULL))") = true.
Proof. vm_compute. reflexivity. Qed.

(* test_scalar.py, line 51:  *)
Example t118_test_scalar : same_str (let! o := (let! x1 := (let! x2 := (Ok (OStr ($"a"))) in let! x3 := (Ok (OInt (1))) in let! x4 := (Ok (OBool true)) in Ok (OTuple [x2; x3; x4])) in let! x5 := (let! x6 := (let! x7 := (Ok (OStr ($"stuff"))) in let! x8 := (Ok ONone) in mk_column x7 x8) in let! x9 := (Ok (OStr ($"b"))) in let! x10 := (Ok ONone) in Ok (OTuple [x6; x9; x10])) in Ok (OTuple [x1; x5])) in visit false true o) ($"tuple(tuple('a', 1, TRUE), tuple(stuff, 'b', NULL))") = true.
Proof. vm_compute. reflexivity. Qed.

(* test_storage.py, line 12:  *)
Example t119_test_storage : same_str (let! o := (let! x1 := (Ok (OStr ($"metric_summaries"))) in let! x2 := (Ok ONone) in let! x3 := (Ok ONone) in mk_storage x1 x2 x3) in visit false true o) ($"STORAGE(metric_summaries)") = true.
Proof. vm_compute. reflexivity. Qed.

(* test_storage.py, line 13:  *)
Example t120_test_storage : same_str (let! o := (let! x1 := (Ok (OStr ($"metric_summaries"))) in let! x2 := (Ok (OFloat (FFin false 3602879701896397%N (-55)))) in let! x3 := (Ok ONone) in mk_storage x1 x2 x3) in visit false true o) ($"STORAGE(metric_summaries SAMPLE 0.100000)") = true.
Proof. vm_compute. reflexivity. Qed.

(* test_storage.py, line 16:  *)
Example t121_test_storage : same_str (let! o := (let! x1 := (Ok (OStr ($"metric_summaries"))) in let! x2 := (Ok (OFloat (FFin false 10%N (0)))) in let! x3 := (Ok ONone) in mk_storage x1 x2 x3) in visit false true o) ($"STORAGE(metric_summaries SAMPLE 10.0)") = true.
Proof. vm_compute. reflexivity. Qed.

(* test_storage.py, line 19:  *)
Example t122_test_storage : fails (let! x1 := (Ok (OStr ($""))) in let! x2 := (Ok ONone) in let! x3 := (Ok ONone) in mk_storage x1 x2 x3) (fun e => match e with InvalidStorageError => true | _ => false end) = true.
Proof. vm_compute. reflexivity. Qed.

(* test_storage.py, line 20:  *)
Example t123_test_storage : fails (let! x1 := (Ok (OInt (1))) in let! x2 := (Ok ONone) in let! x3 := (Ok ONone) in mk_storage x1 x2 x3) (fun e => match e with InvalidStorageError => true | _ => false end) = true.
Proof. vm_compute. reflexivity. Qed.

(* test_storage.py, line 21:  *)
Example t124_test_storage : fails (let! x1 := (Ok (OStr ($"metric_summaries"))) in let! x2 := (Ok (OStr ($"0.1"))) in let! x3 := (Ok ONone) in mk_storage x1 x2 x3) (fun e => match e with InvalidStorageError => true | _ => false end) = true.
Proof. vm_compute. reflexivity. Qed.

(* test_storage.py, line 27:  *)
Example t125_test_storage : fails (let! x1 := (Ok (OStr ($"metric_summaries"))) in let! x2 := (Ok (OFloat (FFin true 3602879701896397%N (-55)))) in let! x3 := (Ok ONone) in mk_storage x1 x2 x3) (fun e => match e with InvalidStorageError => true | _ => false end) = true.
Proof. vm_compute. reflexivity. Qed.

(* test_entity.py, line 12:  *)
Example t126_test_entity : same_str (let! o := (let! x1 := (Ok (OStr ($"sessions"))) in let! x2 := (Ok ONone) in let! x3 := (Ok ONone) in let! x4 := (Ok ONone) in mk_entity x1 x2 x3 x4) in visit false true o) ($"(sessions)") = true.
Proof. vm_compute. reflexivity. Qed.

(* test_entity.py, line 13:  *)
Example t127_test_entity : same_str (let! o := (let! x1 := (Ok (OStr ($"sessions"))) in let! x2 := (Ok ONone) in let! x3 := (Ok (OFloat (FFin false 3602879701896397%N (-55)))) in let! x4 := (Ok ONone) in mk_entity x1 x2 x3 x4) in visit false true o) ($"(sessions SAMPLE 0.100000)") = true.
Proof. vm_compute. reflexivity. Qed.

(* test_entity.py, line 14:  *)
Example t128_test_entity : same_str (let! o := (let! x1 := (Ok (OStr ($"sessions"))) in let! x2 := (Ok ONone) in let! x3 := (Ok (OFloat (FFin false 10%N (0)))) in let! x4 := (Ok ONone) in mk_entity x1 x2 x3 x4) in visit false true o) ($"(sessions SAMPLE 10.0)") = true.
Proof. vm_compute. reflexivity. Qed.

(* test_entity.py, line 15:  *)
Example t129_test_entity : same_str (let! o := (let! x1 := (Ok (OStr ($"sessions"))) in let! x2 := (Ok (OStr ($"s"))) in let! x3 := (Ok ONone) in let! x4 := (Ok ONone) in mk_entity x1 x2 x3 x4) in visit false true o) ($"(s: sessions)") = true.
Proof. vm_compute. reflexivity. Qed.

(* test_entity.py, line 16:  *)
Example t130_test_entity : same_str (let! o := (let! x1 := (Ok (OStr ($"sessions"))) in let! x2 := (Ok (OStr ($"s"))) in let! x3 := (Ok (OFloat (FFin false 10%N (0)))) in let! x4 := (Ok ONone) in mk_entity x1 x2 x3 x4) in visit false true o) ($"(s: sessions SAMPLE 10.0)") = true.
Proof. vm_compute. reflexivity. Qed.

(* test_entity.py, line 17:  *)
Example t131_test_entity : fails (let! x1 := (Ok (OStr ($""))) in let! x2 := (Ok (OStr ($"s"))) in let! x3 := (Ok ONone) in let! x4 := (Ok ONone) in mk_entity x1 x2 x3 x4) (fun e => match e with InvalidEntityError => true | _ => false end) = true.
Proof. vm_compute. reflexivity. Qed.

(* test_entity.py, line 20:  *)
Example t132_test_entity : fails (let! x1 := (Ok (OInt (1))) in let! x2 := (Ok ONone) in let! x3 := (Ok ONone) in let! x4 := (Ok ONone) in mk_entity x1 x2 x3 x4) (fun e => match e with InvalidEntityError => true | _ => false end) = true.
Proof. vm_compute. reflexivity. Qed.

(* test_entity.py, line 23:  *)
Example t133_test_entity : fails (let! x1 := (Ok (OStr ($"sessions"))) in let! x2 := (Ok (OStr ($""))) in let! x3 := (Ok ONone) in let! x4 := (Ok ONone) in mk_entity x1 x2 x3 x4) (fun e => match e with InvalidEntityError => true | _ => false end) = true.
Proof. vm_compute. reflexivity. Qed.

(* test_entity.py, line 26:  *)
Example t134_test_entity : fails (let! x1 := (Ok (OStr ($"sessions"))) in let! x2 := (Ok (OInt (1))) in let! x3 := (Ok ONone) in let! x4 := (Ok ONone) in mk_entity x1 x2 x3 x4) (fun e => match e with InvalidEntityError => true | _ => false end) = true.
Proof. vm_compute. reflexivity. Qed.

(* test_entity.py, line 29:  *)
Example t135_test_entity : fails (let! x1 := (Ok (OStr ($"sessions"))) in let! x2 := (Ok ONone) in let! x3 := (Ok (OStr ($"0.1"))) in let! x4 := (Ok ONone) in mk_entity x1 x2 x3 x4) (fun e => match e with InvalidEntityError => true | _ => false end) = true.
Proof. vm_compute. reflexivity. Qed.

(* test_entity.py, line 36:  *)
Example t136_test_entity : fails (let! x1 := (Ok (OStr ($"sessions"))) in let! x2 := (Ok (OStr ($"s"))) in let! x3 := (Ok (OFloat (FFin true 3602879701896397%N (-55)))) in let! x4 := (Ok ONone) in mk_entity x1 x2 x3 x4) (fun e => match e with InvalidEntityError => true | _ => false end) = true.
Proof. vm_compute. reflexivity. Qed.

(* test_expression.py, line 18:  *)
Example t137_test_expression : passes (let! x1 := (Ok (OInt (1))) in mk_limit x1) = true.
Proof. vm_compute. reflexivity. Qed.

(* test_expression.py, line 19:  *)
Example t138_test_expression : passes (let! x1 := (Ok (OInt (10))) in mk_limit x1) = true.
Proof. vm_compute. reflexivity. Qed.

(* test_expression.py, line 20:  *)
Example t139_test_expression : fails (let! x1 := (Ok (OInt (-1))) in mk_limit x1) is_invalid_expression = true.
Proof. vm_compute. reflexivity. Qed.

(* test_expression.py, line 21:  *)
Example t140_test_expression : fails (let! x1 := (Ok (OStr ($"5"))) in mk_limit x1) is_invalid_expression = true.
Proof. vm_compute. reflexivity. Qed.

(* test_expression.py, line 22:  *)
Example t141_test_expression : fails (let! x1 := (Ok (OFloat (FFin false 3%N (-1)))) in mk_limit x1) is_invalid_expression = true.
Proof. vm_compute. reflexivity. Qed.

(* test_expression.py, line 23:  *)
Example t142_test_expression : fails (let! x1 := (Ok (OFloat (FFin false 10%N (0)))) in mk_limit x1) is_invalid_expression = true.
Proof. vm_compute. reflexivity. Qed.

(* test_expression.py, line 24:  *)
Example t143_test_expression : fails (let! x1 := (Ok (OInt (1000000))) in mk_limit x1) is_invalid_expression = true.
Proof. vm_compute. reflexivity. Qed.

(* test_expression.py, line 40:  *)
Example t144_test_expression : passes (let! x1 := (Ok (OInt (0))) in mk_offset x1) = true.
Proof. vm_compute. reflexivity. Qed.

(* test_expression.py, line 41:  *)
Example t145_test_expression : passes (let! x1 := (Ok (OInt (10))) in mk_offset x1) = true.
Proof. vm_compute. reflexivity. Qed.

(* test_expression.py, line 42:  *)
Example t146_test_expression : fails (let! x1 := (Ok (OInt (-1))) in mk_offset x1) is_invalid_expression = true.
Proof. vm_compute. reflexivity. Qed.

(* test_expression.py, line 43:  *)
Example t147_test_expression : fails (let! x1 := (Ok (OStr ($"5"))) in mk_offset x1) is_invalid_expression = true.
Proof. vm_compute. reflexivity. Qed.

(* test_expression.py, line 44:  *)
Example t148_test_expression : fails (let! x1 := (Ok (OFloat (FFin false 3%N (-1)))) in mk_offset x1) is_invalid_expression = true.
Proof. vm_compute. reflexivity. Qed.

(* test_expression.py, line 45:  *)
Example t149_test_expression : fails (let! x1 := (Ok (OFloat (FFin false 10%N (0)))) in mk_offset x1) is_invalid_expression = true.
Proof. vm_compute. reflexivity. Qed.

(* test_expression.py, line 59:  *)
Example t150_test_expression : passes (let! x1 := (Ok (OInt (10))) in mk_granularity x1) = true.
Proof. vm_compute. reflexivity. Qed.

(* test_expression.py, line 60:  *)
Example t151_test_expression : fails (let! x1 := (Ok (OInt (0))) in mk_granularity x1) is_invalid_expression = true.
Proof. vm_compute. reflexivity. Qed.

(* test_expression.py, line 61:  *)
Example t152_test_expression : fails (let! x1 := (Ok (OStr ($"5"))) in mk_granularity x1) is_invalid_expression = true.
Proof. vm_compute. reflexivity. Qed.

(* test_expression.py, line 62:  *)
Example t153_test_expression : fails (let! x1 := (Ok (OFloat (FFin false 3%N (-1)))) in mk_granularity x1) is_invalid_expression = true.
Proof. vm_compute. reflexivity. Qed.

(* test_expression.py, line 63:  *)
Example t154_test_expression : fails (let! x1 := (Ok (OFloat (FFin false 10%N (0)))) in mk_granularity x1) is_invalid_expression = true.
Proof. vm_compute. reflexivity. Qed.

(* test_expression.py, line 77:  *)
Example t155_test_expression : passes (let! x1 := (Ok (OBool true)) in mk_totals x1) = true.
Proof. vm_compute. reflexivity. Qed.

(* test_expression.py, line 78:  *)
Example t156_test_expression : fails (let! x1 := (Ok (OInt (0))) in mk_totals x1) is_invalid_expression = true.
Proof. vm_compute. reflexivity. Qed.

(* test_expression.py, line 92:  *)
Example t157_test_expression : passes (let! x3 := (let! x1 := (Ok (OStr ($"foo"))) in let! x2 := (Ok ONone) in mk_column x1 x2) in let! x4 := (Ok (ODir ASC)) in mk_orderby x3 x4) = true.
Proof. vm_compute. reflexivity. Qed.

(* test_expression.py, line 93:  *)
Example t158_test_expression : passes (let! x7 := (let! x4 := (Ok (OStr ($"bar"))) in let! x5 := (let! x1 := (let! x2 := (Ok (OStr ($"foo"))) in let! x3 := (Ok ONone) in mk_column x2 x3) in Ok (OList [x1])) in let! x6 := (Ok ONone) in mk_function x4 x5 x6) in let! x8 := (Ok (ODir ASC)) in mk_orderby x7 x8) = true.
Proof. vm_compute. reflexivity. Qed.

(* test_expression.py, line 94:  *)
Example t159_test_expression : fails (let! x1 := (Ok (OInt (0))) in let! x2 := (Ok (ODir DESC)) in mk_orderby x1 x2) is_invalid_expression = true.
Proof. vm_compute. reflexivity. Qed.

(* test_expression.py, line 101:  *)
Example t160_test_expression : fails (let! x3 := (let! x1 := (Ok (OStr ($"foo"))) in let! x2 := (Ok ONone) in mk_column x1 x2) in let! x4 := (Ok (OStr ($"ASC"))) in mk_orderby x3 x4) is_invalid_expression = true.
Proof. vm_compute. reflexivity. Qed.

(* test_expression.py, line 119:  *)
Example t161_test_expression : passes (let! x4 := (let! x1 := (let! x2 := (Ok (OStr ($"foo"))) in let! x3 := (Ok ONone) in mk_column x2 x3) in Ok (OList [x1])) in let! x5 := (Ok (OInt (1))) in mk_limitby x4 x5) = true.
Proof. vm_compute. reflexivity. Qed.

(* test_expression.py, line 120:  *)
Example t162_test_expression : fails (let! x2 := (let! x1 := (Ok (OStr ($"bar"))) in Ok (OList [x1])) in let! x3 := (Ok (OInt (1))) in mk_limitby x2 x3) is_invalid_expression = true.
Proof. vm_compute. reflexivity. Qed.

(* test_expression.py, line 127:  *)
Example t163_test_expression : fails (let! x4 := (let! x1 := (let! x2 := (Ok (OStr ($"foo"))) in let! x3 := (Ok ONone) in mk_column x2 x3) in Ok (OList [x1])) in let! x5 := (Ok (OStr ($"1"))) in mk_limitby x4 x5) is_invalid_expression = true.
Proof. vm_compute. reflexivity. Qed.

(* test_expression.py, line 132:  *)
Example t164_test_expression : fails (let! x4 := (let! x1 := (let! x2 := (Ok (OStr ($"foo"))) in let! x3 := (Ok ONone) in mk_column x2 x3) in Ok (OList [x1])) in let! x5 := (Ok (OInt (-1))) in mk_limitby x4 x5) is_invalid_expression = true.
Proof. vm_compute. reflexivity. Qed.

(* test_expression.py, line 137:  *)
Example t165_test_expression : fails (let! x4 := (let! x1 := (let! x2 := (Ok (OStr ($"foo"))) in let! x3 := (Ok ONone) in mk_column x2 x3) in Ok (OList [x1])) in let! x5 := (Ok (OInt (15000))) in mk_limitby x4 x5) is_invalid_expression = true.
Proof. vm_compute. reflexivity. Qed.

(* test_relationship_expression.py, line 14:  *)
Example t166_test_relationship_expression : same_str (let! o := (let! x9 := (let! x1 := (Ok (OStr ($"events"))) in let! x2 := (Ok (OStr ($"ev"))) in let! x3 := (Ok (OFloat (FFin false 100%N (0)))) in let! x4 := (Ok ONone) in mk_entity x1 x2 x3 x4) in let! x10 := (Ok (OStr ($"contains"))) in let! x11 := (let! x5 := (Ok (OStr ($"transactions"))) in let! x6 := (Ok (OStr ($"t"))) in let! x7 := (Ok ONone) in let! x8 := (Ok ONone) in mk_entity x5 x6 x7 x8) in mk_relationship x9 x10 x11) in visit false true o) ($"(ev: events SAMPLE 100.0) -[contains]-> (t: transactions)") = true.
Proof. vm_compute. reflexivity. Qed.

(* test_relationship_expression.py, line 21:  *)
Example t167_test_relationship_expression : fails (let! x5 := (Ok (OStr ($""))) in let! x6 := (Ok (OStr ($"contains"))) in let! x7 := (let! x1 := (Ok (OStr ($"transactions"))) in let! x2 := (Ok (OStr ($"t"))) in let! x3 := (Ok ONone) in let! x4 := (Ok ONone) in mk_entity x1 x2 x3 x4) in mk_relationship x5 x6 x7) is_invalid_expression = true.
Proof. vm_compute. reflexivity. Qed.

(* test_relationship_expression.py, line 28:  *)
Example t168_test_relationship_expression : fails (let! x9 := (let! x1 := (Ok (OStr ($"events"))) in let! x2 := (Ok ONone) in let! x3 := (Ok (OFloat (FFin false 100%N (0)))) in let! x4 := (Ok ONone) in mk_entity x1 x2 x3 x4) in let! x10 := (Ok (OStr ($"contains"))) in let! x11 := (let! x5 := (Ok (OStr ($"transactions"))) in let! x6 := (Ok (OStr ($"t"))) in let! x7 := (Ok ONone) in let! x8 := (Ok ONone) in mk_entity x5 x6 x7 x8) in mk_relationship x9 x10 x11) is_invalid_expression = true.
Proof. vm_compute. reflexivity. Qed.

(* test_relationship_expression.py, line 37:  *)
Example t169_test_relationship_expression : fails (let! x9 := (let! x1 := (Ok (OStr ($"events"))) in let! x2 := (Ok (OStr ($"ev"))) in let! x3 := (Ok (OFloat (FFin false 100%N (0)))) in let! x4 := (Ok ONone) in mk_entity x1 x2 x3 x4) in let! x10 := (Ok (OInt (1))) in let! x11 := (let! x5 := (Ok (OStr ($"transactions"))) in let! x6 := (Ok (OStr ($"t"))) in let! x7 := (Ok ONone) in let! x8 := (Ok ONone) in mk_entity x5 x6 x7 x8) in mk_relationship x9 x10 x11) is_invalid_expression = true.
Proof. vm_compute. reflexivity. Qed.

(* test_relationship_expression.py, line 44:  *)
Example t170_test_relationship_expression : fails (let! x9 := (let! x1 := (Ok (OStr ($"events"))) in let! x2 := (Ok (OStr ($"e"))) in let! x3 := (Ok (OFloat (FFin false 100%N (0)))) in let! x4 := (Ok ONone) in mk_entity x1 x2 x3 x4) in let! x10 := (Ok (OStr ($""))) in let! x11 := (let! x5 := (Ok (OStr ($"transactions"))) in let! x6 := (Ok (OStr ($"t"))) in let! x7 := (Ok ONone) in let! x8 := (Ok ONone) in mk_entity x5 x6 x7 x8) in mk_relationship x9 x10 x11) is_invalid_expression = true.
Proof. vm_compute. reflexivity. Qed.

(* test_relationship_expression.py, line 75:  *)
Example t171_test_relationship_expression : same_str (let! o := (let! x13 := (let! x1 := (let! x10 := (let! x2 := (Ok (OStr ($"events"))) in let! x3 := (Ok (OStr ($"e"))) in let! x4 := (Ok ONone) in let! x5 := (Ok ONone) in mk_entity x2 x3 x4 x5) in let! x11 := (Ok (OStr ($"has"))) in let! x12 := (let! x6 := (Ok (OStr ($"sessions"))) in let! x7 := (Ok (OStr ($"s"))) in let! x8 := (Ok ONone) in let! x9 := (Ok ONone) in mk_entity x6 x7 x8 x9) in mk_relationship x10 x11 x12) in Ok (OList [x1])) in mk_join x13) in visit false true o) ($"(e: events) -[has]-> (s: sessions)") = true.
Proof. vm_compute. reflexivity. Qed.

(* test_relationship_expression.py, line 80:  *)
Example t172_test_relationship_expression : same_str (let! o := (let! x37 := (let! x1 := (let! x10 := (let! x2 := (Ok (OStr ($"events"))) in let! x3 := (Ok (OStr ($"e"))) in let! x4 := (Ok ONone) in let! x5 := (Ok ONone) in mk_entity x2 x3 x4 x5) in let! x11 := (Ok (OStr ($"has"))) in let! x12 := (let! x6 := (Ok (OStr ($"sessions"))) in let! x7 := (Ok (OStr ($"s"))) in let! x8 := (Ok ONone) in let! x9 := (Ok ONone) in mk_entity x6 x7 x8 x9) in mk_relationship x10 x11 x12) in let! x13 := (let! x22 := (let! x14 := (Ok (OStr ($"events"))) in let! x15 := (Ok (OStr ($"e"))) in let! x16 := (Ok ONone) in let! x17 := (Ok ONone) in mk_entity x14 x15 x16 x17) in let! x23 := (Ok (OStr ($"hasnt"))) in let! x24 := (let! x18 := (Ok (OStr ($"sessions"))) in let! x19 := (Ok (OStr ($"s"))) in let! x20 := (Ok (OFloat (FFin false 10%N (0)))) in let! x21 := (Ok ONone) in mk_entity x18 x19 x20 x21) in mk_relationship x22 x23 x24) in let! x25 := (let! x34 := (let! x26 := (Ok (OStr ($"events"))) in let! x27 := (Ok (OStr ($"e"))) in let! x28 := (Ok ONone) in let! x29 := (Ok ONone) in mk_entity x26 x27 x28 x29) in let! x35 := (Ok (OStr ($"musnt"))) in let! x36 := (let! x30 := (Ok (OStr ($"sessions"))) in let! x31 := (Ok (OStr ($"s"))) in let! x32 := (Ok ONone) in let! x33 := (Ok ONone) in mk_entity x30 x31 x32 x33) in mk_relationship x34 x35 x36) in Ok (OList [x1; x13; x25])) in mk_join x37) in visit false true o) ($"(e: events) -[has]-> (s: sessions), (e: events) -[hasnt]-> (s: sessions SAMPLE 10.0), (e: events) -[musnt]-> (s: sessions)") = true.
Proof. vm_compute. reflexivity. Qed.

(* test_relationship_expression.py, line 89:  *)
Example t173_test_relationship_expression : fails (let! x1 := (Ok (OList [])) in mk_join x1) is_invalid_expression = true.
Proof. vm_compute. reflexivity. Qed.

(* test_relationship_expression.py, line 92:  *)
Example t174_test_relationship_expression : fails (let! x3 := (let! x1 := (Ok (OInt (1))) in let! x2 := (Ok (OInt (2))) in Ok (OList [x1; x2])) in mk_join x3) is_invalid_expression = true.
Proof. vm_compute. reflexivity. Qed.

(* test_relationship_expression.py, line 97:  *)
Example t175_test_relationship_expression : fails (let! x25 := (let! x1 := (let! x10 := (let! x2 := (Ok (OStr ($"events"))) in let! x3 := (Ok (OStr ($"e"))) in let! x4 := (Ok ONone) in let! x5 := (Ok ONone) in mk_entity x2 x3 x4 x5) in let! x11 := (Ok (OStr ($"has"))) in let! x12 := (let! x6 := (Ok (OStr ($"sessions"))) in let! x7 := (Ok (OStr ($"s"))) in let! x8 := (Ok ONone) in let! x9 := (Ok ONone) in mk_entity x6 x7 x8 x9) in mk_relationship x10 x11 x12) in let! x13 := (let! x22 := (let! x14 := (Ok (OStr ($"events"))) in let! x15 := (Ok (OStr ($"e"))) in let! x16 := (Ok ONone) in let! x17 := (Ok ONone) in mk_entity x14 x15 x16 x17) in let! x23 := (Ok (OStr ($"hasnt"))) in let! x24 := (let! x18 := (Ok (OStr ($"sessions"))) in let! x19 := (Ok (OStr ($"e"))) in let! x20 := (Ok (OFloat (FFin false 10%N (0)))) in let! x21 := (Ok ONone) in mk_entity x18 x19 x20 x21) in mk_relationship x22 x23 x24) in Ok (OList [x1; x13])) in mk_join x25) is_invalid_expression = true.
Proof. vm_compute. reflexivity. Qed.

(* test_query.py, line 29: basic query *)
Example t176_test_query : passes (let! q := (let! x1 := (let! o := (let! x2 := (Ok (OStr ($"events"))) in let! x3 := (Ok ONone) in let! x4 := (Ok ONone) in let! x5 := (Ok ONone) in mk_entity x2 x3 x4 x5) in Ok (MObj o)) in let! x6 := (let! x7 := (let! x8 := (Ok (OStr ($"event_id"))) in let! x9 := (Ok ONone) in mk_column x8 x9) in Ok (OList [x7])) in let! x10 := (Ok ONone) in let! x11 := (Ok ONone) in let! x12 := (let! x13 := (let! x16 := (let! x14 := (Ok (OStr ($"timestamp"))) in let! x15 := (Ok ONone) in mk_column x14 x15) in let! x17 := (Ok (OOp GT)) in let! x18 := (Ok (ODateTime (mkDT (mkDate 2021 1 2) 3 4 5 6 (Some 0)))) in mk_condition x16 x17 x18) in Ok (OList [x13])) in let! x19 := (Ok ONone) in let! x20 := (Ok ONone) in let! x21 := (Ok ONone) in let! x22 := (let! x23 := (Ok (OInt (10))) in mk_limit x23) in let! x24 := (let! x25 := (Ok (OInt (1))) in mk_offset x25) in let! x26 := (let! x27 := (Ok (OInt (3600))) in mk_granularity x27) in let! x28 := (Ok ONone) in mk_query x1 (mkClauses x6 x10 x11 x12 x19 x20 x21 x22 x24 x26 x28)) in validate q) = true.
Proof. vm_compute. reflexivity. Qed.

(* test_query.py, line 41: basic storage query *)
Example t177_test_query : passes (let! q := (let! x1 := (let! o := (let! x2 := (Ok (OStr ($"events"))) in let! x3 := (Ok ONone) in let! x4 := (Ok ONone) in mk_storage x2 x3 x4) in Ok (MObj o)) in let! x5 := (let! x6 := (let! x7 := (Ok (OStr ($"event_id"))) in let! x8 := (Ok ONone) in mk_column x7 x8) in Ok (OList [x6])) in let! x9 := (Ok ONone) in let! x10 := (Ok ONone) in let! x11 := (let! x12 := (let! x15 := (let! x13 := (Ok (OStr ($"timestamp"))) in let! x14 := (Ok ONone) in mk_column x13 x14) in let! x16 := (Ok (OOp GT)) in let! x17 := (Ok (ODateTime (mkDT (mkDate 2021 1 2) 3 4 5 6 (Some 0)))) in mk_condition x15 x16 x17) in Ok (OList [x12])) in let! x18 := (Ok ONone) in let! x19 := (Ok ONone) in let! x20 := (Ok ONone) in let! x21 := (let! x22 := (Ok (OInt (10))) in mk_limit x22) in let! x23 := (let! x24 := (Ok (OInt (1))) in mk_offset x24) in let! x25 := (let! x26 := (Ok (OInt (3600))) in mk_granularity x26) in let! x27 := (Ok ONone) in mk_query x1 (mkClauses x5 x9 x10 x11 x18 x19 x20 x21 x23 x25 x27)) in validate q) = true.
Proof. vm_compute. reflexivity. Qed.

(* test_query.py, line 53: complex query *)
Example t178_test_query : passes (let! q := (let! x1 := (let! o := (let! x2 := (Ok (OStr ($"events"))) in let! x3 := (Ok (OStr ($"ev"))) in let! x4 := (Ok (OFloat (FFin false 3602879701896397%N (-54)))) in let! x5 := (Ok ONone) in mk_entity x2 x3 x4 x5) in Ok (MObj o)) in let! x6 := (let! x7 := (let! x8 := (Ok (OStr ($"title"))) in let! x9 := (Ok ONone) in mk_column x8 x9) in let! x10 := (let! x11 := (Ok (OStr ($"tags[release:1]"))) in let! x12 := (Ok ONone) in mk_column x11 x12) in let! x13 := (let! x17 := (Ok (OStr ($"uniq"))) in let! x18 := (let! x14 := (let! x15 := (Ok (OStr ($"event_id"))) in let! x16 := (Ok ONone) in mk_column x15 x16) in Ok (OList [x14])) in let! x19 := (Ok (OStr ($"uniq_events"))) in mk_function x17 x18 x19) in Ok (OList [x7; x10; x13])) in let! x20 := (let! x21 := (let! x22 := (Ok (OStr ($"title"))) in let! x23 := (Ok ONone) in mk_column x22 x23) in let! x24 := (let! x25 := (Ok (OStr ($"tags[release:1]"))) in let! x26 := (Ok ONone) in mk_column x25 x26) in Ok (OList [x21; x24])) in let! x27 := (Ok ONone) in let! x28 := (let! x29 := (let! x32 := (let! x30 := (Ok (OStr ($"timestamp"))) in let! x31 := (Ok ONone) in mk_column x30 x31) in let! x33 := (Ok (OOp GT)) in let! x34 := (Ok (ODateTime (mkDT (mkDate 2021 1 2) 3 4 5 6 (Some 0)))) in mk_condition x32 x33 x34) in let! x35 := (let! x42 := (let! x39 := (Ok (OStr ($"toHour"))) in let! x40 := (let! x36 := (let! x37 := (Ok (OStr ($"timestamp"))) in let! x38 := (Ok ONone) in mk_column x37 x38) in Ok (OList [x36])) in let! x41 := (Ok ONone) in mk_function x39 x40 x41) in let! x43 := (Ok (OOp LTE)) in let! x44 := (Ok (ODateTime (mkDT (mkDate 2021 1 2) 3 4 5 6 (Some 0)))) in mk_condition x42 x43 x44) in let! x45 := (let! x54 := (let! x46 := (Ok (OStr ($"project_id"))) in let! x47 := (Ok ONone) in mk_column x46 x47) in let! x55 := (Ok (OOp IN)) in let! x56 := (let! x51 := (Ok (OStr ($"tuple"))) in let! x52 := (let! x48 := (Ok (OInt (1))) in let! x49 := (Ok (OInt (2))) in let! x50 := (Ok (OInt (3))) in Ok (OList [x48; x49; x50])) in let! x53 := (Ok ONone) in mk_function x51 x52 x53) in mk_condition x54 x55 x56) in Ok (OList [x29; x35; x45])) in let! x57 := (let! x58 := (let! x65 := (let! x62 := (Ok (OStr ($"uniq"))) in let! x63 := (let! x59 := (let! x60 := (Ok (OStr ($"event_id"))) in let! x61 := (Ok ONone) in mk_column x60 x61) in Ok (OList [x59])) in let! x64 := (Ok ONone) in mk_function x62 x63 x64) in let! x66 := (Ok (OOp GT)) in let! x67 := (Ok (OInt (1))) in mk_condition x65 x66 x67) in Ok (OList [x58])) in let! x68 := (let! x69 := (let! x72 := (let! x70 := (Ok (OStr ($"title"))) in let! x71 := (Ok ONone) in mk_column x70 x71) in let! x73 := (Ok (ODir ASC)) in mk_orderby x72 x73) in Ok (OList [x69])) in let! x74 := (let! x81 := (let! x75 := (let! x76 := (Ok (OStr ($"title"))) in let! x77 := (Ok ONone) in mk_column x76 x77) in let! x78 := (let! x79 := (Ok (OStr ($"event_id"))) in let! x80 := (Ok ONone) in mk_column x79 x80) in Ok (OList [x75; x78])) in let! x82 := (Ok (OInt (5))) in mk_limitby x81 x82) in let! x83 := (let! x84 := (Ok (OInt (10))) in mk_limit x84) in let! x85 := (let! x86 := (Ok (OInt (1))) in mk_offset x86) in let! x87 := (let! x88 := (Ok (OInt (3600))) in mk_granularity x88) in let! x89 := (Ok ONone) in mk_query x1 (mkClauses x6 x20 x27 x28 x57 x68 x74 x83 x85 x87 x89)) in validate q) = true.
Proof. vm_compute. reflexivity. Qed.

(* test_query.py, line 76: complex storage query *)
Example t179_test_query : passes (let! q := (let! x1 := (let! o := (let! x2 := (Ok (OStr ($"events"))) in let! x3 := (Ok (OFloat (FFin false 3602879701896397%N (-54)))) in let! x4 := (Ok ONone) in mk_storage x2 x3 x4) in Ok (MObj o)) in let! x5 := (let! x6 := (let! x7 := (Ok (OStr ($"title"))) in let! x8 := (Ok ONone) in mk_column x7 x8) in let! x9 := (let! x10 := (Ok (OStr ($"tags[release:1]"))) in let! x11 := (Ok ONone) in mk_column x10 x11) in let! x12 := (let! x16 := (Ok (OStr ($"uniq"))) in let! x17 := (let! x13 := (let! x14 := (Ok (OStr ($"event_id"))) in let! x15 := (Ok ONone) in mk_column x14 x15) in Ok (OList [x13])) in let! x18 := (Ok (OStr ($"uniq_events"))) in mk_function x16 x17 x18) in Ok (OList [x6; x9; x12])) in let! x19 := (let! x20 := (let! x21 := (Ok (OStr ($"title"))) in let! x22 := (Ok ONone) in mk_column x21 x22) in let! x23 := (let! x24 := (Ok (OStr ($"tags[release:1]"))) in let! x25 := (Ok ONone) in mk_column x24 x25) in Ok (OList [x20; x23])) in let! x26 := (Ok ONone) in let! x27 := (let! x28 := (let! x31 := (let! x29 := (Ok (OStr ($"timestamp"))) in let! x30 := (Ok ONone) in mk_column x29 x30) in let! x32 := (Ok (OOp GT)) in let! x33 := (Ok (ODateTime (mkDT (mkDate 2021 1 2) 3 4 5 6 (Some 0)))) in mk_condition x31 x32 x33) in let! x34 := (let! x41 := (let! x38 := (Ok (OStr ($"toHour"))) in let! x39 := (let! x35 := (let! x36 := (Ok (OStr ($"timestamp"))) in let! x37 := (Ok ONone) in mk_column x36 x37) in Ok (OList [x35])) in let! x40 := (Ok ONone) in mk_function x38 x39 x40) in let! x42 := (Ok (OOp LTE)) in let! x43 := (Ok (ODateTime (mkDT (mkDate 2021 1 2) 3 4 5 6 (Some 0)))) in mk_condition x41 x42 x43) in let! x44 := (let! x53 := (let! x45 := (Ok (OStr ($"project_id"))) in let! x46 := (Ok ONone) in mk_column x45 x46) in let! x54 := (Ok (OOp IN)) in let! x55 := (let! x50 := (Ok (OStr ($"tuple"))) in let! x51 := (let! x47 := (Ok (OInt (1))) in let! x48 := (Ok (OInt (2))) in let! x49 := (Ok (OInt (3))) in Ok (OList [x47; x48; x49])) in let! x52 := (Ok ONone) in mk_function x50 x51 x52) in mk_condition x53 x54 x55) in Ok (OList [x28; x34; x44])) in let! x56 := (let! x57 := (let! x64 := (let! x61 := (Ok (OStr ($"uniq"))) in let! x62 := (let! x58 := (let! x59 := (Ok (OStr ($"event_id"))) in let! x60 := (Ok ONone) in mk_column x59 x60) in Ok (OList [x58])) in let! x63 := (Ok ONone) in mk_function x61 x62 x63) in let! x65 := (Ok (OOp GT)) in let! x66 := (Ok (OInt (1))) in mk_condition x64 x65 x66) in Ok (OList [x57])) in let! x67 := (let! x68 := (let! x71 := (let! x69 := (Ok (OStr ($"title"))) in let! x70 := (Ok ONone) in mk_column x69 x70) in let! x72 := (Ok (ODir ASC)) in mk_orderby x71 x72) in Ok (OList [x68])) in let! x73 := (let! x80 := (let! x74 := (let! x75 := (Ok (OStr ($"title"))) in let! x76 := (Ok ONone) in mk_column x75 x76) in let! x77 := (let! x78 := (Ok (OStr ($"event_id"))) in let! x79 := (Ok ONone) in mk_column x78 x79) in Ok (OList [x74; x77])) in let! x81 := (Ok (OInt (5))) in mk_limitby x80 x81) in let! x82 := (let! x83 := (Ok (OInt (10))) in mk_limit x83) in let! x84 := (let! x85 := (Ok (OInt (1))) in mk_offset x85) in let! x86 := (let! x87 := (Ok (OInt (3600))) in mk_granularity x87) in let! x88 := (Ok ONone) in mk_query x1 (mkClauses x5 x19 x26 x27 x56 x67 x73 x82 x84 x86 x88)) in validate q) = true.
Proof. vm_compute. reflexivity. Qed.

(* test_query.py, line 99: basic query with replace *)
Example t180_test_query : passes (let! q := (let! q := (let! q := (let! q := (let! q := (let! q := (let! x1 := (let! o := (let! x2 := (Ok (OStr ($"events"))) in let! x3 := (Ok ONone) in let! x4 := (Ok (OFloat (FFin false 3602879701896397%N (-54)))) in let! x5 := (Ok ONone) in mk_entity x2 x3 x4 x5) in Ok (MObj o)) in let! x6 := (Ok ONone) in let! x7 := (Ok ONone) in let! x8 := (Ok ONone) in let! x9 := (Ok ONone) in let! x10 := (Ok ONone) in let! x11 := (Ok ONone) in let! x12 := (Ok ONone) in let! x13 := (Ok ONone) in let! x14 := (Ok ONone) in let! x15 := (Ok ONone) in let! x16 := (Ok ONone) in mk_query x1 (mkClauses x6 x7 x8 x9 x10 x11 x12 x13 x14 x15 x16)) in let! v := (let! x17 := (let! x18 := (Ok (OStr ($"event_id"))) in let! x19 := (Ok ONone) in mk_column x18 x19) in Ok (OList [x17])) in set_clause CSelect q v) in let! v := (let! x20 := (let! x23 := (let! x21 := (Ok (OStr ($"timestamp"))) in let! x22 := (Ok ONone) in mk_column x21 x22) in let! x24 := (Ok (OOp GT)) in let! x25 := (Ok (ODateTime (mkDT (mkDate 2021 1 2) 3 4 5 6 (Some 0)))) in mk_condition x23 x24 x25) in Ok (OList [x20])) in set_clause CWhere q v) in let! v := (Ok (OInt (10))) in set_clause CLimit q v) in let! v := (Ok (OInt (1))) in set_clause COffset q v) in let! v := (Ok (OInt (3600))) in set_clause CGranularity q v) in validate q) = true.
Proof. vm_compute. reflexivity. Qed.

(* test_query.py, line 108: complex query with replace *)
Example t181_test_query : passes (let! q := (let! q := (let! q := (let! q := (let! q := (let! q := (let! q := (let! q := (let! q := (let! q := (let! x1 := (let! o := (let! x2 := (Ok (OStr ($"events"))) in let! x3 := (Ok ONone) in let! x4 := (Ok ONone) in let! x5 := (Ok ONone) in mk_entity x2 x3 x4 x5) in Ok (MObj o)) in let! x6 := (Ok ONone) in let! x7 := (Ok ONone) in let! x8 := (Ok ONone) in let! x9 := (Ok ONone) in let! x10 := (Ok ONone) in let! x11 := (Ok ONone) in let! x12 := (Ok ONone) in let! x13 := (Ok ONone) in let! x14 := (Ok ONone) in let! x15 := (Ok ONone) in let! x16 := (Ok ONone) in mk_query x1 (mkClauses x6 x7 x8 x9 x10 x11 x12 x13 x14 x15 x16)) in let! v := (let! x17 := (let! x18 := (Ok (OStr ($"title"))) in let! x19 := (Ok ONone) in mk_column x18 x19) in let! x20 := (let! x24 := (Ok (OStr ($"uniq"))) in let! x25 := (let! x21 := (let! x22 := (Ok (OStr ($"event_id"))) in let! x23 := (Ok ONone) in mk_column x22 x23) in Ok (OList [x21])) in let! x26 := (Ok (OStr ($"uniq_events"))) in mk_function x24 x25 x26) in let! x27 := (let! x32 := (Ok (OStr ($"quantile"))) in let! x33 := (let! x28 := (Ok (OFloat (FFin false 1%N (-1)))) in Ok (OList [x28])) in let! x34 := (let! x29 := (let! x30 := (Ok (OStr ($"duration"))) in let! x31 := (Ok ONone) in mk_column x30 x31) in Ok (OList [x29])) in let! x35 := (Ok (OStr ($"p50"))) in mk_curried x32 x33 x34 x35) in Ok (OList [x17; x20; x27])) in set_clause CSelect q v) in let! v := (let! x36 := (let! x37 := (Ok (OStr ($"title"))) in let! x38 := (Ok ONone) in mk_column x37 x38) in Ok (OList [x36])) in set_clause CGroupby q v) in let! v := (let! x39 := (let! x42 := (let! x40 := (Ok (OStr ($"timestamp"))) in let! x41 := (Ok ONone) in mk_column x40 x41) in let! x43 := (Ok (OOp GT)) in let! x44 := (Ok (ODateTime (mkDT (mkDate 2021 1 2) 3 4 5 6 (Some 0)))) in mk_condition x42 x43 x44) in let! x45 := (let! x52 := (let! x49 := (Ok (OStr ($"toHour"))) in let! x50 := (let! x46 := (let! x47 := (Ok (OStr ($"timestamp"))) in let! x48 := (Ok ONone) in mk_column x47 x48) in Ok (OList [x46])) in let! x51 := (Ok ONone) in mk_function x49 x50 x51) in let! x53 := (Ok (OOp LTE)) in let! x54 := (Ok (ODateTime (mkDT (mkDate 2021 1 2) 3 4 5 6 (Some 0)))) in mk_condition x52 x53 x54) in let! x55 := (let! x64 := (let! x56 := (Ok (OStr ($"project_id"))) in let! x57 := (Ok ONone) in mk_column x56 x57) in let! x65 := (Ok (OOp IN)) in let! x66 := (let! x61 := (Ok (OStr ($"tuple"))) in let! x62 := (let! x58 := (Ok (OInt (1))) in let! x59 := (Ok (OInt (2))) in let! x60 := (Ok (OInt (3))) in Ok (OList [x58; x59; x60])) in let! x63 := (Ok ONone) in mk_function x61 x62 x63) in mk_condition x64 x65 x66) in let! x67 := (let! x80 := (Ok (OBoolOp OR)) in let! x81 := (let! x68 := (let! x71 := (let! x69 := (Ok (OStr ($"event_id"))) in let! x70 := (Ok ONone) in mk_column x69 x70) in let! x72 := (Ok (OOp EQ)) in let! x73 := (Ok (OStr ($"abc"))) in mk_condition x71 x72 x73) in let! x74 := (let! x77 := (let! x75 := (Ok (OStr ($"duration"))) in let! x76 := (Ok ONone) in mk_column x75 x76) in let! x78 := (Ok (OOp GT)) in let! x79 := (Ok (OInt (10))) in mk_condition x77 x78 x79) in Ok (OList [x68; x74])) in mk_boolean_condition x80 x81) in Ok (OList [x39; x45; x55; x67])) in set_clause CWhere q v) in let! v := (let! x82 := (let! x89 := (let! x86 := (Ok (OStr ($"uniq"))) in let! x87 := (let! x83 := (let! x84 := (Ok (OStr ($"event_id"))) in let! x85 := (Ok ONone) in mk_column x84 x85) in Ok (OList [x83])) in let! x88 := (Ok ONone) in mk_function x86 x87 x88) in let! x90 := (Ok (OOp GT)) in let! x91 := (Ok (OInt (1))) in mk_condition x89 x90 x91) in let! x92 := (let! x115 := (Ok (OBoolOp OR)) in let! x116 := (let! x93 := (let! x100 := (let! x97 := (Ok (OStr ($"uniq"))) in let! x98 := (let! x94 := (let! x95 := (Ok (OStr ($"event_id"))) in let! x96 := (Ok ONone) in mk_column x95 x96) in Ok (OList [x94])) in let! x99 := (Ok ONone) in mk_function x97 x98 x99) in let! x101 := (Ok (OOp GTE)) in let! x102 := (Ok (OInt (10))) in mk_condition x100 x101 x102) in let! x103 := (let! x112 := (let! x108 := (Ok (OStr ($"quantile"))) in let! x109 := (let! x104 := (Ok (OFloat (FFin false 1%N (-1)))) in Ok (OList [x104])) in let! x110 := (let! x105 := (let! x106 := (Ok (OStr ($"duration"))) in let! x107 := (Ok ONone) in mk_column x106 x107) in Ok (OList [x105])) in let! x111 := (Ok ONone) in mk_curried x108 x109 x110 x111) in let! x113 := (Ok (OOp GTE)) in let! x114 := (Ok (OInt (99))) in mk_condition x112 x113 x114) in Ok (OList [x93; x103])) in mk_boolean_condition x115 x116) in Ok (OList [x82; x92])) in set_clause CHaving q v) in let! v := (let! x117 := (let! x120 := (let! x118 := (Ok (OStr ($"title"))) in let! x119 := (Ok ONone) in mk_column x118 x119) in let! x121 := (Ok (ODir ASC)) in mk_orderby x120 x121) in Ok (OList [x117])) in set_clause COrderby q v) in let! v := (let! x125 := (let! x122 := (let! x123 := (Ok (OStr ($"title"))) in let! x124 := (Ok ONone) in mk_column x123 x124) in Ok (OList [x122])) in let! x126 := (Ok (OInt (5))) in mk_limitby x125 x126) in set_clause CLimitby q v) in let! v := (Ok (OInt (10))) in set_clause CLimit q v) in let! v := (Ok (OInt (1))) in set_clause COffset q v) in let! v := (Ok (OInt (3600))) in set_clause CGranularity q v) in validate q) = true.
Proof. vm_compute. reflexivity. Qed.

(* test_query.py, line 155: lists and tuples are allowed *)
Example t182_test_query : passes (let! q := (let! q := (let! q := (let! q := (let! q := (let! q := (let! x1 := (let! o := (let! x2 := (Ok (OStr ($"events"))) in let! x3 := (Ok ONone) in let! x4 := (Ok ONone) in let! x5 := (Ok ONone) in mk_entity x2 x3 x4 x5) in Ok (MObj o)) in let! x6 := (Ok ONone) in let! x7 := (Ok ONone) in let! x8 := (Ok ONone) in let! x9 := (Ok ONone) in let! x10 := (Ok ONone) in let! x11 := (Ok ONone) in let! x12 := (Ok ONone) in let! x13 := (Ok ONone) in let! x14 := (Ok ONone) in let! x15 := (Ok ONone) in let! x16 := (Ok ONone) in mk_query x1 (mkClauses x6 x7 x8 x9 x10 x11 x12 x13 x14 x15 x16)) in let! v := (let! x17 := (let! x18 := (Ok (OStr ($"event_id"))) in let! x19 := (Ok ONone) in mk_column x18 x19) in Ok (OList [x17])) in set_clause CSelect q v) in let! v := (let! x20 := (let! x26 := (let! x21 := (Ok (OStr ($"project_id"))) in let! x22 := (Ok ONone) in mk_column x21 x22) in let! x27 := (Ok (OOp IN)) in let! x28 := (let! x23 := (Ok (OInt (1))) in let! x24 := (Ok (OInt (2))) in let! x25 := (Ok (OInt (3))) in Ok (OList [x23; x24; x25])) in mk_condition x26 x27 x28) in let! x29 := (let! x35 := (let! x30 := (Ok (OStr ($"group_id"))) in let! x31 := (Ok ONone) in mk_column x30 x31) in let! x36 := (Ok (OOp NOT_IN)) in let! x37 := (let! x32 := (Ok (OInt (1))) in let! x33 := (Ok (OStr ($"2"))) in let! x34 := (Ok (OInt (3))) in Ok (OTuple [x32; x33; x34])) in mk_condition x35 x36 x37) in Ok (OList [x20; x29])) in set_clause CWhere q v) in let! v := (Ok (OInt (10))) in set_clause CLimit q v) in let! v := (Ok (OInt (1))) in set_clause COffset q v) in let! v := (Ok (OInt (3600))) in set_clause CGranularity q v) in validate q) = true.
Proof. vm_compute. reflexivity. Qed.

(* test_query.py, line 169: multiple ORDER BY *)
Example t183_test_query : passes (let! q := (let! q := (let! q := (let! q := (let! q := (let! q := (let! q := (let! x1 := (let! o := (let! x2 := (Ok (OStr ($"events"))) in let! x3 := (Ok ONone) in let! x4 := (Ok ONone) in let! x5 := (Ok ONone) in mk_entity x2 x3 x4 x5) in Ok (MObj o)) in let! x6 := (Ok ONone) in let! x7 := (Ok ONone) in let! x8 := (Ok ONone) in let! x9 := (Ok ONone) in let! x10 := (Ok ONone) in let! x11 := (Ok ONone) in let! x12 := (Ok ONone) in let! x13 := (Ok ONone) in let! x14 := (Ok ONone) in let! x15 := (Ok ONone) in let! x16 := (Ok ONone) in mk_query x1 (mkClauses x6 x7 x8 x9 x10 x11 x12 x13 x14 x15 x16)) in let! v := (let! x17 := (let! x18 := (Ok (OStr ($"event_id"))) in let! x19 := (Ok ONone) in mk_column x18 x19) in let! x20 := (let! x21 := (Ok (OStr ($"title"))) in let! x22 := (Ok ONone) in mk_column x21 x22) in Ok (OList [x17; x20])) in set_clause CSelect q v) in let! v := (let! x23 := (let! x26 := (let! x24 := (Ok (OStr ($"timestamp"))) in let! x25 := (Ok ONone) in mk_column x24 x25) in let! x27 := (Ok (OOp GT)) in let! x28 := (Ok (ODateTime (mkDT (mkDate 2021 1 2) 3 4 5 6 (Some 0)))) in mk_condition x26 x27 x28) in Ok (OList [x23])) in set_clause CWhere q v) in let! v := (let! x29 := (let! x32 := (let! x30 := (Ok (OStr ($"event_id"))) in let! x31 := (Ok ONone) in mk_column x30 x31) in let! x33 := (Ok (ODir ASC)) in mk_orderby x32 x33) in let! x34 := (let! x37 := (let! x35 := (Ok (OStr ($"title"))) in let! x36 := (Ok ONone) in mk_column x35 x36) in let! x38 := (Ok (ODir DESC)) in mk_orderby x37 x38) in Ok (OList [x29; x34])) in set_clause COrderby q v) in let! v := (Ok (OInt (10))) in set_clause CLimit q v) in let! v := (Ok (OInt (1))) in set_clause COffset q v) in let! v := (Ok (OInt (3600))) in set_clause CGranularity q v) in validate q) = true.
Proof. vm_compute. reflexivity. Qed.

(* test_query.py, line 184: unary condition *)
Example t184_test_query : passes (let! q := (let! q := (let! q := (let! q := (let! q := (let! q := (let! x1 := (let! o := (let! x2 := (Ok (OStr ($"events"))) in let! x3 := (Ok ONone) in let! x4 := (Ok ONone) in let! x5 := (Ok ONone) in mk_entity x2 x3 x4 x5) in Ok (MObj o)) in let! x6 := (Ok ONone) in let! x7 := (Ok ONone) in let! x8 := (Ok ONone) in let! x9 := (Ok ONone) in let! x10 := (Ok ONone) in let! x11 := (Ok ONone) in let! x12 := (Ok ONone) in let! x13 := (Ok ONone) in let! x14 := (Ok ONone) in let! x15 := (Ok ONone) in let! x16 := (Ok ONone) in mk_query x1 (mkClauses x6 x7 x8 x9 x10 x11 x12 x13 x14 x15 x16)) in let! v := (let! x17 := (let! x18 := (Ok (OStr ($"event_id"))) in let! x19 := (Ok ONone) in mk_column x18 x19) in let! x20 := (let! x21 := (Ok (OStr ($"title"))) in let! x22 := (Ok ONone) in mk_column x21 x22) in Ok (OList [x17; x20])) in set_clause CSelect q v) in let! v := (let! x23 := (let! x26 := (let! x24 := (Ok (OStr ($"timestamp"))) in let! x25 := (Ok ONone) in mk_column x24 x25) in let! x27 := (Ok (OOp IS_NOT_NULL)) in let! x28 := (Ok ONone) in mk_condition x26 x27 x28) in Ok (OList [x23])) in set_clause CWhere q v) in let! v := (Ok (OInt (10))) in set_clause CLimit q v) in let! v := (Ok (OInt (1))) in set_clause COffset q v) in let! v := (Ok (OInt (3600))) in set_clause CGranularity q v) in validate q) = true.
Proof. vm_compute. reflexivity. Qed.

(* test_query.py, line 193: array join *)
Example t185_test_query : passes (let! q := (let! q := (let! q := (let! q := (let! q := (let! q := (let! q := (let! x1 := (let! o := (let! x2 := (Ok (OStr ($"events"))) in let! x3 := (Ok ONone) in let! x4 := (Ok ONone) in let! x5 := (Ok ONone) in mk_entity x2 x3 x4 x5) in Ok (MObj o)) in let! x6 := (Ok ONone) in let! x7 := (Ok ONone) in let! x8 := (Ok ONone) in let! x9 := (Ok ONone) in let! x10 := (Ok ONone) in let! x11 := (Ok ONone) in let! x12 := (Ok ONone) in let! x13 := (Ok ONone) in let! x14 := (Ok ONone) in let! x15 := (Ok ONone) in let! x16 := (Ok ONone) in mk_query x1 (mkClauses x6 x7 x8 x9 x10 x11 x12 x13 x14 x15 x16)) in let! v := (let! x17 := (let! x18 := (Ok (OStr ($"event_id"))) in let! x19 := (Ok ONone) in mk_column x18 x19) in let! x20 := (let! x21 := (Ok (OStr ($"title"))) in let! x22 := (Ok ONone) in mk_column x21 x22) in Ok (OList [x17; x20])) in set_clause CSelect q v) in let! v := (let! x23 := (let! x24 := (Ok (OStr ($"exception_stacks"))) in let! x25 := (Ok ONone) in mk_column x24 x25) in let! x26 := (let! x27 := (Ok (OStr ($"exception_stacks_2"))) in let! x28 := (Ok ONone) in mk_column x27 x28) in Ok (OList [x23; x26])) in set_clause CArrayJoin q v) in let! v := (let! x29 := (let! x32 := (let! x30 := (Ok (OStr ($"timestamp"))) in let! x31 := (Ok ONone) in mk_column x30 x31) in let! x33 := (Ok (OOp IS_NOT_NULL)) in let! x34 := (Ok ONone) in mk_condition x32 x33 x34) in Ok (OList [x29])) in set_clause CWhere q v) in let! v := (Ok (OInt (10))) in set_clause CLimit q v) in let! v := (Ok (OInt (1))) in set_clause COffset q v) in let! v := (Ok (OInt (3600))) in set_clause CGranularity q v) in validate q) = true.
Proof. vm_compute. reflexivity. Qed.

(* test_query.py, line 203: simple subquery *)
Example t186_test_query : passes (let! q := (let! q := (let! q := (let! q := (let! q := (let! q := (let! x1 := (let! q := (let! x2 := (let! o := (let! x3 := (Ok (OStr ($"events"))) in let! x4 := (Ok ONone) in let! x5 := (Ok ONone) in let! x6 := (Ok ONone) in mk_entity x3 x4 x5 x6) in Ok (MObj o)) in let! x7 := (let! x8 := (let! x9 := (Ok (OStr ($"event_id"))) in let! x10 := (Ok ONone) in mk_column x9 x10) in let! x11 := (let! x12 := (Ok (OStr ($"title"))) in let! x13 := (Ok ONone) in mk_column x12 x13) in let! x14 := (let! x15 := (Ok (OStr ($"timestamp"))) in let! x16 := (Ok ONone) in mk_column x15 x16) in Ok (OList [x8; x11; x14])) in let! x17 := (Ok ONone) in let! x18 := (Ok ONone) in let! x19 := (Ok ONone) in let! x20 := (Ok ONone) in let! x21 := (Ok ONone) in let! x22 := (Ok ONone) in let! x23 := (Ok ONone) in let! x24 := (Ok ONone) in let! x25 := (Ok ONone) in let! x26 := (Ok ONone) in mk_query x2 (mkClauses x7 x17 x18 x19 x20 x21 x22 x23 x24 x25 x26)) in Ok (MQuery q)) in let! x27 := (Ok ONone) in let! x28 := (Ok ONone) in let! x29 := (Ok ONone) in let! x30 := (Ok ONone) in let! x31 := (Ok ONone) in let! x32 := (Ok ONone) in let! x33 := (Ok ONone) in let! x34 := (Ok ONone) in let! x35 := (Ok ONone) in let! x36 := (Ok ONone) in let! x37 := (Ok ONone) in mk_query x1 (mkClauses x27 x28 x29 x30 x31 x32 x33 x34 x35 x36 x37)) in let! v := (let! x38 := (let! x39 := (Ok (OStr ($"event_id"))) in let! x40 := (Ok ONone) in mk_column x39 x40) in let! x41 := (let! x42 := (Ok (OStr ($"title"))) in let! x43 := (Ok ONone) in mk_column x42 x43) in Ok (OList [x38; x41])) in set_clause CSelect q v) in let! v := (let! x44 := (let! x47 := (let! x45 := (Ok (OStr ($"timestamp"))) in let! x46 := (Ok ONone) in mk_column x45 x46) in let! x48 := (Ok (OOp IS_NOT_NULL)) in let! x49 := (Ok ONone) in mk_condition x47 x48 x49) in Ok (OList [x44])) in set_clause CWhere q v) in let! v := (Ok (OInt (10))) in set_clause CLimit q v) in let! v := (Ok (OInt (1))) in set_clause COffset q v) in let! v := (Ok (OInt (3600))) in set_clause CGranularity q v) in validate q) = true.
Proof. vm_compute. reflexivity. Qed.

(* test_query.py, line 217: subquery with functions *)
Example t187_test_query : passes (let! q := (let! q := (let! q := (let! q := (let! q := (let! q := (let! q := (let! x1 := (let! q := (let! x2 := (let! o := (let! x3 := (Ok (OStr ($"events"))) in let! x4 := (Ok ONone) in let! x5 := (Ok ONone) in let! x6 := (Ok ONone) in mk_entity x3 x4 x5 x6) in Ok (MObj o)) in let! x7 := (let! x8 := (let! x12 := (Ok (OStr ($"toString"))) in let! x13 := (let! x9 := (let! x10 := (Ok (OStr ($"event_id"))) in let! x11 := (Ok ONone) in mk_column x10 x11) in Ok (OList [x9])) in let! x14 := (Ok (OStr ($"new_event"))) in mk_function x12 x13 x14) in let! x15 := (let! x16 := (Ok (OStr ($"title"))) in let! x17 := (Ok ONone) in mk_column x16 x17) in let! x18 := (let! x19 := (Ok (OStr ($"timestamp"))) in let! x20 := (Ok ONone) in mk_column x19 x20) in Ok (OList [x8; x15; x18])) in let! x21 := (Ok ONone) in let! x22 := (Ok ONone) in let! x23 := (Ok ONone) in let! x24 := (Ok ONone) in let! x25 := (Ok ONone) in let! x26 := (Ok ONone) in let! x27 := (Ok ONone) in let! x28 := (Ok ONone) in let! x29 := (Ok ONone) in let! x30 := (Ok ONone) in mk_query x2 (mkClauses x7 x21 x22 x23 x24 x25 x26 x27 x28 x29 x30)) in Ok (MQuery q)) in let! x31 := (Ok ONone) in let! x32 := (Ok ONone) in let! x33 := (Ok ONone) in let! x34 := (Ok ONone) in let! x35 := (Ok ONone) in let! x36 := (Ok ONone) in let! x37 := (Ok ONone) in let! x38 := (Ok ONone) in let! x39 := (Ok ONone) in let! x40 := (Ok ONone) in let! x41 := (Ok ONone) in mk_query x1 (mkClauses x31 x32 x33 x34 x35 x36 x37 x38 x39 x40 x41)) in let! v := (let! x42 := (let! x46 := (Ok (OStr ($"uniq"))) in let! x47 := (let! x43 := (let! x44 := (Ok (OStr ($"new_event"))) in let! x45 := (Ok ONone) in mk_column x44 x45) in Ok (OList [x43])) in let! x48 := (Ok (OStr ($"uniq_event"))) in mk_function x46 x47 x48) in let! x49 := (let! x50 := (Ok (OStr ($"title"))) in let! x51 := (Ok ONone) in mk_column x50 x51) in Ok (OList [x42; x49])) in set_clause CSelect q v) in let! v := (let! x52 := (let! x53 := (Ok (OStr ($"title"))) in let! x54 := (Ok ONone) in mk_column x53 x54) in Ok (OList [x52])) in set_clause CGroupby q v) in let! v := (let! x55 := (let! x58 := (let! x56 := (Ok (OStr ($"timestamp"))) in let! x57 := (Ok ONone) in mk_column x56 x57) in let! x59 := (Ok (OOp IS_NOT_NULL)) in let! x60 := (Ok ONone) in mk_condition x58 x59 x60) in Ok (OList [x55])) in set_clause CWhere q v) in let! v := (Ok (OInt (10))) in set_clause CLimit q v) in let! v := (Ok (OInt (1))) in set_clause COffset q v) in let! v := (Ok (OInt (3600))) in set_clause CGranularity q v) in validate q) = true.
Proof. vm_compute. reflexivity. Qed.

(* test_query.py, line 238: multiple nested *)
Example t188_test_query : passes (let! q := (let! q := (let! q := (let! q := (let! q := (let! q := (let! x1 := (let! q := (let! x2 := (let! q := (let! x3 := (let! o := (let! x4 := (Ok (OStr ($"events"))) in let! x5 := (Ok ONone) in let! x6 := (Ok ONone) in let! x7 := (Ok ONone) in mk_entity x4 x5 x6 x7) in Ok (MObj o)) in let! x8 := (let! x9 := (let! x10 := (Ok (OStr ($"event_id"))) in let! x11 := (Ok ONone) in mk_column x10 x11) in let! x12 := (let! x13 := (Ok (OStr ($"title"))) in let! x14 := (Ok ONone) in mk_column x13 x14) in let! x15 := (let! x16 := (Ok (OStr ($"timestamp"))) in let! x17 := (Ok ONone) in mk_column x16 x17) in Ok (OList [x9; x12; x15])) in let! x18 := (Ok ONone) in let! x19 := (Ok ONone) in let! x20 := (Ok ONone) in let! x21 := (Ok ONone) in let! x22 := (Ok ONone) in let! x23 := (Ok ONone) in let! x24 := (Ok ONone) in let! x25 := (Ok ONone) in let! x26 := (Ok ONone) in let! x27 := (Ok ONone) in mk_query x3 (mkClauses x8 x18 x19 x20 x21 x22 x23 x24 x25 x26 x27)) in Ok (MQuery q)) in let! x28 := (let! x29 := (let! x33 := (Ok (OStr ($"toString"))) in let! x34 := (let! x30 := (let! x31 := (Ok (OStr ($"event_id"))) in let! x32 := (Ok ONone) in mk_column x31 x32) in Ok (OList [x30])) in let! x35 := (Ok (OStr ($"uniq_event"))) in mk_function x33 x34 x35) in let! x36 := (let! x37 := (Ok (OStr ($"timestamp"))) in let! x38 := (Ok ONone) in mk_column x37 x38) in Ok (OList [x29; x36])) in let! x39 := (Ok ONone) in let! x40 := (Ok ONone) in let! x41 := (Ok ONone) in let! x42 := (Ok ONone) in let! x43 := (Ok ONone) in let! x44 := (Ok ONone) in let! x45 := (Ok ONone) in let! x46 := (Ok ONone) in let! x47 := (Ok ONone) in let! x48 := (Ok ONone) in mk_query x2 (mkClauses x28 x39 x40 x41 x42 x43 x44 x45 x46 x47 x48)) in Ok (MQuery q)) in let! x49 := (Ok ONone) in let! x50 := (Ok ONone) in let! x51 := (Ok ONone) in let! x52 := (Ok ONone) in let! x53 := (Ok ONone) in let! x54 := (Ok ONone) in let! x55 := (Ok ONone) in let! x56 := (Ok ONone) in let! x57 := (Ok ONone) in let! x58 := (Ok ONone) in let! x59 := (Ok ONone) in mk_query x1 (mkClauses x49 x50 x51 x52 x53 x54 x55 x56 x57 x58 x59)) in let! v := (let! x60 := (let! x64 := (Ok (OStr ($"avg"))) in let! x65 := (let! x61 := (let! x62 := (Ok (OStr ($"uniq_event"))) in let! x63 := (Ok ONone) in mk_column x62 x63) in Ok (OList [x61])) in let! x66 := (Ok (OStr ($"avg_event"))) in mk_function x64 x65 x66) in Ok (OList [x60])) in set_clause CSelect q v) in let! v := (let! x67 := (let! x70 := (let! x68 := (Ok (OStr ($"timestamp"))) in let! x69 := (Ok ONone) in mk_column x68 x69) in let! x71 := (Ok (OOp IS_NOT_NULL)) in let! x72 := (Ok ONone) in mk_condition x70 x71 x72) in Ok (OList [x67])) in set_clause CWhere q v) in let! v := (Ok (OInt (10))) in set_clause CLimit q v) in let! v := (Ok (OInt (1))) in set_clause COffset q v) in let! v := (Ok (OInt (3600))) in set_clause CGranularity q v) in validate q) = true.
Proof. vm_compute. reflexivity. Qed.

(* test_query.py, line 258: sequences can mix expressions with literals *)
Example t189_test_query : passes (let! q := (let! q := (let! q := (let! q := (let! q := (let! q := (let! x1 := (let! o := (let! x2 := (Ok (OStr ($"discover"))) in let! x3 := (Ok ONone) in let! x4 := (Ok ONone) in let! x5 := (Ok ONone) in mk_entity x2 x3 x4 x5) in Ok (MObj o)) in let! x6 := (Ok ONone) in let! x7 := (Ok ONone) in let! x8 := (Ok ONone) in let! x9 := (Ok ONone) in let! x10 := (Ok ONone) in let! x11 := (Ok ONone) in let! x12 := (Ok ONone) in let! x13 := (Ok ONone) in let! x14 := (Ok ONone) in let! x15 := (Ok ONone) in let! x16 := (Ok ONone) in mk_query x1 (mkClauses x6 x7 x8 x9 x10 x11 x12 x13 x14 x15 x16)) in let! v := (let! x17 := (let! x28 := (Ok (OStr ($"arrayMax"))) in let! x29 := (let! x18 := (let! x19 := (Ok (OInt (1))) in let! x20 := (let! x25 := (Ok (OStr ($"indexOf"))) in let! x26 := (let! x21 := (Ok (OStr ($"a"))) in let! x22 := (let! x23 := (Ok (OStr ($"hierarchical_hashes"))) in let! x24 := (Ok ONone) in mk_column x23 x24) in Ok (OList [x21; x22])) in let! x27 := (Ok ONone) in mk_function x25 x26 x27) in Ok (OList [x19; x20])) in Ok (OList [x18])) in let! x30 := (Ok ONone) in mk_function x28 x29 x30) in Ok (OList [x17])) in set_clause CSelect q v) in let! v := (let! x31 := (let! x40 := (let! x32 := (Ok (OStr ($"event_id"))) in let! x33 := (Ok ONone) in mk_column x32 x33) in let! x41 := (Ok (OOp IN)) in let! x42 := (let! x34 := (let! x35 := (Ok (OStr ($"group_id"))) in let! x36 := (Ok ONone) in mk_column x35 x36) in let! x37 := (let! x38 := (Ok (OStr ($"primary_hash"))) in let! x39 := (Ok ONone) in mk_column x38 x39) in Ok (OTuple [x34; x37])) in mk_condition x40 x41 x42) in Ok (OList [x31])) in set_clause CWhere q v) in let! v := (Ok (OInt (10))) in set_clause CLimit q v) in let! v := (Ok (OInt (1))) in set_clause COffset q v) in let! v := (Ok (OInt (3600))) in set_clause CGranularity q v) in validate q) = true.
Proof. vm_compute. reflexivity. Qed.

(* test_query.py, line 291: missing select *)
Example t190_test_query : passes (let! x1 := (let! o := (let! x2 := (Ok (OStr ($"events"))) in let! x3 := (Ok ONone) in let! x4 := (Ok ONone) in let! x5 := (Ok ONone) in mk_entity x2 x3 x4 x5) in Ok (MObj o)) in let! x6 := (Ok ONone) in let! x7 := (Ok ONone) in let! x8 := (Ok ONone) in let! x9 := (let! x10 := (let! x13 := (let! x11 := (Ok (OStr ($"timestamp"))) in let! x12 := (Ok ONone) in mk_column x11 x12) in let! x14 := (Ok (OOp GT)) in let! x15 := (Ok (ODateTime (mkDT (mkDate 2021 1 2) 3 4 5 6 (Some 0)))) in mk_condition x13 x14 x15) in Ok (OList [x10])) in let! x16 := (Ok ONone) in let! x17 := (Ok ONone) in let! x18 := (Ok ONone) in let! x19 := (let! x20 := (Ok (OInt (10))) in mk_limit x20) in let! x21 := (let! x22 := (Ok (OInt (1))) in mk_offset x22) in let! x23 := (let! x24 := (Ok (OInt (3600))) in mk_granularity x24) in let! x25 := (Ok ONone) in mk_query x1 (mkClauses x6 x7 x8 x9 x16 x17 x18 x19 x21 x23 x25)) = true.
Proof. vm_compute. reflexivity. Qed.

(* test_query.py, line 291: missing select *)
Example t191_test_query : fails (let! q := (let! x26 := (let! o := (let! x27 := (Ok (OStr ($"events"))) in let! x28 := (Ok ONone) in let! x29 := (Ok ONone) in let! x30 := (Ok ONone) in mk_entity x27 x28 x29 x30) in Ok (MObj o)) in let! x31 := (Ok ONone) in let! x32 := (Ok ONone) in let! x33 := (Ok ONone) in let! x34 := (let! x35 := (let! x38 := (let! x36 := (Ok (OStr ($"timestamp"))) in let! x37 := (Ok ONone) in mk_column x36 x37) in let! x39 := (Ok (OOp GT)) in let! x40 := (Ok (ODateTime (mkDT (mkDate 2021 1 2) 3 4 5 6 (Some 0)))) in mk_condition x38 x39 x40) in Ok (OList [x35])) in let! x41 := (Ok ONone) in let! x42 := (Ok ONone) in let! x43 := (Ok ONone) in let! x44 := (let! x45 := (Ok (OInt (10))) in mk_limit x45) in let! x46 := (let! x47 := (Ok (OInt (1))) in mk_offset x47) in let! x48 := (let! x49 := (Ok (OInt (3600))) in mk_granularity x49) in let! x50 := (Ok ONone) in mk_query x26 (mkClauses x31 x32 x33 x34 x41 x42 x43 x44 x46 x48 x50)) in validate q) (fun e => match e with InvalidQueryError => true | _ => false end) = true.
Proof. vm_compute. reflexivity. Qed.

(* test_query.py, line 304: Totals must have a groupby *)
Example t192_test_query : passes (let! q := (let! x1 := (let! o := (let! x2 := (Ok (OStr ($"events"))) in let! x3 := (Ok ONone) in let! x4 := (Ok ONone) in let! x5 := (Ok ONone) in mk_entity x2 x3 x4 x5) in Ok (MObj o)) in let! x6 := (let! x7 := (let! x8 := (Ok (OStr ($"title"))) in let! x9 := (Ok ONone) in mk_column x8 x9) in Ok (OList [x7])) in let! x10 := (Ok ONone) in let! x11 := (Ok ONone) in let! x12 := (let! x13 := (let! x16 := (let! x14 := (Ok (OStr ($"timestamp"))) in let! x15 := (Ok ONone) in mk_column x14 x15) in let! x17 := (Ok (OOp GT)) in let! x18 := (Ok (ODateTime (mkDT (mkDate 2021 1 2) 3 4 5 6 (Some 0)))) in mk_condition x16 x17 x18) in Ok (OList [x13])) in let! x19 := (Ok ONone) in let! x20 := (Ok ONone) in let! x21 := (Ok ONone) in let! x22 := (let! x23 := (Ok (OInt (10))) in mk_limit x23) in let! x24 := (let! x25 := (Ok (OInt (1))) in mk_offset x25) in let! x26 := (let! x27 := (Ok (OInt (3600))) in mk_granularity x27) in let! x28 := (Ok ONone) in mk_query x1 (mkClauses x6 x10 x11 x12 x19 x20 x21 x22 x24 x26 x28)) in let! v := (Ok (OBool true)) in set_clause CTotals q v) = true.
Proof. vm_compute. reflexivity. Qed.

(* test_query.py, line 304: Totals must have a groupby *)
Example t193_test_query : fails (let! q := (let! q := (let! x29 := (let! o := (let! x30 := (Ok (OStr ($"events"))) in let! x31 := (Ok ONone) in let! x32 := (Ok ONone) in let! x33 := (Ok ONone) in mk_entity x30 x31 x32 x33) in Ok (MObj o)) in let! x34 := (let! x35 := (let! x36 := (Ok (OStr ($"title"))) in let! x37 := (Ok ONone) in mk_column x36 x37) in Ok (OList [x35])) in let! x38 := (Ok ONone) in let! x39 := (Ok ONone) in let! x40 := (let! x41 := (let! x44 := (let! x42 := (Ok (OStr ($"timestamp"))) in let! x43 := (Ok ONone) in mk_column x42 x43) in let! x45 := (Ok (OOp GT)) in let! x46 := (Ok (ODateTime (mkDT (mkDate 2021 1 2) 3 4 5 6 (Some 0)))) in mk_condition x44 x45 x46) in Ok (OList [x41])) in let! x47 := (Ok ONone) in let! x48 := (Ok ONone) in let! x49 := (Ok ONone) in let! x50 := (let! x51 := (Ok (OInt (10))) in mk_limit x51) in let! x52 := (let! x53 := (Ok (OInt (1))) in mk_offset x53) in let! x54 := (let! x55 := (Ok (OInt (3600))) in mk_granularity x55) in let! x56 := (Ok ONone) in mk_query x29 (mkClauses x34 x38 x39 x40 x47 x48 x49 x50 x52 x54 x56)) in let! v := (Ok (OBool true)) in set_clause CTotals q v) in validate q) (fun e => match e with InvalidQueryError => true | _ => false end) = true.
Proof. vm_compute. reflexivity. Qed.

(* test_query.py, line 316: invalid column reference in outer query *)
Example t194_test_query : passes (let! q := (let! q := (let! q := (let! q := (let! q := (let! x1 := (let! q := (let! x2 := (let! o := (let! x3 := (Ok (OStr ($"events"))) in let! x4 := (Ok ONone) in let! x5 := (Ok ONone) in let! x6 := (Ok ONone) in mk_entity x3 x4 x5 x6) in Ok (MObj o)) in let! x7 := (let! x8 := (let! x9 := (Ok (OStr ($"event_id"))) in let! x10 := (Ok ONone) in mk_column x9 x10) in let! x11 := (let! x12 := (Ok (OStr ($"title"))) in let! x13 := (Ok ONone) in mk_column x12 x13) in let! x14 := (let! x15 := (Ok (OStr ($"timestamp"))) in let! x16 := (Ok ONone) in mk_column x15 x16) in Ok (OList [x8; x11; x14])) in let! x17 := (Ok ONone) in let! x18 := (Ok ONone) in let! x19 := (Ok ONone) in let! x20 := (Ok ONone) in let! x21 := (Ok ONone) in let! x22 := (Ok ONone) in let! x23 := (Ok ONone) in let! x24 := (Ok ONone) in let! x25 := (Ok ONone) in let! x26 := (Ok ONone) in mk_query x2 (mkClauses x7 x17 x18 x19 x20 x21 x22 x23 x24 x25 x26)) in Ok (MQuery q)) in let! x27 := (Ok ONone) in let! x28 := (Ok ONone) in let! x29 := (Ok ONone) in let! x30 := (Ok ONone) in let! x31 := (Ok ONone) in let! x32 := (Ok ONone) in let! x33 := (Ok ONone) in let! x34 := (Ok ONone) in let! x35 := (Ok ONone) in let! x36 := (Ok ONone) in let! x37 := (Ok ONone) in mk_query x1 (mkClauses x27 x28 x29 x30 x31 x32 x33 x34 x35 x36 x37)) in let! v := (let! x38 := (let! x39 := (Ok (OStr ($"event_id"))) in let! x40 := (Ok ONone) in mk_column x39 x40) in let! x41 := (let! x42 := (Ok (OStr ($"group_id"))) in let! x43 := (Ok ONone) in mk_column x42 x43) in Ok (OList [x38; x41])) in set_clause CSelect q v) in let! v := (let! x44 := (let! x47 := (let! x45 := (Ok (OStr ($"timestamp"))) in let! x46 := (Ok ONone) in mk_column x45 x46) in let! x48 := (Ok (OOp IS_NOT_NULL)) in let! x49 := (Ok ONone) in mk_condition x47 x48 x49) in Ok (OList [x44])) in set_clause CWhere q v) in let! v := (Ok (OInt (10))) in set_clause CLimit q v) in let! v := (Ok (OInt (1))) in set_clause COffset q v) in let! v := (Ok (OInt (3600))) in set_clause CGranularity q v) = true.
Proof. vm_compute. reflexivity. Qed.

(* test_query.py, line 316: invalid column reference in outer query *)
Example t195_test_query : fails (let! q := (let! q := (let! q := (let! q := (let! q := (let! q := (let! x50 := (let! q := (let! x51 := (let! o := (let! x52 := (Ok (OStr ($"events"))) in let! x53 := (Ok ONone) in let! x54 := (Ok ONone) in let! x55 := (Ok ONone) in mk_entity x52 x53 x54 x55) in Ok (MObj o)) in let! x56 := (let! x57 := (let! x58 := (Ok (OStr ($"event_id"))) in let! x59 := (Ok ONone) in mk_column x58 x59) in let! x60 := (let! x61 := (Ok (OStr ($"title"))) in let! x62 := (Ok ONone) in mk_column x61 x62) in let! x63 := (let! x64 := (Ok (OStr ($"timestamp"))) in let! x65 := (Ok ONone) in mk_column x64 x65) in Ok (OList [x57; x60; x63])) in let! x66 := (Ok ONone) in let! x67 := (Ok ONone) in let! x68 := (Ok ONone) in let! x69 := (Ok ONone) in let! x70 := (Ok ONone) in let! x71 := (Ok ONone) in let! x72 := (Ok ONone) in let! x73 := (Ok ONone) in let! x74 := (Ok ONone) in let! x75 := (Ok ONone) in mk_query x51 (mkClauses x56 x66 x67 x68 x69 x70 x71 x72 x73 x74 x75)) in Ok (MQuery q)) in let! x76 := (Ok ONone) in let! x77 := (Ok ONone) in let! x78 := (Ok ONone) in let! x79 := (Ok ONone) in let! x80 := (Ok ONone) in let! x81 := (Ok ONone) in let! x82 := (Ok ONone) in let! x83 := (Ok ONone) in let! x84 := (Ok ONone) in let! x85 := (Ok ONone) in let! x86 := (Ok ONone) in mk_query x50 (mkClauses x76 x77 x78 x79 x80 x81 x82 x83 x84 x85 x86)) in let! v := (let! x87 := (let! x88 := (Ok (OStr ($"event_id"))) in let! x89 := (Ok ONone) in mk_column x88 x89) in let! x90 := (let! x91 := (Ok (OStr ($"group_id"))) in let! x92 := (Ok ONone) in mk_column x91 x92) in Ok (OList [x87; x90])) in set_clause CSelect q v) in let! v := (let! x93 := (let! x96 := (let! x94 := (Ok (OStr ($"timestamp"))) in let! x95 := (Ok ONone) in mk_column x94 x95) in let! x97 := (Ok (OOp IS_NOT_NULL)) in let! x98 := (Ok ONone) in mk_condition x96 x97 x98) in Ok (OList [x93])) in set_clause CWhere q v) in let! v := (Ok (OInt (10))) in set_clause CLimit q v) in let! v := (Ok (OInt (1))) in set_clause COffset q v) in let! v := (Ok (OInt (3600))) in set_clause CGranularity q v) in validate q) (fun e => match e with InvalidMatchError => true | _ => false end) = true.
Proof. vm_compute. reflexivity. Qed.

(* test_query.py, line 333: outer query is referencing column not alias *)
Example t196_test_query : passes (let! q := (let! q := (let! q := (let! q := (let! q := (let! q := (let! x1 := (let! q := (let! x2 := (let! o := (let! x3 := (Ok (OStr ($"events"))) in let! x4 := (Ok ONone) in let! x5 := (Ok ONone) in let! x6 := (Ok ONone) in mk_entity x3 x4 x5 x6) in Ok (MObj o)) in let! x7 := (let! x8 := (let! x12 := (Ok (OStr ($"toString"))) in let! x13 := (let! x9 := (let! x10 := (Ok (OStr ($"event_id"))) in let! x11 := (Ok ONone) in mk_column x10 x11) in Ok (OList [x9])) in let! x14 := (Ok (OStr ($"new_event"))) in mk_function x12 x13 x14) in let! x15 := (let! x16 := (Ok (OStr ($"title"))) in let! x17 := (Ok ONone) in mk_column x16 x17) in let! x18 := (let! x19 := (Ok (OStr ($"timestamp"))) in let! x20 := (Ok ONone) in mk_column x19 x20) in Ok (OList [x8; x15; x18])) in let! x21 := (Ok ONone) in let! x22 := (Ok ONone) in let! x23 := (Ok ONone) in let! x24 := (Ok ONone) in let! x25 := (Ok ONone) in let! x26 := (Ok ONone) in let! x27 := (Ok ONone) in let! x28 := (Ok ONone) in let! x29 := (Ok ONone) in let! x30 := (Ok ONone) in mk_query x2 (mkClauses x7 x21 x22 x23 x24 x25 x26 x27 x28 x29 x30)) in Ok (MQuery q)) in let! x31 := (Ok ONone) in let! x32 := (Ok ONone) in let! x33 := (Ok ONone) in let! x34 := (Ok ONone) in let! x35 := (Ok ONone) in let! x36 := (Ok ONone) in let! x37 := (Ok ONone) in let! x38 := (Ok ONone) in let! x39 := (Ok ONone) in let! x40 := (Ok ONone) in let! x41 := (Ok ONone) in mk_query x1 (mkClauses x31 x32 x33 x34 x35 x36 x37 x38 x39 x40 x41)) in let! v := (let! x42 := (let! x46 := (Ok (OStr ($"uniq"))) in let! x47 := (let! x43 := (let! x44 := (Ok (OStr ($"event_id"))) in let! x45 := (Ok ONone) in mk_column x44 x45) in Ok (OList [x43])) in let! x48 := (Ok (OStr ($"uniq_event"))) in mk_function x46 x47 x48) in let! x49 := (let! x50 := (Ok (OStr ($"title"))) in let! x51 := (Ok ONone) in mk_column x50 x51) in Ok (OList [x42; x49])) in set_clause CSelect q v) in let! v := (let! x52 := (let! x53 := (Ok (OStr ($"title"))) in let! x54 := (Ok ONone) in mk_column x53 x54) in Ok (OList [x52])) in set_clause CGroupby q v) in let! v := (let! x55 := (let! x58 := (let! x56 := (Ok (OStr ($"timestamp"))) in let! x57 := (Ok ONone) in mk_column x56 x57) in let! x59 := (Ok (OOp IS_NOT_NULL)) in let! x60 := (Ok ONone) in mk_condition x58 x59 x60) in Ok (OList [x55])) in set_clause CWhere q v) in let! v := (Ok (OInt (10))) in set_clause CLimit q v) in let! v := (Ok (OInt (1))) in set_clause COffset q v) in let! v := (Ok (OInt (3600))) in set_clause CGranularity q v) = true.
Proof. vm_compute. reflexivity. Qed.

(* test_query.py, line 333: outer query is referencing column not alias *)
Example t197_test_query : fails (let! q := (let! q := (let! q := (let! q := (let! q := (let! q := (let! q := (let! x61 := (let! q := (let! x62 := (let! o := (let! x63 := (Ok (OStr ($"events"))) in let! x64 := (Ok ONone) in let! x65 := (Ok ONone) in let! x66 := (Ok ONone) in mk_entity x63 x64 x65 x66) in Ok (MObj o)) in let! x67 := (let! x68 := (let! x72 := (Ok (OStr ($"toString"))) in let! x73 := (let! x69 := (let! x70 := (Ok (OStr ($"event_id"))) in let! x71 := (Ok ONone) in mk_column x70 x71) in Ok (OList [x69])) in let! x74 := (Ok (OStr ($"new_event"))) in mk_function x72 x73 x74) in let! x75 := (let! x76 := (Ok (OStr ($"title"))) in let! x77 := (Ok ONone) in mk_column x76 x77) in let! x78 := (let! x79 := (Ok (OStr ($"timestamp"))) in let! x80 := (Ok ONone) in mk_column x79 x80) in Ok (OList [x68; x75; x78])) in let! x81 := (Ok ONone) in let! x82 := (Ok ONone) in let! x83 := (Ok ONone) in let! x84 := (Ok ONone) in let! x85 := (Ok ONone) in let! x86 := (Ok ONone) in let! x87 := (Ok ONone) in let! x88 := (Ok ONone) in let! x89 := (Ok ONone) in let! x90 := (Ok ONone) in mk_query x62 (mkClauses x67 x81 x82 x83 x84 x85 x86 x87 x88 x89 x90)) in Ok (MQuery q)) in let! x91 := (Ok ONone) in let! x92 := (Ok ONone) in let! x93 := (Ok ONone) in let! x94 := (Ok ONone) in let! x95 := (Ok ONone) in let! x96 := (Ok ONone) in let! x97 := (Ok ONone) in let! x98 := (Ok ONone) in let! x99 := (Ok ONone) in let! x100 := (Ok ONone) in let! x101 := (Ok ONone) in mk_query x61 (mkClauses x91 x92 x93 x94 x95 x96 x97 x98 x99 x100 x101)) in let! v := (let! x102 := (let! x106 := (Ok (OStr ($"uniq"))) in let! x107 := (let! x103 := (let! x104 := (Ok (OStr ($"event_id"))) in let! x105 := (Ok ONone) in mk_column x104 x105) in Ok (OList [x103])) in let! x108 := (Ok (OStr ($"uniq_event"))) in mk_function x106 x107 x108) in let! x109 := (let! x110 := (Ok (OStr ($"title"))) in let! x111 := (Ok ONone) in mk_column x110 x111) in Ok (OList [x102; x109])) in set_clause CSelect q v) in let! v := (let! x112 := (let! x113 := (Ok (OStr ($"title"))) in let! x114 := (Ok ONone) in mk_column x113 x114) in Ok (OList [x112])) in set_clause CGroupby q v) in let! v := (let! x115 := (let! x118 := (let! x116 := (Ok (OStr ($"timestamp"))) in let! x117 := (Ok ONone) in mk_column x116 x117) in let! x119 := (Ok (OOp IS_NOT_NULL)) in let! x120 := (Ok ONone) in mk_condition x118 x119 x120) in Ok (OList [x115])) in set_clause CWhere q v) in let! v := (Ok (OInt (10))) in set_clause CLimit q v) in let! v := (Ok (OInt (1))) in set_clause COffset q v) in let! v := (Ok (OInt (3600))) in set_clause CGranularity q v) in validate q) (fun e => match e with InvalidMatchError => true | _ => false end) = true.
Proof. vm_compute. reflexivity. Qed.

(* test_query_visitors.py, line 20: basic query *)
Example t198_test_query_visitors : same_str (let! q := (let! q := (let! q := (let! q := (let! q := (let! q := (let! x1 := (let! o := (let! x2 := (Ok (OStr ($"events"))) in let! x3 := (Ok ONone) in let! x4 := (Ok ONone) in let! x5 := (Ok ONone) in mk_entity x2 x3 x4 x5) in Ok (MObj o)) in let! x6 := (Ok ONone) in let! x7 := (Ok ONone) in let! x8 := (Ok ONone) in let! x9 := (Ok ONone) in let! x10 := (Ok ONone) in let! x11 := (Ok ONone) in let! x12 := (Ok ONone) in let! x13 := (Ok ONone) in let! x14 := (Ok ONone) in let! x15 := (Ok ONone) in let! x16 := (Ok ONone) in mk_query x1 (mkClauses x6 x7 x8 x9 x10 x11 x12 x13 x14 x15 x16)) in let! v := (let! x17 := (let! x18 := (Ok (OStr ($"event_id"))) in let! x19 := (Ok ONone) in mk_column x18 x19) in Ok (OList [x17])) in set_clause CSelect q v) in let! v := (let! x20 := (let! x23 := (let! x21 := (Ok (OStr ($"timestamp"))) in let! x22 := (Ok ONone) in mk_column x21 x22) in let! x24 := (Ok (OOp GT)) in let! x25 := (Ok (ODateTime (mkDT (mkDate 2021 1 2) 3 4 5 6 (Some 0)))) in mk_condition x23 x24 x25) in Ok (OList [x20])) in set_clause CWhere q v) in let! v := (Ok (OInt (10))) in set_clause CLimit q v) in let! v := (Ok (OInt (1))) in set_clause COffset q v) in let! v := (Ok (OInt (3600))) in set_clause CGranularity q v) in serialize q) ($"MATCH (events) SELECT event_id WHERE timestamp > toDateTime('2021-01-02T03:04:05.000006') LIMIT 10 OFFSET 1 GRANULARITY 3600") = true.
Proof. vm_compute. reflexivity. Qed.

(* test_query_visitors.py, line 20: basic query *)
Example t199_test_query_visitors : same_str (let! q := (let! q := (let! q := (let! q := (let! q := (let! q := (let! x1 := (let! o := (let! x2 := (Ok (OStr ($"events"))) in let! x3 := (Ok ONone) in let! x4 := (Ok ONone) in let! x5 := (Ok ONone) in mk_entity x2 x3 x4 x5) in Ok (MObj o)) in let! x6 := (Ok ONone) in let! x7 := (Ok ONone) in let! x8 := (Ok ONone) in let! x9 := (Ok ONone) in let! x10 := (Ok ONone) in let! x11 := (Ok ONone) in let! x12 := (Ok ONone) in let! x13 := (Ok ONone) in let! x14 := (Ok ONone) in let! x15 := (Ok ONone) in let! x16 := (Ok ONone) in mk_query x1 (mkClauses x6 x7 x8 x9 x10 x11 x12 x13 x14 x15 x16)) in let! v := (let! x17 := (let! x18 := (Ok (OStr ($"event_id"))) in let! x19 := (Ok ONone) in mk_column x18 x19) in Ok (OList [x17])) in set_clause CSelect q v) in let! v := (let! x20 := (let! x23 := (let! x21 := (Ok (OStr ($"timestamp"))) in let! x22 := (Ok ONone) in mk_column x21 x22) in let! x24 := (Ok (OOp GT)) in let! x25 := (Ok (ODateTime (mkDT (mkDate 2021 1 2) 3 4 5 6 (Some 0)))) in mk_condition x23 x24 x25) in Ok (OList [x20])) in set_clause CWhere q v) in let! v := (Ok (OInt (10))) in set_clause CLimit q v) in let! v := (Ok (OInt (1))) in set_clause COffset q v) in let! v := (Ok (OInt (3600))) in set_clause CGranularity q v) in print q) [77; 65; 84; 67; 72; 32; 40; 101; 118; 101; 110; 116; 115; 41; 10; 83; 69; 76; 69; 67; 84; 32; 101; 118; 101; 110; 116; 95; 105; 100; 10; 87; 72; 69; 82; 69; 32; 116; 105; 109; 101; 115; 116; 97; 109; 112; 32; 62; 32; 116; 111; 68; 97; 116; 101; 84; 105; 109; 101; 40; 39; 50; 48; 50; 49; 45; 48; 49; 45; 48; 50; 84; 48; 51; 58; 48; 52; 58; 48; 53; 46; 48; 48; 48; 48; 48; 54; 39; 41; 10; 76; 73; 77; 73; 84; 32; 49; 48; 10; 79; 70; 70; 83; 69; 84; 32; 49; 10; 71; 82; 65; 78; 85; 76; 65; 82; 73; 84; 89; 32; 51; 54; 48; 48]%N = true.
Proof. vm_compute. reflexivity. Qed.

(* test_query_visitors.py, line 20: basic query *)
Example t200_test_query_visitors : same_str (let! q := (let! q := (let! q := (let! q := (let! q := (let! q := (let! x1 := (let! o := (let! x2 := (Ok (OStr ($"events"))) in let! x3 := (Ok ONone) in let! x4 := (Ok ONone) in let! x5 := (Ok ONone) in mk_entity x2 x3 x4 x5) in Ok (MObj o)) in let! x6 := (Ok ONone) in let! x7 := (Ok ONone) in let! x8 := (Ok ONone) in let! x9 := (Ok ONone) in let! x10 := (Ok ONone) in let! x11 := (Ok ONone) in let! x12 := (Ok ONone) in let! x13 := (Ok ONone) in let! x14 := (Ok ONone) in let! x15 := (Ok ONone) in let! x16 := (Ok ONone) in mk_query x1 (mkClauses x6 x7 x8 x9 x10 x11 x12 x13 x14 x15 x16)) in let! v := (let! x17 := (let! x18 := (Ok (OStr ($"event_id"))) in let! x19 := (Ok ONone) in mk_column x18 x19) in Ok (OList [x17])) in set_clause CSelect q v) in let! v := (let! x20 := (let! x23 := (let! x21 := (Ok (OStr ($"timestamp"))) in let! x22 := (Ok ONone) in mk_column x21 x22) in let! x24 := (Ok (OOp GT)) in let! x25 := (Ok (ODateTime (mkDT (mkDate 2021 1 2) 3 4 5 6 (Some 0)))) in mk_condition x23 x24 x25) in Ok (OList [x20])) in set_clause CWhere q v) in let! v := (Ok (OInt (10))) in set_clause CLimit q v) in let! v := (Ok (OInt (1))) in set_clause COffset q v) in let! v := (Ok (OInt (3600))) in set_clause CGranularity q v) in print_query ($" ") q) ($"MATCH (events) SELECT event_id WHERE timestamp > toDateTime('2021-01-02T03:04:05.000006') LIMIT 10 OFFSET 1 GRANULARITY 3600") = true.
Proof. vm_compute. reflexivity. Qed.

(* test_query_visitors.py, line 37: basic storage query *)
Example t201_test_query_visitors : same_str (let! q := (let! q := (let! q := (let! q := (let! q := (let! q := (let! x1 := (let! o := (let! x2 := (Ok (OStr ($"events"))) in let! x3 := (Ok ONone) in let! x4 := (Ok ONone) in mk_storage x2 x3 x4) in Ok (MObj o)) in let! x5 := (Ok ONone) in let! x6 := (Ok ONone) in let! x7 := (Ok ONone) in let! x8 := (Ok ONone) in let! x9 := (Ok ONone) in let! x10 := (Ok ONone) in let! x11 := (Ok ONone) in let! x12 := (Ok ONone) in let! x13 := (Ok ONone) in let! x14 := (Ok ONone) in let! x15 := (Ok ONone) in mk_query x1 (mkClauses x5 x6 x7 x8 x9 x10 x11 x12 x13 x14 x15)) in let! v := (let! x16 := (let! x17 := (Ok (OStr ($"event_id"))) in let! x18 := (Ok ONone) in mk_column x17 x18) in Ok (OList [x16])) in set_clause CSelect q v) in let! v := (let! x19 := (let! x22 := (let! x20 := (Ok (OStr ($"timestamp"))) in let! x21 := (Ok ONone) in mk_column x20 x21) in let! x23 := (Ok (OOp GT)) in let! x24 := (Ok (ODateTime (mkDT (mkDate 2021 1 2) 3 4 5 6 (Some 0)))) in mk_condition x22 x23 x24) in Ok (OList [x19])) in set_clause CWhere q v) in let! v := (Ok (OInt (10))) in set_clause CLimit q v) in let! v := (Ok (OInt (1))) in set_clause COffset q v) in let! v := (Ok (OInt (3600))) in set_clause CGranularity q v) in serialize q) ($"MATCH STORAGE(events) SELECT event_id WHERE timestamp > toDateTime('2021-01-02T03:04:05.000006') LIMIT 10 OFFSET 1 GRANULARITY 3600") = true.
Proof. vm_compute. reflexivity. Qed.

(* test_query_visitors.py, line 37: basic storage query *)
Example t202_test_query_visitors : same_str (let! q := (let! q := (let! q := (let! q := (let! q := (let! q := (let! x1 := (let! o := (let! x2 := (Ok (OStr ($"events"))) in let! x3 := (Ok ONone) in let! x4 := (Ok ONone) in mk_storage x2 x3 x4) in Ok (MObj o)) in let! x5 := (Ok ONone) in let! x6 := (Ok ONone) in let! x7 := (Ok ONone) in let! x8 := (Ok ONone) in let! x9 := (Ok ONone) in let! x10 := (Ok ONone) in let! x11 := (Ok ONone) in let! x12 := (Ok ONone) in let! x13 := (Ok ONone) in let! x14 := (Ok ONone) in let! x15 := (Ok ONone) in mk_query x1 (mkClauses x5 x6 x7 x8 x9 x10 x11 x12 x13 x14 x15)) in let! v := (let! x16 := (let! x17 := (Ok (OStr ($"event_id"))) in let! x18 := (Ok ONone) in mk_column x17 x18) in Ok (OList [x16])) in set_clause CSelect q v) in let! v := (let! x19 := (let! x22 := (let! x20 := (Ok (OStr ($"timestamp"))) in let! x21 := (Ok ONone) in mk_column x20 x21) in let! x23 := (Ok (OOp GT)) in let! x24 := (Ok (ODateTime (mkDT (mkDate 2021 1 2) 3 4 5 6 (Some 0)))) in mk_condition x22 x23 x24) in Ok (OList [x19])) in set_clause CWhere q v) in let! v := (Ok (OInt (10))) in set_clause CLimit q v) in let! v := (Ok (OInt (1))) in set_clause COffset q v) in let! v := (Ok (OInt (3600))) in set_clause CGranularity q v) in print q) [77; 65; 84; 67; 72; 32; 83; 84; 79; 82; 65; 71; 69; 40; 101; 118; 101; 110; 116; 115; 41; 10; 83; 69; 76; 69; 67; 84; 32; 101; 118; 101; 110; 116; 95; 105; 100; 10; 87; 72; 69; 82; 69; 32; 116; 105; 109; 101; 115; 116; 97; 109; 112; 32; 62; 32; 116; 111; 68; 97; 116; 101; 84; 105; 109; 101; 40; 39; 50; 48; 50; 49; 45; 48; 49; 45; 48; 50; 84; 48; 51; 58; 48; 52; 58; 48; 53; 46; 48; 48; 48; 48; 48; 54; 39; 41; 10; 76; 73; 77; 73; 84; 32; 49; 48; 10; 79; 70; 70; 83; 69; 84; 32; 49; 10; 71; 82; 65; 78; 85; 76; 65; 82; 73; 84; 89; 32; 51; 54; 48; 48]%N = true.
Proof. vm_compute. reflexivity. Qed.

(* test_query_visitors.py, line 37: basic storage query *)
Example t203_test_query_visitors : same_str (let! q := (let! q := (let! q := (let! q := (let! q := (let! q := (let! x1 := (let! o := (let! x2 := (Ok (OStr ($"events"))) in let! x3 := (Ok ONone) in let! x4 := (Ok ONone) in mk_storage x2 x3 x4) in Ok (MObj o)) in let! x5 := (Ok ONone) in let! x6 := (Ok ONone) in let! x7 := (Ok ONone) in let! x8 := (Ok ONone) in let! x9 := (Ok ONone) in let! x10 := (Ok ONone) in let! x11 := (Ok ONone) in let! x12 := (Ok ONone) in let! x13 := (Ok ONone) in let! x14 := (Ok ONone) in let! x15 := (Ok ONone) in mk_query x1 (mkClauses x5 x6 x7 x8 x9 x10 x11 x12 x13 x14 x15)) in let! v := (let! x16 := (let! x17 := (Ok (OStr ($"event_id"))) in let! x18 := (Ok ONone) in mk_column x17 x18) in Ok (OList [x16])) in set_clause CSelect q v) in let! v := (let! x19 := (let! x22 := (let! x20 := (Ok (OStr ($"timestamp"))) in let! x21 := (Ok ONone) in mk_column x20 x21) in let! x23 := (Ok (OOp GT)) in let! x24 := (Ok (ODateTime (mkDT (mkDate 2021 1 2) 3 4 5 6 (Some 0)))) in mk_condition x22 x23 x24) in Ok (OList [x19])) in set_clause CWhere q v) in let! v := (Ok (OInt (10))) in set_clause CLimit q v) in let! v := (Ok (OInt (1))) in set_clause COffset q v) in let! v := (Ok (OInt (3600))) in set_clause CGranularity q v) in print_query ($" ") q) ($"MATCH STORAGE(events) SELECT event_id WHERE timestamp > toDateTime('2021-01-02T03:04:05.000006') LIMIT 10 OFFSET 1 GRANULARITY 3600") = true.
Proof. vm_compute. reflexivity. Qed.

(* test_query_visitors.py, line 54: query with all clauses *)
Example t204_test_query_visitors : same_str (let! q := (let! x1 := (let! o := (let! x2 := (Ok (OStr ($"events"))) in let! x3 := (Ok (OStr ($"e"))) in let! x4 := (Ok (OFloat (FFin false 1000%N (0)))) in let! x5 := (Ok ONone) in mk_entity x2 x3 x4 x5) in Ok (MObj o)) in let! x6 := (let! x7 := (let! x8 := (Ok (OStr ($"title"))) in let! x9 := (Ok ONone) in mk_column x8 x9) in let! x10 := (let! x14 := (Ok (OStr ($"uniq"))) in let! x15 := (let! x11 := (let! x12 := (Ok (OStr ($"event_id"))) in let! x13 := (Ok ONone) in mk_column x12 x13) in Ok (OList [x11])) in let! x16 := (Ok (OStr ($"uniq_events"))) in mk_function x14 x15 x16) in let! x17 := (let! x22 := (Ok (OStr ($"quantile"))) in let! x23 := (let! x18 := (Ok (OFloat (FFin false 1%N (-1)))) in Ok (OList [x18])) in let! x24 := (let! x19 := (let! x20 := (Ok (OStr ($"duration"))) in let! x21 := (Ok ONone) in mk_column x20 x21) in Ok (OList [x19])) in let! x25 := (Ok (OStr ($"p50"))) in mk_curried x22 x23 x24 x25) in Ok (OList [x7; x10; x17])) in let! x26 := (let! x27 := (let! x28 := (Ok (OStr ($"title"))) in let! x29 := (Ok ONone) in mk_column x28 x29) in Ok (OList [x27])) in let! x30 := (Ok ONone) in let! x31 := (let! x32 := (let! x35 := (let! x33 := (Ok (OStr ($"timestamp"))) in let! x34 := (Ok ONone) in mk_column x33 x34) in let! x36 := (Ok (OOp GT)) in let! x37 := (Ok (ODateTime (mkDT (mkDate 2021 1 2) 3 4 5 6 (Some 0)))) in mk_condition x35 x36 x37) in let! x38 := (let! x45 := (let! x42 := (Ok (OStr ($"toHour"))) in let! x43 := (let! x39 := (let! x40 := (Ok (OStr ($"timestamp"))) in let! x41 := (Ok ONone) in mk_column x40 x41) in Ok (OList [x39])) in let! x44 := (Ok ONone) in mk_function x42 x43 x44) in let! x46 := (Ok (OOp LTE)) in let! x47 := (Ok (ODateTime (mkDT (mkDate 2021 1 2) 3 4 5 6 (Some 0)))) in mk_condition x45 x46 x47) in let! x48 := (let! x57 := (let! x49 := (Ok (OStr ($"project_id"))) in let! x50 := (Ok ONone) in mk_column x49 x50) in let! x58 := (Ok (OOp IN)) in let! x59 := (let! x54 := (Ok (OStr ($"tuple"))) in let! x55 := (let! x51 := (Ok (OInt (1))) in let! x52 := (Ok (OInt (2))) in let! x53 := (Ok (OInt (3))) in Ok (OList [x51; x52; x53])) in let! x56 := (Ok ONone) in mk_function x54 x55 x56) in mk_condition x57 x58 x59) in let! x60 := (let! x73 := (Ok (OBoolOp OR)) in let! x74 := (let! x61 := (let! x64 := (let! x62 := (Ok (OStr ($"event_id"))) in let! x63 := (Ok ONone) in mk_column x62 x63) in let! x65 := (Ok (OOp EQ)) in let! x66 := (Ok (OStr ($"abc"))) in mk_condition x64 x65 x66) in let! x67 := (let! x70 := (let! x68 := (Ok (OStr ($"duration"))) in let! x69 := (Ok ONone) in mk_column x68 x69) in let! x71 := (Ok (OOp GT)) in let! x72 := (Ok (OInt (10))) in mk_condition x70 x71 x72) in Ok (OList [x61; x67])) in mk_boolean_condition x73 x74) in Ok (OList [x32; x38; x48; x60])) in let! x75 := (let! x76 := (let! x83 := (let! x80 := (Ok (OStr ($"uniq"))) in let! x81 := (let! x77 := (let! x78 := (Ok (OStr ($"event_id"))) in let! x79 := (Ok ONone) in mk_column x78 x79) in Ok (OList [x77])) in let! x82 := (Ok ONone) in mk_function x80 x81 x82) in let! x84 := (Ok (OOp GT)) in let! x85 := (Ok (OInt (1))) in mk_condition x83 x84 x85) in let! x86 := (let! x109 := (Ok (OBoolOp OR)) in let! x110 := (let! x87 := (let! x94 := (let! x91 := (Ok (OStr ($"uniq"))) in let! x92 := (let! x88 := (let! x89 := (Ok (OStr ($"event_id"))) in let! x90 := (Ok ONone) in mk_column x89 x90) in Ok (OList [x88])) in let! x93 := (Ok ONone) in mk_function x91 x92 x93) in let! x95 := (Ok (OOp GTE)) in let! x96 := (Ok (OInt (10))) in mk_condition x94 x95 x96) in let! x97 := (let! x106 := (let! x102 := (Ok (OStr ($"quantile"))) in let! x103 := (let! x98 := (Ok (OFloat (FFin false 1%N (-1)))) in Ok (OList [x98])) in let! x104 := (let! x99 := (let! x100 := (Ok (OStr ($"duration"))) in let! x101 := (Ok ONone) in mk_column x100 x101) in Ok (OList [x99])) in let! x105 := (Ok ONone) in mk_curried x102 x103 x104 x105) in let! x107 := (Ok (OOp GTE)) in let! x108 := (Ok (OInt (99))) in mk_condition x106 x107 x108) in Ok (OList [x87; x97])) in mk_boolean_condition x109 x110) in Ok (OList [x76; x86])) in let! x111 := (let! x112 := (let! x115 := (let! x113 := (Ok (OStr ($"title"))) in let! x114 := (Ok ONone) in mk_column x113 x114) in let! x116 := (Ok (ODir ASC)) in mk_orderby x115 x116) in Ok (OList [x112])) in let! x117 := (let! x121 := (let! x118 := (let! x119 := (Ok (OStr ($"title"))) in let! x120 := (Ok ONone) in mk_column x119 x120) in Ok (OList [x118])) in let! x122 := (Ok (OInt (5))) in mk_limitby x121 x122) in let! x123 := (let! x124 := (Ok (OInt (10))) in mk_limit x124) in let! x125 := (let! x126 := (Ok (OInt (1))) in mk_offset x126) in let! x127 := (let! x128 := (Ok (OInt (3600))) in mk_granularity x128) in let! x129 := (let! x130 := (Ok (OBool true)) in mk_totals x130) in mk_query x1 (mkClauses x6 x26 x30 x31 x75 x111 x117 x123 x125 x127 x129)) in serialize q) ($"MATCH (events SAMPLE 1000.0) SELECT title, uniq(event_id) AS `uniq_events`, quantile(0.5)(duration) AS `p50` BY title WHERE timestamp > toDateTime('2021-01-02T03:04:05.000006') AND toHour(timestamp) <= toDateTime('2021-01-02T03:04:05.000006') AND project_id IN tuple(1, 2, 3) AND (event_id = 'abc' OR duration > 10) HAVING uniq(event_id) > 1 AND (uniq(event_id) >= 10 OR quantile(0.5)(duration) >= 99) ORDER BY title ASC LIMIT 5 BY title LIMIT 10 OFFSET 1 GRANULARITY 3600 TOTALS True") = true.
Proof. vm_compute. reflexivity. Qed.

(* test_query_visitors.py, line 54: query with all clauses *)
Example t205_test_query_visitors : same_str (let! q := (let! x1 := (let! o := (let! x2 := (Ok (OStr ($"events"))) in let! x3 := (Ok (OStr ($"e"))) in let! x4 := (Ok (OFloat (FFin false 1000%N (0)))) in let! x5 := (Ok ONone) in mk_entity x2 x3 x4 x5) in Ok (MObj o)) in let! x6 := (let! x7 := (let! x8 := (Ok (OStr ($"title"))) in let! x9 := (Ok ONone) in mk_column x8 x9) in let! x10 := (let! x14 := (Ok (OStr ($"uniq"))) in let! x15 := (let! x11 := (let! x12 := (Ok (OStr ($"event_id"))) in let! x13 := (Ok ONone) in mk_column x12 x13) in Ok (OList [x11])) in let! x16 := (Ok (OStr ($"uniq_events"))) in mk_function x14 x15 x16) in let! x17 := (let! x22 := (Ok (OStr ($"quantile"))) in let! x23 := (let! x18 := (Ok (OFloat (FFin false 1%N (-1)))) in Ok (OList [x18])) in let! x24 := (let! x19 := (let! x20 := (Ok (OStr ($"duration"))) in let! x21 := (Ok ONone) in mk_column x20 x21) in Ok (OList [x19])) in let! x25 := (Ok (OStr ($"p50"))) in mk_curried x22 x23 x24 x25) in Ok (OList [x7; x10; x17])) in let! x26 := (let! x27 := (let! x28 := (Ok (OStr ($"title"))) in let! x29 := (Ok ONone) in mk_column x28 x29) in Ok (OList [x27])) in let! x30 := (Ok ONone) in let! x31 := (let! x32 := (let! x35 := (let! x33 := (Ok (OStr ($"timestamp"))) in let! x34 := (Ok ONone) in mk_column x33 x34) in let! x36 := (Ok (OOp GT)) in let! x37 := (Ok (ODateTime (mkDT (mkDate 2021 1 2) 3 4 5 6 (Some 0)))) in mk_condition x35 x36 x37) in let! x38 := (let! x45 := (let! x42 := (Ok (OStr ($"toHour"))) in let! x43 := (let! x39 := (let! x40 := (Ok (OStr ($"timestamp"))) in let! x41 := (Ok ONone) in mk_column x40 x41) in Ok (OList [x39])) in let! x44 := (Ok ONone) in mk_function x42 x43 x44) in let! x46 := (Ok (OOp LTE)) in let! x47 := (Ok (ODateTime (mkDT (mkDate 2021 1 2) 3 4 5 6 (Some 0)))) in mk_condition x45 x46 x47) in let! x48 := (let! x57 := (let! x49 := (Ok (OStr ($"project_id"))) in let! x50 := (Ok ONone) in mk_column x49 x50) in let! x58 := (Ok (OOp IN)) in let! x59 := (let! x54 := (Ok (OStr ($"tuple"))) in let! x55 := (let! x51 := (Ok (OInt (1))) in let! x52 := (Ok (OInt (2))) in let! x53 := (Ok (OInt (3))) in Ok (OList [x51; x52; x53])) in let! x56 := (Ok ONone) in mk_function x54 x55 x56) in mk_condition x57 x58 x59) in let! x60 := (let! x73 := (Ok (OBoolOp OR)) in let! x74 := (let! x61 := (let! x64 := (let! x62 := (Ok (OStr ($"event_id"))) in let! x63 := (Ok ONone) in mk_column x62 x63) in let! x65 := (Ok (OOp EQ)) in let! x66 := (Ok (OStr ($"abc"))) in mk_condition x64 x65 x66) in let! x67 := (let! x70 := (let! x68 := (Ok (OStr ($"duration"))) in let! x69 := (Ok ONone) in mk_column x68 x69) in let! x71 := (Ok (OOp GT)) in let! x72 := (Ok (OInt (10))) in mk_condition x70 x71 x72) in Ok (OList [x61; x67])) in mk_boolean_condition x73 x74) in Ok (OList [x32; x38; x48; x60])) in let! x75 := (let! x76 := (let! x83 := (let! x80 := (Ok (OStr ($"uniq"))) in let! x81 := (let! x77 := (let! x78 := (Ok (OStr ($"event_id"))) in let! x79 := (Ok ONone) in mk_column x78 x79) in Ok (OList [x77])) in let! x82 := (Ok ONone) in mk_function x80 x81 x82) in let! x84 := (Ok (OOp GT)) in let! x85 := (Ok (OInt (1))) in mk_condition x83 x84 x85) in let! x86 := (let! x109 := (Ok (OBoolOp OR)) in let! x110 := (let! x87 := (let! x94 := (let! x91 := (Ok (OStr ($"uniq"))) in let! x92 := (let! x88 := (let! x89 := (Ok (OStr ($"event_id"))) in let! x90 := (Ok ONone) in mk_column x89 x90) in Ok (OList [x88])) in let! x93 := (Ok ONone) in mk_function x91 x92 x93) in let! x95 := (Ok (OOp GTE)) in let! x96 := (Ok (OInt (10))) in mk_condition x94 x95 x96) in let! x97 := (let! x106 := (let! x102 := (Ok (OStr ($"quantile"))) in let! x103 := (let! x98 := (Ok (OFloat (FFin false 1%N (-1)))) in Ok (OList [x98])) in let! x104 := (let! x99 := (let! x100 := (Ok (OStr ($"duration"))) in let! x101 := (Ok ONone) in mk_column x100 x101) in Ok (OList [x99])) in let! x105 := (Ok ONone) in mk_curried x102 x103 x104 x105) in let! x107 := (Ok (OOp GTE)) in let! x108 := (Ok (OInt (99))) in mk_condition x106 x107 x108) in Ok (OList [x87; x97])) in mk_boolean_condition x109 x110) in Ok (OList [x76; x86])) in let! x111 := (let! x112 := (let! x115 := (let! x113 := (Ok (OStr ($"title"))) in let! x114 := (Ok ONone) in mk_column x113 x114) in let! x116 := (Ok (ODir ASC)) in mk_orderby x115 x116) in Ok (OList [x112])) in let! x117 := (let! x121 := (let! x118 := (let! x119 := (Ok (OStr ($"title"))) in let! x120 := (Ok ONone) in mk_column x119 x120) in Ok (OList [x118])) in let! x122 := (Ok (OInt (5))) in mk_limitby x121 x122) in let! x123 := (let! x124 := (Ok (OInt (10))) in mk_limit x124) in let! x125 := (let! x126 := (Ok (OInt (1))) in mk_offset x126) in let! x127 := (let! x128 := (Ok (OInt (3600))) in mk_granularity x128) in let! x129 := (let! x130 := (Ok (OBool true)) in mk_totals x130) in mk_query x1 (mkClauses x6 x26 x30 x31 x75 x111 x117 x123 x125 x127 x129)) in print q) [77; 65; 84; 67; 72; 32; 40; 101; 118; 101; 110; 116; 115; 32; 83; 65; 77; 80; 76; 69; 32; 49; 48; 48; 48; 46; 48; 41; 10; 83; 69; 76; 69; 67; 84; 32; 116; 105; 116; 108; 101; 44; 32; 117; 110; 105; 113; 40; 101; 118; 101; 110; 116; 95; 105; 100; 41; 32; 65; 83; 32; 96; 117; 110; 105; 113; 95; 101; 118; 101; 110; 116; 115; 96; 44; 32; 113; 117; 97; 110; 116; 105; 108; 101; 40; 48; 46; 53; 41; 40; 100; 117; 114; 97; 116; 105; 111; 110; 41; 32; 65; 83; 32; 96; 112; 53; 48; 96; 10; 66; 89; 32; 116; 105; 116; 108; 101; 10; 87; 72; 69; 82; 69; 32; 116; 105; 109; 101; 115; 116; 97; 109; 112; 32; 62; 32; 116; 111; 68; 97; 116; 101; 84; 105; 109; 101; 40; 39; 50; 48; 50; 49; 45; 48; 49; 45; 48; 50; 84; 48; 51; 58; 48; 52; 58; 48; 53; 46; 48; 48; 48; 48; 48; 54; 39; 41; 32; 65; 78; 68; 32; 116; 111; 72; 111; 117; 114; 40; 116; 105; 109; 101; 115; 116; 97; 109; 112; 41; 32; 60; 61; 32; 116; 111; 68; 97; 116; 101; 84; 105; 109; 101; 40; 39; 50; 48; 50; 49; 45; 48; 49; 45; 48; 50; 84; 48; 51; 58; 48; 52; 58; 48; 53; 46; 48; 48; 48; 48; 48; 54; 39; 41; 32; 65; 78; 68; 32; 112; 114; 111; 106; 101; 99; 116; 95; 105; 100; 32; 73; 78; 32; 116; 117; 112; 108; 101; 40; 49; 44; 32; 50; 44; 32; 51; 41; 32; 65; 78; 68; 32; 40; 101; 118; 101; 110; 116; 95; 105; 100; 32; 61; 32; 39; 97; 98; 99; 39; 32; 79; 82; 32; 100; 117; 114; 97; 116; 105; 111; 110; 32; 62; 32; 49; 48; 41; 10; 72; 65; 86; 73; 78; 71; 32; 117; 110; 105; 113; 40; 101; 118; 101; 110; 116; 95; 105; 100; 41; 32; 62; 32; 49; 32; 65; 78; 68; 32; 40; 117; 110; 105; 113; 40; 101; 118; 101; 110; 116; 95; 105; 100; 41; 32; 62; 61; 32; 49; 48; 32; 79; 82; 32; 113; 117; 97; 110; 116; 105; 108; 101; 40; 48; 46; 53; 41; 40; 100; 117; 114; 97; 116; 105; 111; 110; 41; 32; 62; 61; 32; 57; 57; 41; 10; 79; 82; 68; 69; 82; 32; 66; 89; 32; 116; 105; 116; 108; 101; 32; 65; 83; 67; 10; 76; 73; 77; 73; 84; 32; 53; 32; 66; 89; 32; 116; 105; 116; 108; 101; 10; 76; 73; 77; 73; 84; 32; 49; 48; 10; 79; 70; 70; 83; 69; 84; 32; 49; 10; 71; 82; 65; 78; 85; 76; 65; 82; 73; 84; 89; 32; 51; 54; 48; 48; 10; 84; 79; 84; 65; 76; 83; 32; 84; 114; 117; 101]%N = true.
Proof. vm_compute. reflexivity. Qed.

(* test_query_visitors.py, line 54: query with all clauses *)
Example t206_test_query_visitors : same_str (let! q := (let! x1 := (let! o := (let! x2 := (Ok (OStr ($"events"))) in let! x3 := (Ok (OStr ($"e"))) in let! x4 := (Ok (OFloat (FFin false 1000%N (0)))) in let! x5 := (Ok ONone) in mk_entity x2 x3 x4 x5) in Ok (MObj o)) in let! x6 := (let! x7 := (let! x8 := (Ok (OStr ($"title"))) in let! x9 := (Ok ONone) in mk_column x8 x9) in let! x10 := (let! x14 := (Ok (OStr ($"uniq"))) in let! x15 := (let! x11 := (let! x12 := (Ok (OStr ($"event_id"))) in let! x13 := (Ok ONone) in mk_column x12 x13) in Ok (OList [x11])) in let! x16 := (Ok (OStr ($"uniq_events"))) in mk_function x14 x15 x16) in let! x17 := (let! x22 := (Ok (OStr ($"quantile"))) in let! x23 := (let! x18 := (Ok (OFloat (FFin false 1%N (-1)))) in Ok (OList [x18])) in let! x24 := (let! x19 := (let! x20 := (Ok (OStr ($"duration"))) in let! x21 := (Ok ONone) in mk_column x20 x21) in Ok (OList [x19])) in let! x25 := (Ok (OStr ($"p50"))) in mk_curried x22 x23 x24 x25) in Ok (OList [x7; x10; x17])) in let! x26 := (let! x27 := (let! x28 := (Ok (OStr ($"title"))) in let! x29 := (Ok ONone) in mk_column x28 x29) in Ok (OList [x27])) in let! x30 := (Ok ONone) in let! x31 := (let! x32 := (let! x35 := (let! x33 := (Ok (OStr ($"timestamp"))) in let! x34 := (Ok ONone) in mk_column x33 x34) in let! x36 := (Ok (OOp GT)) in let! x37 := (Ok (ODateTime (mkDT (mkDate 2021 1 2) 3 4 5 6 (Some 0)))) in mk_condition x35 x36 x37) in let! x38 := (let! x45 := (let! x42 := (Ok (OStr ($"toHour"))) in let! x43 := (let! x39 := (let! x40 := (Ok (OStr ($"timestamp"))) in let! x41 := (Ok ONone) in mk_column x40 x41) in Ok (OList [x39])) in let! x44 := (Ok ONone) in mk_function x42 x43 x44) in let! x46 := (Ok (OOp LTE)) in let! x47 := (Ok (ODateTime (mkDT (mkDate 2021 1 2) 3 4 5 6 (Some 0)))) in mk_condition x45 x46 x47) in let! x48 := (let! x57 := (let! x49 := (Ok (OStr ($"project_id"))) in let! x50 := (Ok ONone) in mk_column x49 x50) in let! x58 := (Ok (OOp IN)) in let! x59 := (let! x54 := (Ok (OStr ($"tuple"))) in let! x55 := (let! x51 := (Ok (OInt (1))) in let! x52 := (Ok (OInt (2))) in let! x53 := (Ok (OInt (3))) in Ok (OList [x51; x52; x53])) in let! x56 := (Ok ONone) in mk_function x54 x55 x56) in mk_condition x57 x58 x59) in let! x60 := (let! x73 := (Ok (OBoolOp OR)) in let! x74 := (let! x61 := (let! x64 := (let! x62 := (Ok (OStr ($"event_id"))) in let! x63 := (Ok ONone) in mk_column x62 x63) in let! x65 := (Ok (OOp EQ)) in let! x66 := (Ok (OStr ($"abc"))) in mk_condition x64 x65 x66) in let! x67 := (let! x70 := (let! x68 := (Ok (OStr ($"duration"))) in let! x69 := (Ok ONone) in mk_column x68 x69) in let! x71 := (Ok (OOp GT)) in let! x72 := (Ok (OInt (10))) in mk_condition x70 x71 x72) in Ok (OList [x61; x67])) in mk_boolean_condition x73 x74) in Ok (OList [x32; x38; x48; x60])) in let! x75 := (let! x76 := (let! x83 := (let! x80 := (Ok (OStr ($"uniq"))) in let! x81 := (let! x77 := (let! x78 := (Ok (OStr ($"event_id"))) in let! x79 := (Ok ONone) in mk_column x78 x79) in Ok (OList [x77])) in let! x82 := (Ok ONone) in mk_function x80 x81 x82) in let! x84 := (Ok (OOp GT)) in let! x85 := (Ok (OInt (1))) in mk_condition x83 x84 x85) in let! x86 := (let! x109 := (Ok (OBoolOp OR)) in let! x110 := (let! x87 := (let! x94 := (let! x91 := (Ok (OStr ($"uniq"))) in let! x92 := (let! x88 := (let! x89 := (Ok (OStr ($"event_id"))) in let! x90 := (Ok ONone) in mk_column x89 x90) in Ok (OList [x88])) in let! x93 := (Ok ONone) in mk_function x91 x92 x93) in let! x95 := (Ok (OOp GTE)) in let! x96 := (Ok (OInt (10))) in mk_condition x94 x95 x96) in let! x97 := (let! x106 := (let! x102 := (Ok (OStr ($"quantile"))) in let! x103 := (let! x98 := (Ok (OFloat (FFin false 1%N (-1)))) in Ok (OList [x98])) in let! x104 := (let! x99 := (let! x100 := (Ok (OStr ($"duration"))) in let! x101 := (Ok ONone) in mk_column x100 x101) in Ok (OList [x99])) in let! x105 := (Ok ONone) in mk_curried x102 x103 x104 x105) in let! x107 := (Ok (OOp GTE)) in let! x108 := (Ok (OInt (99))) in mk_condition x106 x107 x108) in Ok (OList [x87; x97])) in mk_boolean_condition x109 x110) in Ok (OList [x76; x86])) in let! x111 := (let! x112 := (let! x115 := (let! x113 := (Ok (OStr ($"title"))) in let! x114 := (Ok ONone) in mk_column x113 x114) in let! x116 := (Ok (ODir ASC)) in mk_orderby x115 x116) in Ok (OList [x112])) in let! x117 := (let! x121 := (let! x118 := (let! x119 := (Ok (OStr ($"title"))) in let! x120 := (Ok ONone) in mk_column x119 x120) in Ok (OList [x118])) in let! x122 := (Ok (OInt (5))) in mk_limitby x121 x122) in let! x123 := (let! x124 := (Ok (OInt (10))) in mk_limit x124) in let! x125 := (let! x126 := (Ok (OInt (1))) in mk_offset x126) in let! x127 := (let! x128 := (Ok (OInt (3600))) in mk_granularity x128) in let! x129 := (let! x130 := (Ok (OBool true)) in mk_totals x130) in mk_query x1 (mkClauses x6 x26 x30 x31 x75 x111 x117 x123 x125 x127 x129)) in print_query ($" ") q) ($"MATCH (events SAMPLE 1000.0) SELECT title, uniq(event_id) AS `uniq_events`, quantile(0.5)(duration) AS `p50` BY title WHERE timestamp > toDateTime('2021-01-02T03:04:05.000006') AND toHour(timestamp) <= toDateTime('2021-01-02T03:04:05.000006') AND project_id IN tuple(1, 2, 3) AND (event_id = 'abc' OR duration > 10) HAVING uniq(event_id) > 1 AND (uniq(event_id) >= 10 OR quantile(0.5)(duration) >= 99) ORDER BY title ASC LIMIT 5 BY title LIMIT 10 OFFSET 1 GRANULARITY 3600 TOTALS True") = true.
Proof. vm_compute. reflexivity. Qed.

(* test_query_visitors.py, line 116: storage query with all clauses *)
Example t207_test_query_visitors : same_str (let! q := (let! x1 := (let! o := (let! x2 := (Ok (OStr ($"events"))) in let! x3 := (Ok (OFloat (FFin false 1000%N (0)))) in let! x4 := (Ok ONone) in mk_storage x2 x3 x4) in Ok (MObj o)) in let! x5 := (let! x6 := (let! x7 := (Ok (OStr ($"title"))) in let! x8 := (Ok ONone) in mk_column x7 x8) in let! x9 := (let! x13 := (Ok (OStr ($"uniq"))) in let! x14 := (let! x10 := (let! x11 := (Ok (OStr ($"event_id"))) in let! x12 := (Ok ONone) in mk_column x11 x12) in Ok (OList [x10])) in let! x15 := (Ok (OStr ($"uniq_events"))) in mk_function x13 x14 x15) in let! x16 := (let! x21 := (Ok (OStr ($"quantile"))) in let! x22 := (let! x17 := (Ok (OFloat (FFin false 1%N (-1)))) in Ok (OList [x17])) in let! x23 := (let! x18 := (let! x19 := (Ok (OStr ($"duration"))) in let! x20 := (Ok ONone) in mk_column x19 x20) in Ok (OList [x18])) in let! x24 := (Ok (OStr ($"p50"))) in mk_curried x21 x22 x23 x24) in Ok (OList [x6; x9; x16])) in let! x25 := (let! x26 := (let! x27 := (Ok (OStr ($"title"))) in let! x28 := (Ok ONone) in mk_column x27 x28) in Ok (OList [x26])) in let! x29 := (Ok ONone) in let! x30 := (let! x31 := (let! x34 := (let! x32 := (Ok (OStr ($"timestamp"))) in let! x33 := (Ok ONone) in mk_column x32 x33) in let! x35 := (Ok (OOp GT)) in let! x36 := (Ok (ODateTime (mkDT (mkDate 2021 1 2) 3 4 5 6 (Some 0)))) in mk_condition x34 x35 x36) in let! x37 := (let! x44 := (let! x41 := (Ok (OStr ($"toHour"))) in let! x42 := (let! x38 := (let! x39 := (Ok (OStr ($"timestamp"))) in let! x40 := (Ok ONone) in mk_column x39 x40) in Ok (OList [x38])) in let! x43 := (Ok ONone) in mk_function x41 x42 x43) in let! x45 := (Ok (OOp LTE)) in let! x46 := (Ok (ODateTime (mkDT (mkDate 2021 1 2) 3 4 5 6 (Some 0)))) in mk_condition x44 x45 x46) in let! x47 := (let! x56 := (let! x48 := (Ok (OStr ($"project_id"))) in let! x49 := (Ok ONone) in mk_column x48 x49) in let! x57 := (Ok (OOp IN)) in let! x58 := (let! x53 := (Ok (OStr ($"tuple"))) in let! x54 := (let! x50 := (Ok (OInt (1))) in let! x51 := (Ok (OInt (2))) in let! x52 := (Ok (OInt (3))) in Ok (OList [x50; x51; x52])) in let! x55 := (Ok ONone) in mk_function x53 x54 x55) in mk_condition x56 x57 x58) in let! x59 := (let! x72 := (Ok (OBoolOp OR)) in let! x73 := (let! x60 := (let! x63 := (let! x61 := (Ok (OStr ($"event_id"))) in let! x62 := (Ok ONone) in mk_column x61 x62) in let! x64 := (Ok (OOp EQ)) in let! x65 := (Ok (OStr ($"abc"))) in mk_condition x63 x64 x65) in let! x66 := (let! x69 := (let! x67 := (Ok (OStr ($"duration"))) in let! x68 := (Ok ONone) in mk_column x67 x68) in let! x70 := (Ok (OOp GT)) in let! x71 := (Ok (OInt (10))) in mk_condition x69 x70 x71) in Ok (OList [x60; x66])) in mk_boolean_condition x72 x73) in Ok (OList [x31; x37; x47; x59])) in let! x74 := (let! x75 := (let! x82 := (let! x79 := (Ok (OStr ($"uniq"))) in let! x80 := (let! x76 := (let! x77 := (Ok (OStr ($"event_id"))) in let! x78 := (Ok ONone) in mk_column x77 x78) in Ok (OList [x76])) in let! x81 := (Ok ONone) in mk_function x79 x80 x81) in let! x83 := (Ok (OOp GT)) in let! x84 := (Ok (OInt (1))) in mk_condition x82 x83 x84) in let! x85 := (let! x108 := (Ok (OBoolOp OR)) in let! x109 := (let! x86 := (let! x93 := (let! x90 := (Ok (OStr ($"uniq"))) in let! x91 := (let! x87 := (let! x88 := (Ok (OStr ($"event_id"))) in let! x89 := (Ok ONone) in mk_column x88 x89) in Ok (OList [x87])) in let! x92 := (Ok ONone) in mk_function x90 x91 x92) in let! x94 := (Ok (OOp GTE)) in let! x95 := (Ok (OInt (10))) in mk_condition x93 x94 x95) in let! x96 := (let! x105 := (let! x101 := (Ok (OStr ($"quantile"))) in let! x102 := (let! x97 := (Ok (OFloat (FFin false 1%N (-1)))) in Ok (OList [x97])) in let! x103 := (let! x98 := (let! x99 := (Ok (OStr ($"duration"))) in let! x100 := (Ok ONone) in mk_column x99 x100) in Ok (OList [x98])) in let! x104 := (Ok ONone) in mk_curried x101 x102 x103 x104) in let! x106 := (Ok (OOp GTE)) in let! x107 := (Ok (OInt (99))) in mk_condition x105 x106 x107) in Ok (OList [x86; x96])) in mk_boolean_condition x108 x109) in Ok (OList [x75; x85])) in let! x110 := (let! x111 := (let! x114 := (let! x112 := (Ok (OStr ($"title"))) in let! x113 := (Ok ONone) in mk_column x112 x113) in let! x115 := (Ok (ODir ASC)) in mk_orderby x114 x115) in Ok (OList [x111])) in let! x116 := (let! x120 := (let! x117 := (let! x118 := (Ok (OStr ($"title"))) in let! x119 := (Ok ONone) in mk_column x118 x119) in Ok (OList [x117])) in let! x121 := (Ok (OInt (5))) in mk_limitby x120 x121) in let! x122 := (let! x123 := (Ok (OInt (10))) in mk_limit x123) in let! x124 := (let! x125 := (Ok (OInt (1))) in mk_offset x125) in let! x126 := (let! x127 := (Ok (OInt (3600))) in mk_granularity x127) in let! x128 := (let! x129 := (Ok (OBool true)) in mk_totals x129) in mk_query x1 (mkClauses x5 x25 x29 x30 x74 x110 x116 x122 x124 x126 x128)) in serialize q) ($"MATCH STORAGE(events SAMPLE 1000.0) SELECT title, uniq(event_id) AS `uniq_events`, quantile(0.5)(duration) AS `p50` BY title WHERE timestamp > toDateTime('2021-01-02T03:04:05.000006') AND toHour(timestamp) <= toDateTime('2021-01-02T03:04:05.000006') AND project_id IN tuple(1, 2, 3) AND (event_id = 'abc' OR duration > 10) HAVING uniq(event_id) > 1 AND (uniq(event_id) >= 10 OR quantile(0.5)(duration) >= 99) ORDER BY title ASC LIMIT 5 BY title LIMIT 10 OFFSET 1 GRANULARITY 3600 TOTALS True") = true.
Proof. vm_compute. reflexivity. Qed.

(* test_query_visitors.py, line 116: storage query with all clauses *)
Example t208_test_query_visitors : same_str (let! q := (let! x1 := (let! o := (let! x2 := (Ok (OStr ($"events"))) in let! x3 := (Ok (OFloat (FFin false 1000%N (0)))) in let! x4 := (Ok ONone) in mk_storage x2 x3 x4) in Ok (MObj o)) in let! x5 := (let! x6 := (let! x7 := (Ok (OStr ($"title"))) in let! x8 := (Ok ONone) in mk_column x7 x8) in let! x9 := (let! x13 := (Ok (OStr ($"uniq"))) in let! x14 := (let! x10 := (let! x11 := (Ok (OStr ($"event_id"))) in let! x12 := (Ok ONone) in mk_column x11 x12) in Ok (OList [x10])) in let! x15 := (Ok (OStr ($"uniq_events"))) in mk_function x13 x14 x15) in let! x16 := (let! x21 := (Ok (OStr ($"quantile"))) in let! x22 := (let! x17 := (Ok (OFloat (FFin false 1%N (-1)))) in Ok (OList [x17])) in let! x23 := (let! x18 := (let! x19 := (Ok (OStr ($"duration"))) in let! x20 := (Ok ONone) in mk_column x19 x20) in Ok (OList [x18])) in let! x24 := (Ok (OStr ($"p50"))) in mk_curried x21 x22 x23 x24) in Ok (OList [x6; x9; x16])) in let! x25 := (let! x26 := (let! x27 := (Ok (OStr ($"title"))) in let! x28 := (Ok ONone) in mk_column x27 x28) in Ok (OList [x26])) in let! x29 := (Ok ONone) in let! x30 := (let! x31 := (let! x34 := (let! x32 := (Ok (OStr ($"timestamp"))) in let! x33 := (Ok ONone) in mk_column x32 x33) in let! x35 := (Ok (OOp GT)) in let! x36 := (Ok (ODateTime (mkDT (mkDate 2021 1 2) 3 4 5 6 (Some 0)))) in mk_condition x34 x35 x36) in let! x37 := (let! x44 := (let! x41 := (Ok (OStr ($"toHour"))) in let! x42 := (let! x38 := (let! x39 := (Ok (OStr ($"timestamp"))) in let! x40 := (Ok ONone) in mk_column x39 x40) in Ok (OList [x38])) in let! x43 := (Ok ONone) in mk_function x41 x42 x43) in let! x45 := (Ok (OOp LTE)) in let! x46 := (Ok (ODateTime (mkDT (mkDate 2021 1 2) 3 4 5 6 (Some 0)))) in mk_condition x44 x45 x46) in let! x47 := (let! x56 := (let! x48 := (Ok (OStr ($"project_id"))) in let! x49 := (Ok ONone) in mk_column x48 x49) in let! x57 := (Ok (OOp IN)) in let! x58 := (let! x53 := (Ok (OStr ($"tuple"))) in let! x54 := (let! x50 := (Ok (OInt (1))) in let! x51 := (Ok (OInt (2))) in let! x52 := (Ok (OInt (3))) in Ok (OList [x50; x51; x52])) in let! x55 := (Ok ONone) in mk_function x53 x54 x55) in mk_condition x56 x57 x58) in let! x59 := (let! x72 := (Ok (OBoolOp OR)) in let! x73 := (let! x60 := (let! x63 := (let! x61 := (Ok (OStr ($"event_id"))) in let! x62 := (Ok ONone) in mk_column x61 x62) in let! x64 := (Ok (OOp EQ)) in let! x65 := (Ok (OStr ($"abc"))) in mk_condition x63 x64 x65) in let! x66 := (let! x69 := (let! x67 := (Ok (OStr ($"duration"))) in let! x68 := (Ok ONone) in mk_column x67 x68) in let! x70 := (Ok (OOp GT)) in let! x71 := (Ok (OInt (10))) in mk_condition x69 x70 x71) in Ok (OList [x60; x66])) in mk_boolean_condition x72 x73) in Ok (OList [x31; x37; x47; x59])) in let! x74 := (let! x75 := (let! x82 := (let! x79 := (Ok (OStr ($"uniq"))) in let! x80 := (let! x76 := (let! x77 := (Ok (OStr ($"event_id"))) in let! x78 := (Ok ONone) in mk_column x77 x78) in Ok (OList [x76])) in let! x81 := (Ok ONone) in mk_function x79 x80 x81) in let! x83 := (Ok (OOp GT)) in let! x84 := (Ok (OInt (1))) in mk_condition x82 x83 x84) in let! x85 := (let! x108 := (Ok (OBoolOp OR)) in let! x109 := (let! x86 := (let! x93 := (let! x90 := (Ok (OStr ($"uniq"))) in let! x91 := (let! x87 := (let! x88 := (Ok (OStr ($"event_id"))) in let! x89 := (Ok ONone) in mk_column x88 x89) in Ok (OList [x87])) in let! x92 := (Ok ONone) in mk_function x90 x91 x92) in let! x94 := (Ok (OOp GTE)) in let! x95 := (Ok (OInt (10))) in mk_condition x93 x94 x95) in let! x96 := (let! x105 := (let! x101 := (Ok (OStr ($"quantile"))) in let! x102 := (let! x97 := (Ok (OFloat (FFin false 1%N (-1)))) in Ok (OList [x97])) in let! x103 := (let! x98 := (let! x99 := (Ok (OStr ($"duration"))) in let! x100 := (Ok ONone) in mk_column x99 x100) in Ok (OList [x98])) in let! x104 := (Ok ONone) in mk_curried x101 x102 x103 x104) in let! x106 := (Ok (OOp GTE)) in let! x107 := (Ok (OInt (99))) in mk_condition x105 x106 x107) in Ok (OList [x86; x96])) in mk_boolean_condition x108 x109) in Ok (OList [x75; x85])) in let! x110 := (let! x111 := (let! x114 := (let! x112 := (Ok (OStr ($"title"))) in let! x113 := (Ok ONone) in mk_column x112 x113) in let! x115 := (Ok (ODir ASC)) in mk_orderby x114 x115) in Ok (OList [x111])) in let! x116 := (let! x120 := (let! x117 := (let! x118 := (Ok (OStr ($"title"))) in let! x119 := (Ok ONone) in mk_column x118 x119) in Ok (OList [x117])) in let! x121 := (Ok (OInt (5))) in mk_limitby x120 x121) in let! x122 := (let! x123 := (Ok (OInt (10))) in mk_limit x123) in let! x124 := (let! x125 := (Ok (OInt (1))) in mk_offset x125) in let! x126 := (let! x127 := (Ok (OInt (3600))) in mk_granularity x127) in let! x128 := (let! x129 := (Ok (OBool true)) in mk_totals x129) in mk_query x1 (mkClauses x5 x25 x29 x30 x74 x110 x116 x122 x124 x126 x128)) in print q) [77; 65; 84; 67; 72; 32; 83; 84; 79; 82; 65; 71; 69; 40; 101; 118; 101; 110; 116; 115; 32; 83; 65; 77; 80; 76; 69; 32; 49; 48; 48; 48; 46; 48; 41; 10; 83; 69; 76; 69; 67; 84; 32; 116; 105; 116; 108; 101; 44; 32; 117; 110; 105; 113; 40; 101; 118; 101; 110; 116; 95; 105; 100; 41; 32; 65; 83; 32; 96; 117; 110; 105; 113; 95; 101; 118; 101; 110; 116; 115; 96; 44; 32; 113; 117; 97; 110; 116; 105; 108; 101; 40; 48; 46; 53; 41; 40; 100; 117; 114; 97; 116; 105; 111; 110; 41; 32; 65; 83; 32; 96; 112; 53; 48; 96; 10; 66; 89; 32; 116; 105; 116; 108; 101; 10; 87; 72; 69; 82; 69; 32; 116; 105; 109; 101; 115; 116; 97; 109; 112; 32; 62; 32; 116; 111; 68; 97; 116; 101; 84; 105; 109; 101; 40; 39; 50; 48; 50; 49; 45; 48; 49; 45; 48; 50; 84; 48; 51; 58; 48; 52; 58; 48; 53; 46; 48; 48; 48; 48; 48; 54; 39; 41; 32; 65; 78; 68; 32; 116; 111; 72; 111; 117; 114; 40; 116; 105; 109; 101; 115; 116; 97; 109; 112; 41; 32; 60; 61; 32; 116; 111; 68; 97; 116; 101; 84; 105; 109; 101; 40; 39; 50; 48; 50; 49; 45; 48; 49; 45; 48; 50; 84; 48; 51; 58; 48; 52; 58; 48; 53; 46; 48; 48; 48; 48; 48; 54; 39; 41; 32; 65; 78; 68; 32; 112; 114; 111; 106; 101; 99; 116; 95; 105; 100; 32; 73; 78; 32; 116; 117; 112; 108; 101; 40; 49; 44; 32; 50; 44; 32; 51; 41; 32; 65; 78; 68; 32; 40; 101; 118; 101; 110; 116; 95; 105; 100; 32; 61; 32; 39; 97; 98; 99; 39; 32; 79; 82; 32; 100; 117; 114; 97; 116; 105; 111; 110; 32; 62; 32; 49; 48; 41; 10; 72; 65; 86; 73; 78; 71; 32; 117; 110; 105; 113; 40; 101; 118; 101; 110; 116; 95; 105; 100; 41; 32; 62; 32; 49; 32; 65; 78; 68; 32; 40; 117; 110; 105; 113; 40; 101; 118; 101; 110; 116; 95; 105; 100; 41; 32; 62; 61; 32; 49; 48; 32; 79; 82; 32; 113; 117; 97; 110; 116; 105; 108; 101; 40; 48; 46; 53; 41; 40; 100; 117; 114; 97; 116; 105; 111; 110; 41; 32; 62; 61; 32; 57; 57; 41; 10; 79; 82; 68; 69; 82; 32; 66; 89; 32; 116; 105; 116; 108; 101; 32; 65; 83; 67; 10; 76; 73; 77; 73; 84; 32; 53; 32; 66; 89; 32; 116; 105; 116; 108; 101; 10; 76; 73; 77; 73; 84; 32; 49; 48; 10; 79; 70; 70; 83; 69; 84; 32; 49; 10; 71; 82; 65; 78; 85; 76; 65; 82; 73; 84; 89; 32; 51; 54; 48; 48; 10; 84; 79; 84; 65; 76; 83; 32; 84; 114; 117; 101]%N = true.
Proof. vm_compute. reflexivity. Qed.

(* test_query_visitors.py, line 116: storage query with all clauses *)
Example t209_test_query_visitors : same_str (let! q := (let! x1 := (let! o := (let! x2 := (Ok (OStr ($"events"))) in let! x3 := (Ok (OFloat (FFin false 1000%N (0)))) in let! x4 := (Ok ONone) in mk_storage x2 x3 x4) in Ok (MObj o)) in let! x5 := (let! x6 := (let! x7 := (Ok (OStr ($"title"))) in let! x8 := (Ok ONone) in mk_column x7 x8) in let! x9 := (let! x13 := (Ok (OStr ($"uniq"))) in let! x14 := (let! x10 := (let! x11 := (Ok (OStr ($"event_id"))) in let! x12 := (Ok ONone) in mk_column x11 x12) in Ok (OList [x10])) in let! x15 := (Ok (OStr ($"uniq_events"))) in mk_function x13 x14 x15) in let! x16 := (let! x21 := (Ok (OStr ($"quantile"))) in let! x22 := (let! x17 := (Ok (OFloat (FFin false 1%N (-1)))) in Ok (OList [x17])) in let! x23 := (let! x18 := (let! x19 := (Ok (OStr ($"duration"))) in let! x20 := (Ok ONone) in mk_column x19 x20) in Ok (OList [x18])) in let! x24 := (Ok (OStr ($"p50"))) in mk_curried x21 x22 x23 x24) in Ok (OList [x6; x9; x16])) in let! x25 := (let! x26 := (let! x27 := (Ok (OStr ($"title"))) in let! x28 := (Ok ONone) in mk_column x27 x28) in Ok (OList [x26])) in let! x29 := (Ok ONone) in let! x30 := (let! x31 := (let! x34 := (let! x32 := (Ok (OStr ($"timestamp"))) in let! x33 := (Ok ONone) in mk_column x32 x33) in let! x35 := (Ok (OOp GT)) in let! x36 := (Ok (ODateTime (mkDT (mkDate 2021 1 2) 3 4 5 6 (Some 0)))) in mk_condition x34 x35 x36) in let! x37 := (let! x44 := (let! x41 := (Ok (OStr ($"toHour"))) in let! x42 := (let! x38 := (let! x39 := (Ok (OStr ($"timestamp"))) in let! x40 := (Ok ONone) in mk_column x39 x40) in Ok (OList [x38])) in let! x43 := (Ok ONone) in mk_function x41 x42 x43) in let! x45 := (Ok (OOp LTE)) in let! x46 := (Ok (ODateTime (mkDT (mkDate 2021 1 2) 3 4 5 6 (Some 0)))) in mk_condition x44 x45 x46) in let! x47 := (let! x56 := (let! x48 := (Ok (OStr ($"project_id"))) in let! x49 := (Ok ONone) in mk_column x48 x49) in let! x57 := (Ok (OOp IN)) in let! x58 := (let! x53 := (Ok (OStr ($"tuple"))) in let! x54 := (let! x50 := (Ok (OInt (1))) in let! x51 := (Ok (OInt (2))) in let! x52 := (Ok (OInt (3))) in Ok (OList [x50; x51; x52])) in let! x55 := (Ok ONone) in mk_function x53 x54 x55) in mk_condition x56 x57 x58) in let! x59 := (let! x72 := (Ok (OBoolOp OR)) in let! x73 := (let! x60 := (let! x63 := (let! x61 := (Ok (OStr ($"event_id"))) in let! x62 := (Ok ONone) in mk_column x61 x62) in let! x64 := (Ok (OOp EQ)) in let! x65 := (Ok (OStr ($"abc"))) in mk_condition x63 x64 x65) in let! x66 := (let! x69 := (let! x67 := (Ok (OStr ($"duration"))) in let! x68 := (Ok ONone) in mk_column x67 x68) in let! x70 := (Ok (OOp GT)) in let! x71 := (Ok (OInt (10))) in mk_condition x69 x70 x71) in Ok (OList [x60; x66])) in mk_boolean_condition x72 x73) in Ok (OList [x31; x37; x47; x59])) in let! x74 := (let! x75 := (let! x82 := (let! x79 := (Ok (OStr ($"uniq"))) in let! x80 := (let! x76 := (let! x77 := (Ok (OStr ($"event_id"))) in let! x78 := (Ok ONone) in mk_column x77 x78) in Ok (OList [x76])) in let! x81 := (Ok ONone) in mk_function x79 x80 x81) in let! x83 := (Ok (OOp GT)) in let! x84 := (Ok (OInt (1))) in mk_condition x82 x83 x84) in let! x85 := (let! x108 := (Ok (OBoolOp OR)) in let! x109 := (let! x86 := (let! x93 := (let! x90 := (Ok (OStr ($"uniq"))) in let! x91 := (let! x87 := (let! x88 := (Ok (OStr ($"event_id"))) in let! x89 := (Ok ONone) in mk_column x88 x89) in Ok (OList [x87])) in let! x92 := (Ok ONone) in mk_function x90 x91 x92) in let! x94 := (Ok (OOp GTE)) in let! x95 := (Ok (OInt (10))) in mk_condition x93 x94 x95) in let! x96 := (let! x105 := (let! x101 := (Ok (OStr ($"quantile"))) in let! x102 := (let! x97 := (Ok (OFloat (FFin false 1%N (-1)))) in Ok (OList [x97])) in let! x103 := (let! x98 := (let! x99 := (Ok (OStr ($"duration"))) in let! x100 := (Ok ONone) in mk_column x99 x100) in Ok (OList [x98])) in let! x104 := (Ok ONone) in mk_curried x101 x102 x103 x104) in let! x106 := (Ok (OOp GTE)) in let! x107 := (Ok (OInt (99))) in mk_condition x105 x106 x107) in Ok (OList [x86; x96])) in mk_boolean_condition x108 x109) in Ok (OList [x75; x85])) in let! x110 := (let! x111 := (let! x114 := (let! x112 := (Ok (OStr ($"title"))) in let! x113 := (Ok ONone) in mk_column x112 x113) in let! x115 := (Ok (ODir ASC)) in mk_orderby x114 x115) in Ok (OList [x111])) in let! x116 := (let! x120 := (let! x117 := (let! x118 := (Ok (OStr ($"title"))) in let! x119 := (Ok ONone) in mk_column x118 x119) in Ok (OList [x117])) in let! x121 := (Ok (OInt (5))) in mk_limitby x120 x121) in let! x122 := (let! x123 := (Ok (OInt (10))) in mk_limit x123) in let! x124 := (let! x125 := (Ok (OInt (1))) in mk_offset x125) in let! x126 := (let! x127 := (Ok (OInt (3600))) in mk_granularity x127) in let! x128 := (let! x129 := (Ok (OBool true)) in mk_totals x129) in mk_query x1 (mkClauses x5 x25 x29 x30 x74 x110 x116 x122 x124 x126 x128)) in print_query ($" ") q) ($"MATCH STORAGE(events SAMPLE 1000.0) SELECT title, uniq(event_id) AS `uniq_events`, quantile(0.5)(duration) AS `p50` BY title WHERE timestamp > toDateTime('2021-01-02T03:04:05.000006') AND toHour(timestamp) <= toDateTime('2021-01-02T03:04:05.000006') AND project_id IN tuple(1, 2, 3) AND (event_id = 'abc' OR duration > 10) HAVING uniq(event_id) > 1 AND (uniq(event_id) >= 10 OR quantile(0.5)(duration) >= 99) ORDER BY title ASC LIMIT 5 BY title LIMIT 10 OFFSET 1 GRANULARITY 3600 TOTALS True") = true.
Proof. vm_compute. reflexivity. Qed.

(* test_query_visitors.py, line 178: multiple ORDER BY *)
Example t210_test_query_visitors : same_str (let! q := (let! q := (let! q := (let! q := (let! q := (let! q := (let! q := (let! x1 := (let! o := (let! x2 := (Ok (OStr ($"events"))) in let! x3 := (Ok ONone) in let! x4 := (Ok (OFloat (FFin false 3602879701896397%N (-54)))) in let! x5 := (Ok ONone) in mk_entity x2 x3 x4 x5) in Ok (MObj o)) in let! x6 := (Ok ONone) in let! x7 := (Ok ONone) in let! x8 := (Ok ONone) in let! x9 := (Ok ONone) in let! x10 := (Ok ONone) in let! x11 := (Ok ONone) in let! x12 := (Ok ONone) in let! x13 := (Ok ONone) in let! x14 := (Ok ONone) in let! x15 := (Ok ONone) in let! x16 := (Ok ONone) in mk_query x1 (mkClauses x6 x7 x8 x9 x10 x11 x12 x13 x14 x15 x16)) in let! v := (let! x17 := (let! x18 := (Ok (OStr ($"event_id"))) in let! x19 := (Ok ONone) in mk_column x18 x19) in let! x20 := (let! x21 := (Ok (OStr ($"title"))) in let! x22 := (Ok ONone) in mk_column x21 x22) in Ok (OList [x17; x20])) in set_clause CSelect q v) in let! v := (let! x23 := (let! x26 := (let! x24 := (Ok (OStr ($"timestamp"))) in let! x25 := (Ok ONone) in mk_column x24 x25) in let! x27 := (Ok (OOp GT)) in let! x28 := (Ok (ODateTime (mkDT (mkDate 2021 1 2) 3 4 5 6 (Some 0)))) in mk_condition x26 x27 x28) in Ok (OList [x23])) in set_clause CWhere q v) in let! v := (let! x29 := (let! x32 := (let! x30 := (Ok (OStr ($"event_id"))) in let! x31 := (Ok ONone) in mk_column x30 x31) in let! x33 := (Ok (ODir ASC)) in mk_orderby x32 x33) in let! x34 := (let! x37 := (let! x35 := (Ok (OStr ($"title"))) in let! x36 := (Ok ONone) in mk_column x35 x36) in let! x38 := (Ok (ODir DESC)) in mk_orderby x37 x38) in Ok (OList [x29; x34])) in set_clause COrderby q v) in let! v := (Ok (OInt (10))) in set_clause CLimit q v) in let! v := (Ok (OInt (1))) in set_clause COffset q v) in let! v := (Ok (OInt (3600))) in set_clause CGranularity q v) in serialize q) ($"MATCH (events SAMPLE 0.200000) SELECT event_id, title WHERE timestamp > toDateTime('2021-01-02T03:04:05.000006') ORDER BY event_id ASC, title DESC LIMIT 10 OFFSET 1 GRANULARITY 3600") = true.
Proof. vm_compute. reflexivity. Qed.

(* test_query_visitors.py, line 178: multiple ORDER BY *)
Example t211_test_query_visitors : same_str (let! q := (let! q := (let! q := (let! q := (let! q := (let! q := (let! q := (let! x1 := (let! o := (let! x2 := (Ok (OStr ($"events"))) in let! x3 := (Ok ONone) in let! x4 := (Ok (OFloat (FFin false 3602879701896397%N (-54)))) in let! x5 := (Ok ONone) in mk_entity x2 x3 x4 x5) in Ok (MObj o)) in let! x6 := (Ok ONone) in let! x7 := (Ok ONone) in let! x8 := (Ok ONone) in let! x9 := (Ok ONone) in let! x10 := (Ok ONone) in let! x11 := (Ok ONone) in let! x12 := (Ok ONone) in let! x13 := (Ok ONone) in let! x14 := (Ok ONone) in let! x15 := (Ok ONone) in let! x16 := (Ok ONone) in mk_query x1 (mkClauses x6 x7 x8 x9 x10 x11 x12 x13 x14 x15 x16)) in let! v := (let! x17 := (let! x18 := (Ok (OStr ($"event_id"))) in let! x19 := (Ok ONone) in mk_column x18 x19) in let! x20 := (let! x21 := (Ok (OStr ($"title"))) in let! x22 := (Ok ONone) in mk_column x21 x22) in Ok (OList [x17; x20])) in set_clause CSelect q v) in let! v := (let! x23 := (let! x26 := (let! x24 := (Ok (OStr ($"timestamp"))) in let! x25 := (Ok ONone) in mk_column x24 x25) in let! x27 := (Ok (OOp GT)) in let! x28 := (Ok (ODateTime (mkDT (mkDate 2021 1 2) 3 4 5 6 (Some 0)))) in mk_condition x26 x27 x28) in Ok (OList [x23])) in set_clause CWhere q v) in let! v := (let! x29 := (let! x32 := (let! x30 := (Ok (OStr ($"event_id"))) in let! x31 := (Ok ONone) in mk_column x30 x31) in let! x33 := (Ok (ODir ASC)) in mk_orderby x32 x33) in let! x34 := (let! x37 := (let! x35 := (Ok (OStr ($"title"))) in let! x36 := (Ok ONone) in mk_column x35 x36) in let! x38 := (Ok (ODir DESC)) in mk_orderby x37 x38) in Ok (OList [x29; x34])) in set_clause COrderby q v) in let! v := (Ok (OInt (10))) in set_clause CLimit q v) in let! v := (Ok (OInt (1))) in set_clause COffset q v) in let! v := (Ok (OInt (3600))) in set_clause CGranularity q v) in print q) [77; 65; 84; 67; 72; 32; 40; 101; 118; 101; 110; 116; 115; 32; 83; 65; 77; 80; 76; 69; 32; 48; 46; 50; 48; 48; 48; 48; 48; 41; 10; 83; 69; 76; 69; 67; 84; 32; 101; 118; 101; 110; 116; 95; 105; 100; 44; 32; 116; 105; 116; 108; 101; 10; 87; 72; 69; 82; 69; 32; 116; 105; 109; 101; 115; 116; 97; 109; 112; 32; 62; 32; 116; 111; 68; 97; 116; 101; 84; 105; 109; 101; 40; 39; 50; 48; 50; 49; 45; 48; 49; 45; 48; 50; 84; 48; 51; 58; 48; 52; 58; 48; 53; 46; 48; 48; 48; 48; 48; 54; 39; 41; 10; 79; 82; 68; 69; 82; 32; 66; 89; 32; 101; 118; 101; 110; 116; 95; 105; 100; 32; 65; 83; 67; 44; 32; 116; 105; 116; 108; 101; 32; 68; 69; 83; 67; 10; 76; 73; 77; 73; 84; 32; 49; 48; 10; 79; 70; 70; 83; 69; 84; 32; 49; 10; 71; 82; 65; 78; 85; 76; 65; 82; 73; 84; 89; 32; 51; 54; 48; 48]%N = true.
Proof. vm_compute. reflexivity. Qed.

(* test_query_visitors.py, line 178: multiple ORDER BY *)
Example t212_test_query_visitors : same_str (let! q := (let! q := (let! q := (let! q := (let! q := (let! q := (let! q := (let! x1 := (let! o := (let! x2 := (Ok (OStr ($"events"))) in let! x3 := (Ok ONone) in let! x4 := (Ok (OFloat (FFin false 3602879701896397%N (-54)))) in let! x5 := (Ok ONone) in mk_entity x2 x3 x4 x5) in Ok (MObj o)) in let! x6 := (Ok ONone) in let! x7 := (Ok ONone) in let! x8 := (Ok ONone) in let! x9 := (Ok ONone) in let! x10 := (Ok ONone) in let! x11 := (Ok ONone) in let! x12 := (Ok ONone) in let! x13 := (Ok ONone) in let! x14 := (Ok ONone) in let! x15 := (Ok ONone) in let! x16 := (Ok ONone) in mk_query x1 (mkClauses x6 x7 x8 x9 x10 x11 x12 x13 x14 x15 x16)) in let! v := (let! x17 := (let! x18 := (Ok (OStr ($"event_id"))) in let! x19 := (Ok ONone) in mk_column x18 x19) in let! x20 := (let! x21 := (Ok (OStr ($"title"))) in let! x22 := (Ok ONone) in mk_column x21 x22) in Ok (OList [x17; x20])) in set_clause CSelect q v) in let! v := (let! x23 := (let! x26 := (let! x24 := (Ok (OStr ($"timestamp"))) in let! x25 := (Ok ONone) in mk_column x24 x25) in let! x27 := (Ok (OOp GT)) in let! x28 := (Ok (ODateTime (mkDT (mkDate 2021 1 2) 3 4 5 6 (Some 0)))) in mk_condition x26 x27 x28) in Ok (OList [x23])) in set_clause CWhere q v) in let! v := (let! x29 := (let! x32 := (let! x30 := (Ok (OStr ($"event_id"))) in let! x31 := (Ok ONone) in mk_column x30 x31) in let! x33 := (Ok (ODir ASC)) in mk_orderby x32 x33) in let! x34 := (let! x37 := (let! x35 := (Ok (OStr ($"title"))) in let! x36 := (Ok ONone) in mk_column x35 x36) in let! x38 := (Ok (ODir DESC)) in mk_orderby x37 x38) in Ok (OList [x29; x34])) in set_clause COrderby q v) in let! v := (Ok (OInt (10))) in set_clause CLimit q v) in let! v := (Ok (OInt (1))) in set_clause COffset q v) in let! v := (Ok (OInt (3600))) in set_clause CGranularity q v) in print_query ($" ") q) ($"MATCH (events SAMPLE 0.200000) SELECT event_id, title WHERE timestamp > toDateTime('2021-01-02T03:04:05.000006') ORDER BY event_id ASC, title DESC LIMIT 10 OFFSET 1 GRANULARITY 3600") = true.
Proof. vm_compute. reflexivity. Qed.

(* test_query_visitors.py, line 202: unary condition *)
Example t213_test_query_visitors : same_str (let! q := (let! q := (let! q := (let! q := (let! q := (let! q := (let! x1 := (let! o := (let! x2 := (Ok (OStr ($"events"))) in let! x3 := (Ok ONone) in let! x4 := (Ok ONone) in let! x5 := (Ok ONone) in mk_entity x2 x3 x4 x5) in Ok (MObj o)) in let! x6 := (Ok ONone) in let! x7 := (Ok ONone) in let! x8 := (Ok ONone) in let! x9 := (Ok ONone) in let! x10 := (Ok ONone) in let! x11 := (Ok ONone) in let! x12 := (Ok ONone) in let! x13 := (Ok ONone) in let! x14 := (Ok ONone) in let! x15 := (Ok ONone) in let! x16 := (Ok ONone) in mk_query x1 (mkClauses x6 x7 x8 x9 x10 x11 x12 x13 x14 x15 x16)) in let! v := (let! x17 := (let! x18 := (Ok (OStr ($"event_id"))) in let! x19 := (Ok ONone) in mk_column x18 x19) in let! x20 := (let! x21 := (Ok (OStr ($"title"))) in let! x22 := (Ok ONone) in mk_column x21 x22) in Ok (OList [x17; x20])) in set_clause CSelect q v) in let! v := (let! x23 := (let! x26 := (let! x24 := (Ok (OStr ($"timestamp"))) in let! x25 := (Ok ONone) in mk_column x24 x25) in let! x27 := (Ok (OOp IS_NOT_NULL)) in let! x28 := (Ok ONone) in mk_condition x26 x27 x28) in Ok (OList [x23])) in set_clause CWhere q v) in let! v := (Ok (OInt (10))) in set_clause CLimit q v) in let! v := (Ok (OInt (1))) in set_clause COffset q v) in let! v := (Ok (OInt (3600))) in set_clause CGranularity q v) in serialize q) ($"MATCH (events) SELECT event_id, title WHERE timestamp IS NOT NULL LIMIT 10 OFFSET 1 GRANULARITY 3600") = true.
Proof. vm_compute. reflexivity. Qed.

(* test_query_visitors.py, line 202: unary condition *)
Example t214_test_query_visitors : same_str (let! q := (let! q := (let! q := (let! q := (let! q := (let! q := (let! x1 := (let! o := (let! x2 := (Ok (OStr ($"events"))) in let! x3 := (Ok ONone) in let! x4 := (Ok ONone) in let! x5 := (Ok ONone) in mk_entity x2 x3 x4 x5) in Ok (MObj o)) in let! x6 := (Ok ONone) in let! x7 := (Ok ONone) in let! x8 := (Ok ONone) in let! x9 := (Ok ONone) in let! x10 := (Ok ONone) in let! x11 := (Ok ONone) in let! x12 := (Ok ONone) in let! x13 := (Ok ONone) in let! x14 := (Ok ONone) in let! x15 := (Ok ONone) in let! x16 := (Ok ONone) in mk_query x1 (mkClauses x6 x7 x8 x9 x10 x11 x12 x13 x14 x15 x16)) in let! v := (let! x17 := (let! x18 := (Ok (OStr ($"event_id"))) in let! x19 := (Ok ONone) in mk_column x18 x19) in let! x20 := (let! x21 := (Ok (OStr ($"title"))) in let! x22 := (Ok ONone) in mk_column x21 x22) in Ok (OList [x17; x20])) in set_clause CSelect q v) in let! v := (let! x23 := (let! x26 := (let! x24 := (Ok (OStr ($"timestamp"))) in let! x25 := (Ok ONone) in mk_column x24 x25) in let! x27 := (Ok (OOp IS_NOT_NULL)) in let! x28 := (Ok ONone) in mk_condition x26 x27 x28) in Ok (OList [x23])) in set_clause CWhere q v) in let! v := (Ok (OInt (10))) in set_clause CLimit q v) in let! v := (Ok (OInt (1))) in set_clause COffset q v) in let! v := (Ok (OInt (3600))) in set_clause CGranularity q v) in print q) [77; 65; 84; 67; 72; 32; 40; 101; 118; 101; 110; 116; 115; 41; 10; 83; 69; 76; 69; 67; 84; 32; 101; 118; 101; 110; 116; 95; 105; 100; 44; 32; 116; 105; 116; 108; 101; 10; 87; 72; 69; 82; 69; 32; 116; 105; 109; 101; 115; 116; 97; 109; 112; 32; 73; 83; 32; 78; 79; 84; 32; 78; 85; 76; 76; 10; 76; 73; 77; 73; 84; 32; 49; 48; 10; 79; 70; 70; 83; 69; 84; 32; 49; 10; 71; 82; 65; 78; 85; 76; 65; 82; 73; 84; 89; 32; 51; 54; 48; 48]%N = true.
Proof. vm_compute. reflexivity. Qed.

(* test_query_visitors.py, line 202: unary condition *)
Example t215_test_query_visitors : same_str (let! q := (let! q := (let! q := (let! q := (let! q := (let! q := (let! x1 := (let! o := (let! x2 := (Ok (OStr ($"events"))) in let! x3 := (Ok ONone) in let! x4 := (Ok ONone) in let! x5 := (Ok ONone) in mk_entity x2 x3 x4 x5) in Ok (MObj o)) in let! x6 := (Ok ONone) in let! x7 := (Ok ONone) in let! x8 := (Ok ONone) in let! x9 := (Ok ONone) in let! x10 := (Ok ONone) in let! x11 := (Ok ONone) in let! x12 := (Ok ONone) in let! x13 := (Ok ONone) in let! x14 := (Ok ONone) in let! x15 := (Ok ONone) in let! x16 := (Ok ONone) in mk_query x1 (mkClauses x6 x7 x8 x9 x10 x11 x12 x13 x14 x15 x16)) in let! v := (let! x17 := (let! x18 := (Ok (OStr ($"event_id"))) in let! x19 := (Ok ONone) in mk_column x18 x19) in let! x20 := (let! x21 := (Ok (OStr ($"title"))) in let! x22 := (Ok ONone) in mk_column x21 x22) in Ok (OList [x17; x20])) in set_clause CSelect q v) in let! v := (let! x23 := (let! x26 := (let! x24 := (Ok (OStr ($"timestamp"))) in let! x25 := (Ok ONone) in mk_column x24 x25) in let! x27 := (Ok (OOp IS_NOT_NULL)) in let! x28 := (Ok ONone) in mk_condition x26 x27 x28) in Ok (OList [x23])) in set_clause CWhere q v) in let! v := (Ok (OInt (10))) in set_clause CLimit q v) in let! v := (Ok (OInt (1))) in set_clause COffset q v) in let! v := (Ok (OInt (3600))) in set_clause CGranularity q v) in print_query ($" ") q) ($"MATCH (events) SELECT event_id, title WHERE timestamp IS NOT NULL LIMIT 10 OFFSET 1 GRANULARITY 3600") = true.
Proof. vm_compute. reflexivity. Qed.

(* test_query_visitors.py, line 219: array join *)
Example t216_test_query_visitors : same_str (let! q := (let! q := (let! q := (let! q := (let! q := (let! q := (let! q := (let! x1 := (let! o := (let! x2 := (Ok (OStr ($"events"))) in let! x3 := (Ok ONone) in let! x4 := (Ok ONone) in let! x5 := (Ok ONone) in mk_entity x2 x3 x4 x5) in Ok (MObj o)) in let! x6 := (Ok ONone) in let! x7 := (Ok ONone) in let! x8 := (Ok ONone) in let! x9 := (Ok ONone) in let! x10 := (Ok ONone) in let! x11 := (Ok ONone) in let! x12 := (Ok ONone) in let! x13 := (Ok ONone) in let! x14 := (Ok ONone) in let! x15 := (Ok ONone) in let! x16 := (Ok ONone) in mk_query x1 (mkClauses x6 x7 x8 x9 x10 x11 x12 x13 x14 x15 x16)) in let! v := (let! x17 := (let! x18 := (Ok (OStr ($"event_id"))) in let! x19 := (Ok ONone) in mk_column x18 x19) in let! x20 := (let! x21 := (Ok (OStr ($"title"))) in let! x22 := (Ok ONone) in mk_column x21 x22) in Ok (OList [x17; x20])) in set_clause CSelect q v) in let! v := (let! x23 := (let! x24 := (Ok (OStr ($"exception_stacks[stuff]"))) in let! x25 := (Ok ONone) in mk_column x24 x25) in Ok (OList [x23])) in set_clause CArrayJoin q v) in let! v := (let! x26 := (let! x29 := (let! x27 := (Ok (OStr ($"timestamp"))) in let! x28 := (Ok ONone) in mk_column x27 x28) in let! x30 := (Ok (OOp IS_NOT_NULL)) in let! x31 := (Ok ONone) in mk_condition x29 x30 x31) in Ok (OList [x26])) in set_clause CWhere q v) in let! v := (Ok (OInt (10))) in set_clause CLimit q v) in let! v := (Ok (OInt (1))) in set_clause COffset q v) in let! v := (Ok (OInt (3600))) in set_clause CGranularity q v) in serialize q) ($"MATCH (events) SELECT event_id, title ARRAY JOIN exception_stacks[stuff] WHERE timestamp IS NOT NULL LIMIT 10 OFFSET 1 GRANULARITY 3600") = true.
Proof. vm_compute. reflexivity. Qed.

(* test_query_visitors.py, line 219: array join *)
Example t217_test_query_visitors : same_str (let! q := (let! q := (let! q := (let! q := (let! q := (let! q := (let! q := (let! x1 := (let! o := (let! x2 := (Ok (OStr ($"events"))) in let! x3 := (Ok ONone) in let! x4 := (Ok ONone) in let! x5 := (Ok ONone) in mk_entity x2 x3 x4 x5) in Ok (MObj o)) in let! x6 := (Ok ONone) in let! x7 := (Ok ONone) in let! x8 := (Ok ONone) in let! x9 := (Ok ONone) in let! x10 := (Ok ONone) in let! x11 := (Ok ONone) in let! x12 := (Ok ONone) in let! x13 := (Ok ONone) in let! x14 := (Ok ONone) in let! x15 := (Ok ONone) in let! x16 := (Ok ONone) in mk_query x1 (mkClauses x6 x7 x8 x9 x10 x11 x12 x13 x14 x15 x16)) in let! v := (let! x17 := (let! x18 := (Ok (OStr ($"event_id"))) in let! x19 := (Ok ONone) in mk_column x18 x19) in let! x20 := (let! x21 := (Ok (OStr ($"title"))) in let! x22 := (Ok ONone) in mk_column x21 x22) in Ok (OList [x17; x20])) in set_clause CSelect q v) in let! v := (let! x23 := (let! x24 := (Ok (OStr ($"exception_stacks[stuff]"))) in let! x25 := (Ok ONone) in mk_column x24 x25) in Ok (OList [x23])) in set_clause CArrayJoin q v) in let! v := (let! x26 := (let! x29 := (let! x27 := (Ok (OStr ($"timestamp"))) in let! x28 := (Ok ONone) in mk_column x27 x28) in let! x30 := (Ok (OOp IS_NOT_NULL)) in let! x31 := (Ok ONone) in mk_condition x29 x30 x31) in Ok (OList [x26])) in set_clause CWhere q v) in let! v := (Ok (OInt (10))) in set_clause CLimit q v) in let! v := (Ok (OInt (1))) in set_clause COffset q v) in let! v := (Ok (OInt (3600))) in set_clause CGranularity q v) in print q) [77; 65; 84; 67; 72; 32; 40; 101; 118; 101; 110; 116; 115; 41; 10; 83; 69; 76; 69; 67; 84; 32; 101; 118; 101; 110; 116; 95; 105; 100; 44; 32; 116; 105; 116; 108; 101; 10; 65; 82; 82; 65; 89; 32; 74; 79; 73; 78; 32; 101; 120; 99; 101; 112; 116; 105; 111; 110; 95; 115; 116; 97; 99; 107; 115; 91; 115; 116; 117; 102; 102; 93; 10; 87; 72; 69; 82; 69; 32; 116; 105; 109; 101; 115; 116; 97; 109; 112; 32; 73; 83; 32; 78; 79; 84; 32; 78; 85; 76; 76; 10; 76; 73; 77; 73; 84; 32; 49; 48; 10; 79; 70; 70; 83; 69; 84; 32; 49; 10; 71; 82; 65; 78; 85; 76; 65; 82; 73; 84; 89; 32; 51; 54; 48; 48]%N = true.
Proof. vm_compute. reflexivity. Qed.

(* test_query_visitors.py, line 219: array join *)
Example t218_test_query_visitors : same_str (let! q := (let! q := (let! q := (let! q := (let! q := (let! q := (let! q := (let! x1 := (let! o := (let! x2 := (Ok (OStr ($"events"))) in let! x3 := (Ok ONone) in let! x4 := (Ok ONone) in let! x5 := (Ok ONone) in mk_entity x2 x3 x4 x5) in Ok (MObj o)) in let! x6 := (Ok ONone) in let! x7 := (Ok ONone) in let! x8 := (Ok ONone) in let! x9 := (Ok ONone) in let! x10 := (Ok ONone) in let! x11 := (Ok ONone) in let! x12 := (Ok ONone) in let! x13 := (Ok ONone) in let! x14 := (Ok ONone) in let! x15 := (Ok ONone) in let! x16 := (Ok ONone) in mk_query x1 (mkClauses x6 x7 x8 x9 x10 x11 x12 x13 x14 x15 x16)) in let! v := (let! x17 := (let! x18 := (Ok (OStr ($"event_id"))) in let! x19 := (Ok ONone) in mk_column x18 x19) in let! x20 := (let! x21 := (Ok (OStr ($"title"))) in let! x22 := (Ok ONone) in mk_column x21 x22) in Ok (OList [x17; x20])) in set_clause CSelect q v) in let! v := (let! x23 := (let! x24 := (Ok (OStr ($"exception_stacks[stuff]"))) in let! x25 := (Ok ONone) in mk_column x24 x25) in Ok (OList [x23])) in set_clause CArrayJoin q v) in let! v := (let! x26 := (let! x29 := (let! x27 := (Ok (OStr ($"timestamp"))) in let! x28 := (Ok ONone) in mk_column x27 x28) in let! x30 := (Ok (OOp IS_NOT_NULL)) in let! x31 := (Ok ONone) in mk_condition x29 x30 x31) in Ok (OList [x26])) in set_clause CWhere q v) in let! v := (Ok (OInt (10))) in set_clause CLimit q v) in let! v := (Ok (OInt (1))) in set_clause COffset q v) in let! v := (Ok (OInt (3600))) in set_clause CGranularity q v) in print_query ($" ") q) ($"MATCH (events) SELECT event_id, title ARRAY JOIN exception_stacks[stuff] WHERE timestamp IS NOT NULL LIMIT 10 OFFSET 1 GRANULARITY 3600") = true.
Proof. vm_compute. reflexivity. Qed.

(* test_query_visitors.py, line 238: multiple HAVING *)
Example t219_test_query_visitors : same_str (let! q := (let! q := (let! q := (let! q := (let! q := (let! q := (let! q := (let! q := (let! x1 := (let! o := (let! x2 := (Ok (OStr ($"events"))) in let! x3 := (Ok ONone) in let! x4 := (Ok ONone) in let! x5 := (Ok ONone) in mk_entity x2 x3 x4 x5) in Ok (MObj o)) in let! x6 := (Ok ONone) in let! x7 := (Ok ONone) in let! x8 := (Ok ONone) in let! x9 := (Ok ONone) in let! x10 := (Ok ONone) in let! x11 := (Ok ONone) in let! x12 := (Ok ONone) in let! x13 := (Ok ONone) in let! x14 := (Ok ONone) in let! x15 := (Ok ONone) in let! x16 := (Ok ONone) in mk_query x1 (mkClauses x6 x7 x8 x9 x10 x11 x12 x13 x14 x15 x16)) in let! v := (let! x17 := (let! x18 := (Ok (OStr ($"event_id"))) in let! x19 := (Ok ONone) in mk_column x18 x19) in let! x20 := (let! x21 := (Ok (OStr ($"title"))) in let! x22 := (Ok ONone) in mk_column x21 x22) in Ok (OList [x17; x20])) in set_clause CSelect q v) in let! v := (let! x23 := (let! x26 := (let! x24 := (Ok (OStr ($"timestamp"))) in let! x25 := (Ok ONone) in mk_column x24 x25) in let! x27 := (Ok (OOp GT)) in let! x28 := (Ok (ODateTime (mkDT (mkDate 2021 1 2) 3 4 5 6 (Some 0)))) in mk_condition x26 x27 x28) in Ok (OList [x23])) in set_clause CWhere q v) in let! v := (let! x29 := (let! x36 := (let! x33 := (Ok (OStr ($"uniq"))) in let! x34 := (let! x30 := (let! x31 := (Ok (OStr ($"users"))) in let! x32 := (Ok ONone) in mk_column x31 x32) in Ok (OList [x30])) in let! x35 := (Ok ONone) in mk_function x33 x34 x35) in let! x37 := (Ok (OOp GT)) in let! x38 := (Ok (OInt (1))) in mk_condition x36 x37 x38) in let! x39 := (let! x43 := (let! x40 := (Ok (OStr ($"count"))) in let! x41 := (Ok (OList [])) in let! x42 := (Ok ONone) in mk_function x40 x41 x42) in let! x44 := (Ok (OOp LTE)) in let! x45 := (Ok (OInt (1000))) in mk_condition x43 x44 x45) in Ok (OList [x29; x39])) in set_clause CHaving q v) in let! v := (let! x46 := (let! x49 := (let! x47 := (Ok (OStr ($"event_id"))) in let! x48 := (Ok ONone) in mk_column x47 x48) in let! x50 := (Ok (ODir ASC)) in mk_orderby x49 x50) in let! x51 := (let! x54 := (let! x52 := (Ok (OStr ($"title"))) in let! x53 := (Ok ONone) in mk_column x52 x53) in let! x55 := (Ok (ODir DESC)) in mk_orderby x54 x55) in Ok (OList [x46; x51])) in set_clause COrderby q v) in let! v := (Ok (OInt (10))) in set_clause CLimit q v) in let! v := (Ok (OInt (1))) in set_clause COffset q v) in let! v := (Ok (OInt (3600))) in set_clause CGranularity q v) in serialize q) ($"MATCH (events) SELECT event_id, title WHERE timestamp > toDateTime('2021-01-02T03:04:05.000006') HAVING uniq(users) > 1 AND count() <= 1000 ORDER BY event_id ASC, title DESC LIMIT 10 OFFSET 1 GRANULARITY 3600") = true.
Proof. vm_compute. reflexivity. Qed.

(* test_query_visitors.py, line 238: multiple HAVING *)
Example t220_test_query_visitors : same_str (let! q := (let! q := (let! q := (let! q := (let! q := (let! q := (let! q := (let! q := (let! x1 := (let! o := (let! x2 := (Ok (OStr ($"events"))) in let! x3 := (Ok ONone) in let! x4 := (Ok ONone) in let! x5 := (Ok ONone) in mk_entity x2 x3 x4 x5) in Ok (MObj o)) in let! x6 := (Ok ONone) in let! x7 := (Ok ONone) in let! x8 := (Ok ONone) in let! x9 := (Ok ONone) in let! x10 := (Ok ONone) in let! x11 := (Ok ONone) in let! x12 := (Ok ONone) in let! x13 := (Ok ONone) in let! x14 := (Ok ONone) in let! x15 := (Ok ONone) in let! x16 := (Ok ONone) in mk_query x1 (mkClauses x6 x7 x8 x9 x10 x11 x12 x13 x14 x15 x16)) in let! v := (let! x17 := (let! x18 := (Ok (OStr ($"event_id"))) in let! x19 := (Ok ONone) in mk_column x18 x19) in let! x20 := (let! x21 := (Ok (OStr ($"title"))) in let! x22 := (Ok ONone) in mk_column x21 x22) in Ok (OList [x17; x20])) in set_clause CSelect q v) in let! v := (let! x23 := (let! x26 := (let! x24 := (Ok (OStr ($"timestamp"))) in let! x25 := (Ok ONone) in mk_column x24 x25) in let! x27 := (Ok (OOp GT)) in let! x28 := (Ok (ODateTime (mkDT (mkDate 2021 1 2) 3 4 5 6 (Some 0)))) in mk_condition x26 x27 x28) in Ok (OList [x23])) in set_clause CWhere q v) in let! v := (let! x29 := (let! x36 := (let! x33 := (Ok (OStr ($"uniq"))) in let! x34 := (let! x30 := (let! x31 := (Ok (OStr ($"users"))) in let! x32 := (Ok ONone) in mk_column x31 x32) in Ok (OList [x30])) in let! x35 := (Ok ONone) in mk_function x33 x34 x35) in let! x37 := (Ok (OOp GT)) in let! x38 := (Ok (OInt (1))) in mk_condition x36 x37 x38) in let! x39 := (let! x43 := (let! x40 := (Ok (OStr ($"count"))) in let! x41 := (Ok (OList [])) in let! x42 := (Ok ONone) in mk_function x40 x41 x42) in let! x44 := (Ok (OOp LTE)) in let! x45 := (Ok (OInt (1000))) in mk_condition x43 x44 x45) in Ok (OList [x29; x39])) in set_clause CHaving q v) in let! v := (let! x46 := (let! x49 := (let! x47 := (Ok (OStr ($"event_id"))) in let! x48 := (Ok ONone) in mk_column x47 x48) in let! x50 := (Ok (ODir ASC)) in mk_orderby x49 x50) in let! x51 := (let! x54 := (let! x52 := (Ok (OStr ($"title"))) in let! x53 := (Ok ONone) in mk_column x52 x53) in let! x55 := (Ok (ODir DESC)) in mk_orderby x54 x55) in Ok (OList [x46; x51])) in set_clause COrderby q v) in let! v := (Ok (OInt (10))) in set_clause CLimit q v) in let! v := (Ok (OInt (1))) in set_clause COffset q v) in let! v := (Ok (OInt (3600))) in set_clause CGranularity q v) in print q) [77; 65; 84; 67; 72; 32; 40; 101; 118; 101; 110; 116; 115; 41; 10; 83; 69; 76; 69; 67; 84; 32; 101; 118; 101; 110; 116; 95; 105; 100; 44; 32; 116; 105; 116; 108; 101; 10; 87; 72; 69; 82; 69; 32; 116; 105; 109; 101; 115; 116; 97; 109; 112; 32; 62; 32; 116; 111; 68; 97; 116; 101; 84; 105; 109; 101; 40; 39; 50; 48; 50; 49; 45; 48; 49; 45; 48; 50; 84; 48; 51; 58; 48; 52; 58; 48; 53; 46; 48; 48; 48; 48; 48; 54; 39; 41; 10; 72; 65; 86; 73; 78; 71; 32; 117; 110; 105; 113; 40; 117; 115; 101; 114; 115; 41; 32; 62; 32; 49; 32; 65; 78; 68; 32; 99; 111; 117; 110; 116; 40; 41; 32; 60; 61; 32; 49; 48; 48; 48; 10; 79; 82; 68; 69; 82; 32; 66; 89; 32; 101; 118; 101; 110; 116; 95; 105; 100; 32; 65; 83; 67; 44; 32; 116; 105; 116; 108; 101; 32; 68; 69; 83; 67; 10; 76; 73; 77; 73; 84; 32; 49; 48; 10; 79; 70; 70; 83; 69; 84; 32; 49; 10; 71; 82; 65; 78; 85; 76; 65; 82; 73; 84; 89; 32; 51; 54; 48; 48]%N = true.
Proof. vm_compute. reflexivity. Qed.

(* test_query_visitors.py, line 238: multiple HAVING *)
Example t221_test_query_visitors : same_str (let! q := (let! q := (let! q := (let! q := (let! q := (let! q := (let! q := (let! q := (let! x1 := (let! o := (let! x2 := (Ok (OStr ($"events"))) in let! x3 := (Ok ONone) in let! x4 := (Ok ONone) in let! x5 := (Ok ONone) in mk_entity x2 x3 x4 x5) in Ok (MObj o)) in let! x6 := (Ok ONone) in let! x7 := (Ok ONone) in let! x8 := (Ok ONone) in let! x9 := (Ok ONone) in let! x10 := (Ok ONone) in let! x11 := (Ok ONone) in let! x12 := (Ok ONone) in let! x13 := (Ok ONone) in let! x14 := (Ok ONone) in let! x15 := (Ok ONone) in let! x16 := (Ok ONone) in mk_query x1 (mkClauses x6 x7 x8 x9 x10 x11 x12 x13 x14 x15 x16)) in let! v := (let! x17 := (let! x18 := (Ok (OStr ($"event_id"))) in let! x19 := (Ok ONone) in mk_column x18 x19) in let! x20 := (let! x21 := (Ok (OStr ($"title"))) in let! x22 := (Ok ONone) in mk_column x21 x22) in Ok (OList [x17; x20])) in set_clause CSelect q v) in let! v := (let! x23 := (let! x26 := (let! x24 := (Ok (OStr ($"timestamp"))) in let! x25 := (Ok ONone) in mk_column x24 x25) in let! x27 := (Ok (OOp GT)) in let! x28 := (Ok (ODateTime (mkDT (mkDate 2021 1 2) 3 4 5 6 (Some 0)))) in mk_condition x26 x27 x28) in Ok (OList [x23])) in set_clause CWhere q v) in let! v := (let! x29 := (let! x36 := (let! x33 := (Ok (OStr ($"uniq"))) in let! x34 := (let! x30 := (let! x31 := (Ok (OStr ($"users"))) in let! x32 := (Ok ONone) in mk_column x31 x32) in Ok (OList [x30])) in let! x35 := (Ok ONone) in mk_function x33 x34 x35) in let! x37 := (Ok (OOp GT)) in let! x38 := (Ok (OInt (1))) in mk_condition x36 x37 x38) in let! x39 := (let! x43 := (let! x40 := (Ok (OStr ($"count"))) in let! x41 := (Ok (OList [])) in let! x42 := (Ok ONone) in mk_function x40 x41 x42) in let! x44 := (Ok (OOp LTE)) in let! x45 := (Ok (OInt (1000))) in mk_condition x43 x44 x45) in Ok (OList [x29; x39])) in set_clause CHaving q v) in let! v := (let! x46 := (let! x49 := (let! x47 := (Ok (OStr ($"event_id"))) in let! x48 := (Ok ONone) in mk_column x47 x48) in let! x50 := (Ok (ODir ASC)) in mk_orderby x49 x50) in let! x51 := (let! x54 := (let! x52 := (Ok (OStr ($"title"))) in let! x53 := (Ok ONone) in mk_column x52 x53) in let! x55 := (Ok (ODir DESC)) in mk_orderby x54 x55) in Ok (OList [x46; x51])) in set_clause COrderby q v) in let! v := (Ok (OInt (10))) in set_clause CLimit q v) in let! v := (Ok (OInt (1))) in set_clause COffset q v) in let! v := (Ok (OInt (3600))) in set_clause CGranularity q v) in print_query ($" ") q) ($"MATCH (events) SELECT event_id, title WHERE timestamp > toDateTime('2021-01-02T03:04:05.000006') HAVING uniq(users) > 1 AND count() <= 1000 ORDER BY event_id ASC, title DESC LIMIT 10 OFFSET 1 GRANULARITY 3600") = true.
Proof. vm_compute. reflexivity. Qed.

(* test_query_visitors.py, line 269: lists and tuples are allowed *)
Example t222_test_query_visitors : same_str (let! q := (let! q := (let! q := (let! q := (let! q := (let! q := (let! x1 := (let! o := (let! x2 := (Ok (OStr ($"events"))) in let! x3 := (Ok ONone) in let! x4 := (Ok ONone) in let! x5 := (Ok ONone) in mk_entity x2 x3 x4 x5) in Ok (MObj o)) in let! x6 := (Ok ONone) in let! x7 := (Ok ONone) in let! x8 := (Ok ONone) in let! x9 := (Ok ONone) in let! x10 := (Ok ONone) in let! x11 := (Ok ONone) in let! x12 := (Ok ONone) in let! x13 := (Ok ONone) in let! x14 := (Ok ONone) in let! x15 := (Ok ONone) in let! x16 := (Ok ONone) in mk_query x1 (mkClauses x6 x7 x8 x9 x10 x11 x12 x13 x14 x15 x16)) in let! v := (let! x17 := (let! x18 := (Ok (OStr ($"event_id"))) in let! x19 := (Ok ONone) in mk_column x18 x19) in Ok (OList [x17])) in set_clause CSelect q v) in let! v := (let! x20 := (let! x26 := (let! x21 := (Ok (OStr ($"project_id"))) in let! x22 := (Ok ONone) in mk_column x21 x22) in let! x27 := (Ok (OOp IN)) in let! x28 := (let! x23 := (Ok (OInt (1))) in let! x24 := (Ok (OInt (2))) in let! x25 := (Ok (OInt (3))) in Ok (OList [x23; x24; x25])) in mk_condition x26 x27 x28) in let! x29 := (let! x35 := (let! x30 := (Ok (OStr ($"group_id"))) in let! x31 := (Ok ONone) in mk_column x30 x31) in let! x36 := (Ok (OOp NOT_IN)) in let! x37 := (let! x32 := (Ok (OInt (1))) in let! x33 := (Ok (OStr ($"2"))) in let! x34 := (Ok (OInt (3))) in Ok (OTuple [x32; x33; x34])) in mk_condition x35 x36 x37) in Ok (OList [x20; x29])) in set_clause CWhere q v) in let! v := (Ok (OInt (10))) in set_clause CLimit q v) in let! v := (Ok (OInt (1))) in set_clause COffset q v) in let! v := (Ok (OInt (3600))) in set_clause CGranularity q v) in serialize q) ($"MATCH (events) SELECT event_id WHERE project_id IN array(1, 2, 3) AND group_id NOT IN tuple(1, '2', 3) LIMIT 10 OFFSET 1 GRANULARITY 3600") = true.
Proof. vm_compute. reflexivity. Qed.

(* test_query_visitors.py, line 269: lists and tuples are allowed *)
Example t223_test_query_visitors : same_str (let! q := (let! q := (let! q := (let! q := (let! q := (let! q := (let! x1 := (let! o := (let! x2 := (Ok (OStr ($"events"))) in let! x3 := (Ok ONone) in let! x4 := (Ok ONone) in let! x5 := (Ok ONone) in mk_entity x2 x3 x4 x5) in Ok (MObj o)) in let! x6 := (Ok ONone) in let! x7 := (Ok ONone) in let! x8 := (Ok ONone) in let! x9 := (Ok ONone) in let! x10 := (Ok ONone) in let! x11 := (Ok ONone) in let! x12 := (Ok ONone) in let! x13 := (Ok ONone) in let! x14 := (Ok ONone) in let! x15 := (Ok ONone) in let! x16 := (Ok ONone) in mk_query x1 (mkClauses x6 x7 x8 x9 x10 x11 x12 x13 x14 x15 x16)) in let! v := (let! x17 := (let! x18 := (Ok (OStr ($"event_id"))) in let! x19 := (Ok ONone) in mk_column x18 x19) in Ok (OList [x17])) in set_clause CSelect q v) in let! v := (let! x20 := (let! x26 := (let! x21 := (Ok (OStr ($"project_id"))) in let! x22 := (Ok ONone) in mk_column x21 x22) in let! x27 := (Ok (OOp IN)) in let! x28 := (let! x23 := (Ok (OInt (1))) in let! x24 := (Ok (OInt (2))) in let! x25 := (Ok (OInt (3))) in Ok (OList [x23; x24; x25])) in mk_condition x26 x27 x28) in let! x29 := (let! x35 := (let! x30 := (Ok (OStr ($"group_id"))) in let! x31 := (Ok ONone) in mk_column x30 x31) in let! x36 := (Ok (OOp NOT_IN)) in let! x37 := (let! x32 := (Ok (OInt (1))) in let! x33 := (Ok (OStr ($"2"))) in let! x34 := (Ok (OInt (3))) in Ok (OTuple [x32; x33; x34])) in mk_condition x35 x36 x37) in Ok (OList [x20; x29])) in set_clause CWhere q v) in let! v := (Ok (OInt (10))) in set_clause CLimit q v) in let! v := (Ok (OInt (1))) in set_clause COffset q v) in let! v := (Ok (OInt (3600))) in set_clause CGranularity q v) in print q) [77; 65; 84; 67; 72; 32; 40; 101; 118; 101; 110; 116; 115; 41; 10; 83; 69; 76; 69; 67; 84; 32; 101; 118; 101; 110; 116; 95; 105; 100; 10; 87; 72; 69; 82; 69; 32; 112; 114; 111; 106; 101; 99; 116; 95; 105; 100; 32; 73; 78; 32; 97; 114; 114; 97; 121; 40; 49; 44; 32; 50; 44; 32; 51; 41; 32; 65; 78; 68; 32; 103; 114; 111; 117; 112; 95; 105; 100; 32; 78; 79; 84; 32; 73; 78; 32; 116; 117; 112; 108; 101; 40; 49; 44; 32; 39; 50; 39; 44; 32; 51; 41; 10; 76; 73; 77; 73; 84; 32; 49; 48; 10; 79; 70; 70; 83; 69; 84; 32; 49; 10; 71; 82; 65; 78; 85; 76; 65; 82; 73; 84; 89; 32; 51; 54; 48; 48]%N = true.
Proof. vm_compute. reflexivity. Qed.

(* test_query_visitors.py, line 269: lists and tuples are allowed *)
Example t224_test_query_visitors : same_str (let! q := (let! q := (let! q := (let! q := (let! q := (let! q := (let! x1 := (let! o := (let! x2 := (Ok (OStr ($"events"))) in let! x3 := (Ok ONone) in let! x4 := (Ok ONone) in let! x5 := (Ok ONone) in mk_entity x2 x3 x4 x5) in Ok (MObj o)) in let! x6 := (Ok ONone) in let! x7 := (Ok ONone) in let! x8 := (Ok ONone) in let! x9 := (Ok ONone) in let! x10 := (Ok ONone) in let! x11 := (Ok ONone) in let! x12 := (Ok ONone) in let! x13 := (Ok ONone) in let! x14 := (Ok ONone) in let! x15 := (Ok ONone) in let! x16 := (Ok ONone) in mk_query x1 (mkClauses x6 x7 x8 x9 x10 x11 x12 x13 x14 x15 x16)) in let! v := (let! x17 := (let! x18 := (Ok (OStr ($"event_id"))) in let! x19 := (Ok ONone) in mk_column x18 x19) in Ok (OList [x17])) in set_clause CSelect q v) in let! v := (let! x20 := (let! x26 := (let! x21 := (Ok (OStr ($"project_id"))) in let! x22 := (Ok ONone) in mk_column x21 x22) in let! x27 := (Ok (OOp IN)) in let! x28 := (let! x23 := (Ok (OInt (1))) in let! x24 := (Ok (OInt (2))) in let! x25 := (Ok (OInt (3))) in Ok (OList [x23; x24; x25])) in mk_condition x26 x27 x28) in let! x29 := (let! x35 := (let! x30 := (Ok (OStr ($"group_id"))) in let! x31 := (Ok ONone) in mk_column x30 x31) in let! x36 := (Ok (OOp NOT_IN)) in let! x37 := (let! x32 := (Ok (OInt (1))) in let! x33 := (Ok (OStr ($"2"))) in let! x34 := (Ok (OInt (3))) in Ok (OTuple [x32; x33; x34])) in mk_condition x35 x36 x37) in Ok (OList [x20; x29])) in set_clause CWhere q v) in let! v := (Ok (OInt (10))) in set_clause CLimit q v) in let! v := (Ok (OInt (1))) in set_clause COffset q v) in let! v := (Ok (OInt (3600))) in set_clause CGranularity q v) in print_query ($" ") q) ($"MATCH (events) SELECT event_id WHERE project_id IN array(1, 2, 3) AND group_id NOT IN tuple(1, '2', 3) LIMIT 10 OFFSET 1 GRANULARITY 3600") = true.
Proof. vm_compute. reflexivity. Qed.

(* test_query_visitors.py, line 291: simple subquery *)
Example t225_test_query_visitors : same_str (let! q := (let! q := (let! q := (let! q := (let! q := (let! q := (let! x1 := (let! q := (let! x2 := (let! o := (let! x3 := (Ok (OStr ($"events"))) in let! x4 := (Ok ONone) in let! x5 := (Ok ONone) in let! x6 := (Ok ONone) in mk_entity x3 x4 x5 x6) in Ok (MObj o)) in let! x7 := (let! x8 := (let! x9 := (Ok (OStr ($"event_id"))) in let! x10 := (Ok ONone) in mk_column x9 x10) in let! x11 := (let! x12 := (Ok (OStr ($"title"))) in let! x13 := (Ok ONone) in mk_column x12 x13) in let! x14 := (let! x15 := (Ok (OStr ($"timestamp"))) in let! x16 := (Ok ONone) in mk_column x15 x16) in Ok (OList [x8; x11; x14])) in let! x17 := (Ok ONone) in let! x18 := (Ok ONone) in let! x19 := (Ok ONone) in let! x20 := (Ok ONone) in let! x21 := (Ok ONone) in let! x22 := (Ok ONone) in let! x23 := (Ok ONone) in let! x24 := (Ok ONone) in let! x25 := (Ok ONone) in let! x26 := (Ok ONone) in mk_query x2 (mkClauses x7 x17 x18 x19 x20 x21 x22 x23 x24 x25 x26)) in Ok (MQuery q)) in let! x27 := (Ok ONone) in let! x28 := (Ok ONone) in let! x29 := (Ok ONone) in let! x30 := (Ok ONone) in let! x31 := (Ok ONone) in let! x32 := (Ok ONone) in let! x33 := (Ok ONone) in let! x34 := (Ok ONone) in let! x35 := (Ok ONone) in let! x36 := (Ok ONone) in let! x37 := (Ok ONone) in mk_query x1 (mkClauses x27 x28 x29 x30 x31 x32 x33 x34 x35 x36 x37)) in let! v := (let! x38 := (let! x39 := (Ok (OStr ($"event_id"))) in let! x40 := (Ok ONone) in mk_column x39 x40) in let! x41 := (let! x42 := (Ok (OStr ($"title"))) in let! x43 := (Ok ONone) in mk_column x42 x43) in Ok (OList [x38; x41])) in set_clause CSelect q v) in let! v := (let! x44 := (let! x47 := (let! x45 := (Ok (OStr ($"timestamp"))) in let! x46 := (Ok ONone) in mk_column x45 x46) in let! x48 := (Ok (OOp IS_NOT_NULL)) in let! x49 := (Ok ONone) in mk_condition x47 x48 x49) in Ok (OList [x44])) in set_clause CWhere q v) in let! v := (Ok (OInt (10))) in set_clause CLimit q v) in let! v := (Ok (OInt (1))) in set_clause COffset q v) in let! v := (Ok (OInt (3600))) in set_clause CGranularity q v) in serialize q) ($"MATCH { MATCH (events) SELECT event_id, title, timestamp } SELECT event_id, title WHERE timestamp IS NOT NULL LIMIT 10 OFFSET 1 GRANULARITY 3600") = true.
Proof. vm_compute. reflexivity. Qed.

(* test_query_visitors.py, line 291: simple subquery *)
Example t226_test_query_visitors : same_str (let! q := (let! q := (let! q := (let! q := (let! q := (let! q := (let! x1 := (let! q := (let! x2 := (let! o := (let! x3 := (Ok (OStr ($"events"))) in let! x4 := (Ok ONone) in let! x5 := (Ok ONone) in let! x6 := (Ok ONone) in mk_entity x3 x4 x5 x6) in Ok (MObj o)) in let! x7 := (let! x8 := (let! x9 := (Ok (OStr ($"event_id"))) in let! x10 := (Ok ONone) in mk_column x9 x10) in let! x11 := (let! x12 := (Ok (OStr ($"title"))) in let! x13 := (Ok ONone) in mk_column x12 x13) in let! x14 := (let! x15 := (Ok (OStr ($"timestamp"))) in let! x16 := (Ok ONone) in mk_column x15 x16) in Ok (OList [x8; x11; x14])) in let! x17 := (Ok ONone) in let! x18 := (Ok ONone) in let! x19 := (Ok ONone) in let! x20 := (Ok ONone) in let! x21 := (Ok ONone) in let! x22 := (Ok ONone) in let! x23 := (Ok ONone) in let! x24 := (Ok ONone) in let! x25 := (Ok ONone) in let! x26 := (Ok ONone) in mk_query x2 (mkClauses x7 x17 x18 x19 x20 x21 x22 x23 x24 x25 x26)) in Ok (MQuery q)) in let! x27 := (Ok ONone) in let! x28 := (Ok ONone) in let! x29 := (Ok ONone) in let! x30 := (Ok ONone) in let! x31 := (Ok ONone) in let! x32 := (Ok ONone) in let! x33 := (Ok ONone) in let! x34 := (Ok ONone) in let! x35 := (Ok ONone) in let! x36 := (Ok ONone) in let! x37 := (Ok ONone) in mk_query x1 (mkClauses x27 x28 x29 x30 x31 x32 x33 x34 x35 x36 x37)) in let! v := (let! x38 := (let! x39 := (Ok (OStr ($"event_id"))) in let! x40 := (Ok ONone) in mk_column x39 x40) in let! x41 := (let! x42 := (Ok (OStr ($"title"))) in let! x43 := (Ok ONone) in mk_column x42 x43) in Ok (OList [x38; x41])) in set_clause CSelect q v) in let! v := (let! x44 := (let! x47 := (let! x45 := (Ok (OStr ($"timestamp"))) in let! x46 := (Ok ONone) in mk_column x45 x46) in let! x48 := (Ok (OOp IS_NOT_NULL)) in let! x49 := (Ok ONone) in mk_condition x47 x48 x49) in Ok (OList [x44])) in set_clause CWhere q v) in let! v := (Ok (OInt (10))) in set_clause CLimit q v) in let! v := (Ok (OInt (1))) in set_clause COffset q v) in let! v := (Ok (OInt (3600))) in set_clause CGranularity q v) in print q) [77; 65; 84; 67; 72; 32; 123; 32; 77; 65; 84; 67; 72; 32; 40; 101; 118; 101; 110; 116; 115; 41; 32; 83; 69; 76; 69; 67; 84; 32; 101; 118; 101; 110; 116; 95; 105; 100; 44; 32; 116; 105; 116; 108; 101; 44; 32; 116; 105; 109; 101; 115; 116; 97; 109; 112; 32; 125; 10; 83; 69; 76; 69; 67; 84; 32; 101; 118; 101; 110; 116; 95; 105; 100; 44; 32; 116; 105; 116; 108; 101; 10; 87; 72; 69; 82; 69; 32; 116; 105; 109; 101; 115; 116; 97; 109; 112; 32; 73; 83; 32; 78; 79; 84; 32; 78; 85; 76; 76; 10; 76; 73; 77; 73; 84; 32; 49; 48; 10; 79; 70; 70; 83; 69; 84; 32; 49; 10; 71; 82; 65; 78; 85; 76; 65; 82; 73; 84; 89; 32; 51; 54; 48; 48]%N = true.
Proof. vm_compute. reflexivity. Qed.

(* test_query_visitors.py, line 291: simple subquery *)
Example t227_test_query_visitors : same_str (let! q := (let! q := (let! q := (let! q := (let! q := (let! q := (let! x1 := (let! q := (let! x2 := (let! o := (let! x3 := (Ok (OStr ($"events"))) in let! x4 := (Ok ONone) in let! x5 := (Ok ONone) in let! x6 := (Ok ONone) in mk_entity x3 x4 x5 x6) in Ok (MObj o)) in let! x7 := (let! x8 := (let! x9 := (Ok (OStr ($"event_id"))) in let! x10 := (Ok ONone) in mk_column x9 x10) in let! x11 := (let! x12 := (Ok (OStr ($"title"))) in let! x13 := (Ok ONone) in mk_column x12 x13) in let! x14 := (let! x15 := (Ok (OStr ($"timestamp"))) in let! x16 := (Ok ONone) in mk_column x15 x16) in Ok (OList [x8; x11; x14])) in let! x17 := (Ok ONone) in let! x18 := (Ok ONone) in let! x19 := (Ok ONone) in let! x20 := (Ok ONone) in let! x21 := (Ok ONone) in let! x22 := (Ok ONone) in let! x23 := (Ok ONone) in let! x24 := (Ok ONone) in let! x25 := (Ok ONone) in let! x26 := (Ok ONone) in mk_query x2 (mkClauses x7 x17 x18 x19 x20 x21 x22 x23 x24 x25 x26)) in Ok (MQuery q)) in let! x27 := (Ok ONone) in let! x28 := (Ok ONone) in let! x29 := (Ok ONone) in let! x30 := (Ok ONone) in let! x31 := (Ok ONone) in let! x32 := (Ok ONone) in let! x33 := (Ok ONone) in let! x34 := (Ok ONone) in let! x35 := (Ok ONone) in let! x36 := (Ok ONone) in let! x37 := (Ok ONone) in mk_query x1 (mkClauses x27 x28 x29 x30 x31 x32 x33 x34 x35 x36 x37)) in let! v := (let! x38 := (let! x39 := (Ok (OStr ($"event_id"))) in let! x40 := (Ok ONone) in mk_column x39 x40) in let! x41 := (let! x42 := (Ok (OStr ($"title"))) in let! x43 := (Ok ONone) in mk_column x42 x43) in Ok (OList [x38; x41])) in set_clause CSelect q v) in let! v := (let! x44 := (let! x47 := (let! x45 := (Ok (OStr ($"timestamp"))) in let! x46 := (Ok ONone) in mk_column x45 x46) in let! x48 := (Ok (OOp IS_NOT_NULL)) in let! x49 := (Ok ONone) in mk_condition x47 x48 x49) in Ok (OList [x44])) in set_clause CWhere q v) in let! v := (Ok (OInt (10))) in set_clause CLimit q v) in let! v := (Ok (OInt (1))) in set_clause COffset q v) in let! v := (Ok (OInt (3600))) in set_clause CGranularity q v) in print_query ($" ") q) ($"MATCH { MATCH (events) SELECT event_id, title, timestamp } SELECT event_id, title WHERE timestamp IS NOT NULL LIMIT 10 OFFSET 1 GRANULARITY 3600") = true.
Proof. vm_compute. reflexivity. Qed.

(* test_query_visitors.py, line 313: subquery with functions *)
Example t228_test_query_visitors : same_str (let! q := (let! q := (let! q := (let! q := (let! q := (let! q := (let! q := (let! x1 := (let! q := (let! x2 := (let! o := (let! x3 := (Ok (OStr ($"events"))) in let! x4 := (Ok (OStr ($"ev"))) in let! x5 := (Ok ONone) in let! x6 := (Ok ONone) in mk_entity x3 x4 x5 x6) in Ok (MObj o)) in let! x7 := (let! x8 := (let! x12 := (Ok (OStr ($"toString"))) in let! x13 := (let! x9 := (let! x10 := (Ok (OStr ($"event_id"))) in let! x11 := (Ok ONone) in mk_column x10 x11) in Ok (OList [x9])) in let! x14 := (Ok (OStr ($"new_event"))) in mk_function x12 x13 x14) in let! x15 := (let! x16 := (Ok (OStr ($"title"))) in let! x17 := (Ok ONone) in mk_column x16 x17) in let! x18 := (let! x19 := (Ok (OStr ($"timestamp"))) in let! x20 := (Ok ONone) in mk_column x19 x20) in Ok (OList [x8; x15; x18])) in let! x21 := (Ok ONone) in let! x22 := (Ok ONone) in let! x23 := (Ok ONone) in let! x24 := (Ok ONone) in let! x25 := (Ok ONone) in let! x26 := (Ok ONone) in let! x27 := (Ok ONone) in let! x28 := (Ok ONone) in let! x29 := (Ok ONone) in let! x30 := (Ok ONone) in mk_query x2 (mkClauses x7 x21 x22 x23 x24 x25 x26 x27 x28 x29 x30)) in Ok (MQuery q)) in let! x31 := (Ok ONone) in let! x32 := (Ok ONone) in let! x33 := (Ok ONone) in let! x34 := (Ok ONone) in let! x35 := (Ok ONone) in let! x36 := (Ok ONone) in let! x37 := (Ok ONone) in let! x38 := (Ok ONone) in let! x39 := (Ok ONone) in let! x40 := (Ok ONone) in let! x41 := (Ok ONone) in mk_query x1 (mkClauses x31 x32 x33 x34 x35 x36 x37 x38 x39 x40 x41)) in let! v := (let! x42 := (let! x46 := (Ok (OStr ($"uniq"))) in let! x47 := (let! x43 := (let! x44 := (Ok (OStr ($"new_event"))) in let! x45 := (Ok ONone) in mk_column x44 x45) in Ok (OList [x43])) in let! x48 := (Ok (OStr ($"uniq_event"))) in mk_function x46 x47 x48) in let! x49 := (let! x50 := (Ok (OStr ($"title"))) in let! x51 := (Ok ONone) in mk_column x50 x51) in Ok (OList [x42; x49])) in set_clause CSelect q v) in let! v := (let! x52 := (let! x53 := (Ok (OStr ($"title"))) in let! x54 := (Ok ONone) in mk_column x53 x54) in Ok (OList [x52])) in set_clause CGroupby q v) in let! v := (let! x55 := (let! x58 := (let! x56 := (Ok (OStr ($"timestamp"))) in let! x57 := (Ok ONone) in mk_column x56 x57) in let! x59 := (Ok (OOp IS_NOT_NULL)) in let! x60 := (Ok ONone) in mk_condition x58 x59 x60) in Ok (OList [x55])) in set_clause CWhere q v) in let! v := (Ok (OInt (10))) in set_clause CLimit q v) in let! v := (Ok (OInt (1))) in set_clause COffset q v) in let! v := (Ok (OInt (3600))) in set_clause CGranularity q v) in serialize q) ($"MATCH { MATCH (events) SELECT toString(event_id) AS `new_event`, title, timestamp } SELECT uniq(new_event) AS `uniq_event`, title BY title WHERE timestamp IS NOT NULL LIMIT 10 OFFSET 1 GRANULARITY 3600") = true.
Proof. vm_compute. reflexivity. Qed.

(* test_query_visitors.py, line 313: subquery with functions *)
Example t229_test_query_visitors : same_str (let! q := (let! q := (let! q := (let! q := (let! q := (let! q := (let! q := (let! x1 := (let! q := (let! x2 := (let! o := (let! x3 := (Ok (OStr ($"events"))) in let! x4 := (Ok (OStr ($"ev"))) in let! x5 := (Ok ONone) in let! x6 := (Ok ONone) in mk_entity x3 x4 x5 x6) in Ok (MObj o)) in let! x7 := (let! x8 := (let! x12 := (Ok (OStr ($"toString"))) in let! x13 := (let! x9 := (let! x10 := (Ok (OStr ($"event_id"))) in let! x11 := (Ok ONone) in mk_column x10 x11) in Ok (OList [x9])) in let! x14 := (Ok (OStr ($"new_event"))) in mk_function x12 x13 x14) in let! x15 := (let! x16 := (Ok (OStr ($"title"))) in let! x17 := (Ok ONone) in mk_column x16 x17) in let! x18 := (let! x19 := (Ok (OStr ($"timestamp"))) in let! x20 := (Ok ONone) in mk_column x19 x20) in Ok (OList [x8; x15; x18])) in let! x21 := (Ok ONone) in let! x22 := (Ok ONone) in let! x23 := (Ok ONone) in let! x24 := (Ok ONone) in let! x25 := (Ok ONone) in let! x26 := (Ok ONone) in let! x27 := (Ok ONone) in let! x28 := (Ok ONone) in let! x29 := (Ok ONone) in let! x30 := (Ok ONone) in mk_query x2 (mkClauses x7 x21 x22 x23 x24 x25 x26 x27 x28 x29 x30)) in Ok (MQuery q)) in let! x31 := (Ok ONone) in let! x32 := (Ok ONone) in let! x33 := (Ok ONone) in let! x34 := (Ok ONone) in let! x35 := (Ok ONone) in let! x36 := (Ok ONone) in let! x37 := (Ok ONone) in let! x38 := (Ok ONone) in let! x39 := (Ok ONone) in let! x40 := (Ok ONone) in let! x41 := (Ok ONone) in mk_query x1 (mkClauses x31 x32 x33 x34 x35 x36 x37 x38 x39 x40 x41)) in let! v := (let! x42 := (let! x46 := (Ok (OStr ($"uniq"))) in let! x47 := (let! x43 := (let! x44 := (Ok (OStr ($"new_event"))) in let! x45 := (Ok ONone) in mk_column x44 x45) in Ok (OList [x43])) in let! x48 := (Ok (OStr ($"uniq_event"))) in mk_function x46 x47 x48) in let! x49 := (let! x50 := (Ok (OStr ($"title"))) in let! x51 := (Ok ONone) in mk_column x50 x51) in Ok (OList [x42; x49])) in set_clause CSelect q v) in let! v := (let! x52 := (let! x53 := (Ok (OStr ($"title"))) in let! x54 := (Ok ONone) in mk_column x53 x54) in Ok (OList [x52])) in set_clause CGroupby q v) in let! v := (let! x55 := (let! x58 := (let! x56 := (Ok (OStr ($"timestamp"))) in let! x57 := (Ok ONone) in mk_column x56 x57) in let! x59 := (Ok (OOp IS_NOT_NULL)) in let! x60 := (Ok ONone) in mk_condition x58 x59 x60) in Ok (OList [x55])) in set_clause CWhere q v) in let! v := (Ok (OInt (10))) in set_clause CLimit q v) in let! v := (Ok (OInt (1))) in set_clause COffset q v) in let! v := (Ok (OInt (3600))) in set_clause CGranularity q v) in print q) [77; 65; 84; 67; 72; 32; 123; 32; 77; 65; 84; 67; 72; 32; 40; 101; 118; 101; 110; 116; 115; 41; 32; 83; 69; 76; 69; 67; 84; 32; 116; 111; 83; 116; 114; 105; 110; 103; 40; 101; 118; 101; 110; 116; 95; 105; 100; 41; 32; 65; 83; 32; 96; 110; 101; 119; 95; 101; 118; 101; 110; 116; 96; 44; 32; 116; 105; 116; 108; 101; 44; 32; 116; 105; 109; 101; 115; 116; 97; 109; 112; 32; 125; 10; 83; 69; 76; 69; 67; 84; 32; 117; 110; 105; 113; 40; 110; 101; 119; 95; 101; 118; 101; 110; 116; 41; 32; 65; 83; 32; 96; 117; 110; 105; 113; 95; 101; 118; 101; 110; 116; 96; 44; 32; 116; 105; 116; 108; 101; 10; 66; 89; 32; 116; 105; 116; 108; 101; 10; 87; 72; 69; 82; 69; 32; 116; 105; 109; 101; 115; 116; 97; 109; 112; 32; 73; 83; 32; 78; 79; 84; 32; 78; 85; 76; 76; 10; 76; 73; 77; 73; 84; 32; 49; 48; 10; 79; 70; 70; 83; 69; 84; 32; 49; 10; 71; 82; 65; 78; 85; 76; 65; 82; 73; 84; 89; 32; 51; 54; 48; 48]%N = true.
Proof. vm_compute. reflexivity. Qed.

(* test_query_visitors.py, line 313: subquery with functions *)
Example t230_test_query_visitors : same_str (let! q := (let! q := (let! q := (let! q := (let! q := (let! q := (let! q := (let! x1 := (let! q := (let! x2 := (let! o := (let! x3 := (Ok (OStr ($"events"))) in let! x4 := (Ok (OStr ($"ev"))) in let! x5 := (Ok ONone) in let! x6 := (Ok ONone) in mk_entity x3 x4 x5 x6) in Ok (MObj o)) in let! x7 := (let! x8 := (let! x12 := (Ok (OStr ($"toString"))) in let! x13 := (let! x9 := (let! x10 := (Ok (OStr ($"event_id"))) in let! x11 := (Ok ONone) in mk_column x10 x11) in Ok (OList [x9])) in let! x14 := (Ok (OStr ($"new_event"))) in mk_function x12 x13 x14) in let! x15 := (let! x16 := (Ok (OStr ($"title"))) in let! x17 := (Ok ONone) in mk_column x16 x17) in let! x18 := (let! x19 := (Ok (OStr ($"timestamp"))) in let! x20 := (Ok ONone) in mk_column x19 x20) in Ok (OList [x8; x15; x18])) in let! x21 := (Ok ONone) in let! x22 := (Ok ONone) in let! x23 := (Ok ONone) in let! x24 := (Ok ONone) in let! x25 := (Ok ONone) in let! x26 := (Ok ONone) in let! x27 := (Ok ONone) in let! x28 := (Ok ONone) in let! x29 := (Ok ONone) in let! x30 := (Ok ONone) in mk_query x2 (mkClauses x7 x21 x22 x23 x24 x25 x26 x27 x28 x29 x30)) in Ok (MQuery q)) in let! x31 := (Ok ONone) in let! x32 := (Ok ONone) in let! x33 := (Ok ONone) in let! x34 := (Ok ONone) in let! x35 := (Ok ONone) in let! x36 := (Ok ONone) in let! x37 := (Ok ONone) in let! x38 := (Ok ONone) in let! x39 := (Ok ONone) in let! x40 := (Ok ONone) in let! x41 := (Ok ONone) in mk_query x1 (mkClauses x31 x32 x33 x34 x35 x36 x37 x38 x39 x40 x41)) in let! v := (let! x42 := (let! x46 := (Ok (OStr ($"uniq"))) in let! x47 := (let! x43 := (let! x44 := (Ok (OStr ($"new_event"))) in let! x45 := (Ok ONone) in mk_column x44 x45) in Ok (OList [x43])) in let! x48 := (Ok (OStr ($"uniq_event"))) in mk_function x46 x47 x48) in let! x49 := (let! x50 := (Ok (OStr ($"title"))) in let! x51 := (Ok ONone) in mk_column x50 x51) in Ok (OList [x42; x49])) in set_clause CSelect q v) in let! v := (let! x52 := (let! x53 := (Ok (OStr ($"title"))) in let! x54 := (Ok ONone) in mk_column x53 x54) in Ok (OList [x52])) in set_clause CGroupby q v) in let! v := (let! x55 := (let! x58 := (let! x56 := (Ok (OStr ($"timestamp"))) in let! x57 := (Ok ONone) in mk_column x56 x57) in let! x59 := (Ok (OOp IS_NOT_NULL)) in let! x60 := (Ok ONone) in mk_condition x58 x59 x60) in Ok (OList [x55])) in set_clause CWhere q v) in let! v := (Ok (OInt (10))) in set_clause CLimit q v) in let! v := (Ok (OInt (1))) in set_clause COffset q v) in let! v := (Ok (OInt (3600))) in set_clause CGranularity q v) in print_query ($" ") q) ($"MATCH { MATCH (events) SELECT toString(event_id) AS `new_event`, title, timestamp } SELECT uniq(new_event) AS `uniq_event`, title BY title WHERE timestamp IS NOT NULL LIMIT 10 OFFSET 1 GRANULARITY 3600") = true.
Proof. vm_compute. reflexivity. Qed.

(* test_query_visitors.py, line 343: multiple nested *)
Example t231_test_query_visitors : same_str (let! q := (let! q := (let! q := (let! q := (let! q := (let! q := (let! x1 := (let! q := (let! x2 := (let! q := (let! x3 := (let! o := (let! x4 := (Ok (OStr ($"events"))) in let! x5 := (Ok ONone) in let! x6 := (Ok ONone) in let! x7 := (Ok ONone) in mk_entity x4 x5 x6 x7) in Ok (MObj o)) in let! x8 := (let! x9 := (let! x10 := (Ok (OStr ($"event_id"))) in let! x11 := (Ok ONone) in mk_column x10 x11) in let! x12 := (let! x13 := (Ok (OStr ($"title"))) in let! x14 := (Ok ONone) in mk_column x13 x14) in let! x15 := (let! x16 := (Ok (OStr ($"timestamp"))) in let! x17 := (Ok ONone) in mk_column x16 x17) in Ok (OList [x9; x12; x15])) in let! x18 := (Ok ONone) in let! x19 := (Ok ONone) in let! x20 := (Ok ONone) in let! x21 := (Ok ONone) in let! x22 := (Ok ONone) in let! x23 := (Ok ONone) in let! x24 := (Ok ONone) in let! x25 := (Ok ONone) in let! x26 := (Ok ONone) in let! x27 := (Ok ONone) in mk_query x3 (mkClauses x8 x18 x19 x20 x21 x22 x23 x24 x25 x26 x27)) in Ok (MQuery q)) in let! x28 := (let! x29 := (let! x33 := (Ok (OStr ($"toString"))) in let! x34 := (let! x30 := (let! x31 := (Ok (OStr ($"event_id"))) in let! x32 := (Ok ONone) in mk_column x31 x32) in Ok (OList [x30])) in let! x35 := (Ok (OStr ($"new_event"))) in mk_function x33 x34 x35) in let! x36 := (let! x37 := (Ok (OStr ($"timestamp"))) in let! x38 := (Ok ONone) in mk_column x37 x38) in Ok (OList [x29; x36])) in let! x39 := (Ok ONone) in let! x40 := (Ok ONone) in let! x41 := (Ok ONone) in let! x42 := (Ok ONone) in let! x43 := (Ok ONone) in let! x44 := (Ok ONone) in let! x45 := (Ok ONone) in let! x46 := (Ok ONone) in let! x47 := (Ok ONone) in let! x48 := (Ok ONone) in mk_query x2 (mkClauses x28 x39 x40 x41 x42 x43 x44 x45 x46 x47 x48)) in Ok (MQuery q)) in let! x49 := (Ok ONone) in let! x50 := (Ok ONone) in let! x51 := (Ok ONone) in let! x52 := (Ok ONone) in let! x53 := (Ok ONone) in let! x54 := (Ok ONone) in let! x55 := (Ok ONone) in let! x56 := (Ok ONone) in let! x57 := (Ok ONone) in let! x58 := (Ok ONone) in let! x59 := (Ok ONone) in mk_query x1 (mkClauses x49 x50 x51 x52 x53 x54 x55 x56 x57 x58 x59)) in let! v := (let! x60 := (let! x64 := (Ok (OStr ($"avg"))) in let! x65 := (let! x61 := (let! x62 := (Ok (OStr ($"new_event"))) in let! x63 := (Ok ONone) in mk_column x62 x63) in Ok (OList [x61])) in let! x66 := (Ok (OStr ($"avg_event"))) in mk_function x64 x65 x66) in Ok (OList [x60])) in set_clause CSelect q v) in let! v := (let! x67 := (let! x70 := (let! x68 := (Ok (OStr ($"timestamp"))) in let! x69 := (Ok ONone) in mk_column x68 x69) in let! x71 := (Ok (OOp IS_NOT_NULL)) in let! x72 := (Ok ONone) in mk_condition x70 x71 x72) in Ok (OList [x67])) in set_clause CWhere q v) in let! v := (Ok (OInt (10))) in set_clause CLimit q v) in let! v := (Ok (OInt (1))) in set_clause COffset q v) in let! v := (Ok (OInt (3600))) in set_clause CGranularity q v) in serialize q) ($"MATCH { MATCH { MATCH (events) SELECT event_id, title, timestamp } SELECT toString(event_id) AS `new_event`, timestamp } SELECT avg(new_event) AS `avg_event` WHERE timestamp IS NOT NULL LIMIT 10 OFFSET 1 GRANULARITY 3600") = true.
Proof. vm_compute. reflexivity. Qed.

(* test_query_visitors.py, line 343: multiple nested *)
Example t232_test_query_visitors : same_str (let! q := (let! q := (let! q := (let! q := (let! q := (let! q := (let! x1 := (let! q := (let! x2 := (let! q := (let! x3 := (let! o := (let! x4 := (Ok (OStr ($"events"))) in let! x5 := (Ok ONone) in let! x6 := (Ok ONone) in let! x7 := (Ok ONone) in mk_entity x4 x5 x6 x7) in Ok (MObj o)) in let! x8 := (let! x9 := (let! x10 := (Ok (OStr ($"event_id"))) in let! x11 := (Ok ONone) in mk_column x10 x11) in let! x12 := (let! x13 := (Ok (OStr ($"title"))) in let! x14 := (Ok ONone) in mk_column x13 x14) in let! x15 := (let! x16 := (Ok (OStr ($"timestamp"))) in let! x17 := (Ok ONone) in mk_column x16 x17) in Ok (OList [x9; x12; x15])) in let! x18 := (Ok ONone) in let! x19 := (Ok ONone) in let! x20 := (Ok ONone) in let! x21 := (Ok ONone) in let! x22 := (Ok ONone) in let! x23 := (Ok ONone) in let! x24 := (Ok ONone) in let! x25 := (Ok ONone) in let! x26 := (Ok ONone) in let! x27 := (Ok ONone) in mk_query x3 (mkClauses x8 x18 x19 x20 x21 x22 x23 x24 x25 x26 x27)) in Ok (MQuery q)) in let! x28 := (let! x29 := (let! x33 := (Ok (OStr ($"toString"))) in let! x34 := (let! x30 := (let! x31 := (Ok (OStr ($"event_id"))) in let! x32 := (Ok ONone) in mk_column x31 x32) in Ok (OList [x30])) in let! x35 := (Ok (OStr ($"new_event"))) in mk_function x33 x34 x35) in let! x36 := (let! x37 := (Ok (OStr ($"timestamp"))) in let! x38 := (Ok ONone) in mk_column x37 x38) in Ok (OList [x29; x36])) in let! x39 := (Ok ONone) in let! x40 := (Ok ONone) in let! x41 := (Ok ONone) in let! x42 := (Ok ONone) in let! x43 := (Ok ONone) in let! x44 := (Ok ONone) in let! x45 := (Ok ONone) in let! x46 := (Ok ONone) in let! x47 := (Ok ONone) in let! x48 := (Ok ONone) in mk_query x2 (mkClauses x28 x39 x40 x41 x42 x43 x44 x45 x46 x47 x48)) in Ok (MQuery q)) in let! x49 := (Ok ONone) in let! x50 := (Ok ONone) in let! x51 := (Ok ONone) in let! x52 := (Ok ONone) in let! x53 := (Ok ONone) in let! x54 := (Ok ONone) in let! x55 := (Ok ONone) in let! x56 := (Ok ONone) in let! x57 := (Ok ONone) in let! x58 := (Ok ONone) in let! x59 := (Ok ONone) in mk_query x1 (mkClauses x49 x50 x51 x52 x53 x54 x55 x56 x57 x58 x59)) in let! v := (let! x60 := (let! x64 := (Ok (OStr ($"avg"))) in let! x65 := (let! x61 := (let! x62 := (Ok (OStr ($"new_event"))) in let! x63 := (Ok ONone) in mk_column x62 x63) in Ok (OList [x61])) in let! x66 := (Ok (OStr ($"avg_event"))) in mk_function x64 x65 x66) in Ok (OList [x60])) in set_clause CSelect q v) in let! v := (let! x67 := (let! x70 := (let! x68 := (Ok (OStr ($"timestamp"))) in let! x69 := (Ok ONone) in mk_column x68 x69) in let! x71 := (Ok (OOp IS_NOT_NULL)) in let! x72 := (Ok ONone) in mk_condition x70 x71 x72) in Ok (OList [x67])) in set_clause CWhere q v) in let! v := (Ok (OInt (10))) in set_clause CLimit q v) in let! v := (Ok (OInt (1))) in set_clause COffset q v) in let! v := (Ok (OInt (3600))) in set_clause CGranularity q v) in print q) [77; 65; 84; 67; 72; 32; 123; 32; 77; 65; 84; 67; 72; 32; 123; 32; 77; 65; 84; 67; 72; 32; 40; 101; 118; 101; 110; 116; 115; 41; 32; 83; 69; 76; 69; 67; 84; 32; 101; 118; 101; 110; 116; 95; 105; 100; 44; 32; 116; 105; 116; 108; 101; 44; 32; 116; 105; 109; 101; 115; 116; 97; 109; 112; 32; 125; 32; 83; 69; 76; 69; 67; 84; 32; 116; 111; 83; 116; 114; 105; 110; 103; 40; 101; 118; 101; 110; 116; 95; 105; 100; 41; 32; 65; 83; 32; 96; 110; 101; 119; 95; 101; 118; 101; 110; 116; 96; 44; 32; 116; 105; 109; 101; 115; 116; 97; 109; 112; 32; 125; 10; 83; 69; 76; 69; 67; 84; 32; 97; 118; 103; 40; 110; 101; 119; 95; 101; 118; 101; 110; 116; 41; 32; 65; 83; 32; 96; 97; 118; 103; 95; 101; 118; 101; 110; 116; 96; 10; 87; 72; 69; 82; 69; 32; 116; 105; 109; 101; 115; 116; 97; 109; 112; 32; 73; 83; 32; 78; 79; 84; 32; 78; 85; 76; 76; 10; 76; 73; 77; 73; 84; 32; 49; 48; 10; 79; 70; 70; 83; 69; 84; 32; 49; 10; 71; 82; 65; 78; 85; 76; 65; 82; 73; 84; 89; 32; 51; 54; 48; 48]%N = true.
Proof. vm_compute. reflexivity. Qed.

(* test_query_visitors.py, line 343: multiple nested *)
Example t233_test_query_visitors : same_str (let! q := (let! q := (let! q := (let! q := (let! q := (let! q := (let! x1 := (let! q := (let! x2 := (let! q := (let! x3 := (let! o := (let! x4 := (Ok (OStr ($"events"))) in let! x5 := (Ok ONone) in let! x6 := (Ok ONone) in let! x7 := (Ok ONone) in mk_entity x4 x5 x6 x7) in Ok (MObj o)) in let! x8 := (let! x9 := (let! x10 := (Ok (OStr ($"event_id"))) in let! x11 := (Ok ONone) in mk_column x10 x11) in let! x12 := (let! x13 := (Ok (OStr ($"title"))) in let! x14 := (Ok ONone) in mk_column x13 x14) in let! x15 := (let! x16 := (Ok (OStr ($"timestamp"))) in let! x17 := (Ok ONone) in mk_column x16 x17) in Ok (OList [x9; x12; x15])) in let! x18 := (Ok ONone) in let! x19 := (Ok ONone) in let! x20 := (Ok ONone) in let! x21 := (Ok ONone) in let! x22 := (Ok ONone) in let! x23 := (Ok ONone) in let! x24 := (Ok ONone) in let! x25 := (Ok ONone) in let! x26 := (Ok ONone) in let! x27 := (Ok ONone) in mk_query x3 (mkClauses x8 x18 x19 x20 x21 x22 x23 x24 x25 x26 x27)) in Ok (MQuery q)) in let! x28 := (let! x29 := (let! x33 := (Ok (OStr ($"toString"))) in let! x34 := (let! x30 := (let! x31 := (Ok (OStr ($"event_id"))) in let! x32 := (Ok ONone) in mk_column x31 x32) in Ok (OList [x30])) in let! x35 := (Ok (OStr ($"new_event"))) in mk_function x33 x34 x35) in let! x36 := (let! x37 := (Ok (OStr ($"timestamp"))) in let! x38 := (Ok ONone) in mk_column x37 x38) in Ok (OList [x29; x36])) in let! x39 := (Ok ONone) in let! x40 := (Ok ONone) in let! x41 := (Ok ONone) in let! x42 := (Ok ONone) in let! x43 := (Ok ONone) in let! x44 := (Ok ONone) in let! x45 := (Ok ONone) in let! x46 := (Ok ONone) in let! x47 := (Ok ONone) in let! x48 := (Ok ONone) in mk_query x2 (mkClauses x28 x39 x40 x41 x42 x43 x44 x45 x46 x47 x48)) in Ok (MQuery q)) in let! x49 := (Ok ONone) in let! x50 := (Ok ONone) in let! x51 := (Ok ONone) in let! x52 := (Ok ONone) in let! x53 := (Ok ONone) in let! x54 := (Ok ONone) in let! x55 := (Ok ONone) in let! x56 := (Ok ONone) in let! x57 := (Ok ONone) in let! x58 := (Ok ONone) in let! x59 := (Ok ONone) in mk_query x1 (mkClauses x49 x50 x51 x52 x53 x54 x55 x56 x57 x58 x59)) in let! v := (let! x60 := (let! x64 := (Ok (OStr ($"avg"))) in let! x65 := (let! x61 := (let! x62 := (Ok (OStr ($"new_event"))) in let! x63 := (Ok ONone) in mk_column x62 x63) in Ok (OList [x61])) in let! x66 := (Ok (OStr ($"avg_event"))) in mk_function x64 x65 x66) in Ok (OList [x60])) in set_clause CSelect q v) in let! v := (let! x67 := (let! x70 := (let! x68 := (Ok (OStr ($"timestamp"))) in let! x69 := (Ok ONone) in mk_column x68 x69) in let! x71 := (Ok (OOp IS_NOT_NULL)) in let! x72 := (Ok ONone) in mk_condition x70 x71 x72) in Ok (OList [x67])) in set_clause CWhere q v) in let! v := (Ok (OInt (10))) in set_clause CLimit q v) in let! v := (Ok (OInt (1))) in set_clause COffset q v) in let! v := (Ok (OInt (3600))) in set_clause CGranularity q v) in print_query ($" ") q) ($"MATCH { MATCH { MATCH (events) SELECT event_id, title, timestamp } SELECT toString(event_id) AS `new_event`, timestamp } SELECT avg(new_event) AS `avg_event` WHERE timestamp IS NOT NULL LIMIT 10 OFFSET 1 GRANULARITY 3600") = true.
Proof. vm_compute. reflexivity. Qed.

(* test_query_visitors.py, line 371: sequences can mix expressions with literals *)
Example t234_test_query_visitors : same_str (let! q := (let! q := (let! q := (let! q := (let! q := (let! q := (let! x1 := (let! o := (let! x2 := (Ok (OStr ($"discover"))) in let! x3 := (Ok ONone) in let! x4 := (Ok ONone) in let! x5 := (Ok ONone) in mk_entity x2 x3 x4 x5) in Ok (MObj o)) in let! x6 := (Ok ONone) in let! x7 := (Ok ONone) in let! x8 := (Ok ONone) in let! x9 := (Ok ONone) in let! x10 := (Ok ONone) in let! x11 := (Ok ONone) in let! x12 := (Ok ONone) in let! x13 := (Ok ONone) in let! x14 := (Ok ONone) in let! x15 := (Ok ONone) in let! x16 := (Ok ONone) in mk_query x1 (mkClauses x6 x7 x8 x9 x10 x11 x12 x13 x14 x15 x16)) in let! v := (let! x17 := (let! x28 := (Ok (OStr ($"arrayMax"))) in let! x29 := (let! x18 := (let! x19 := (Ok (OInt (1))) in let! x20 := (let! x25 := (Ok (OStr ($"indexOf"))) in let! x26 := (let! x21 := (Ok (OStr ($"a"))) in let! x22 := (let! x23 := (Ok (OStr ($"hierarchical_hashes"))) in let! x24 := (Ok ONone) in mk_column x23 x24) in Ok (OList [x21; x22])) in let! x27 := (Ok ONone) in mk_function x25 x26 x27) in Ok (OList [x19; x20])) in Ok (OList [x18])) in let! x30 := (Ok ONone) in mk_function x28 x29 x30) in Ok (OList [x17])) in set_clause CSelect q v) in let! v := (let! x31 := (let! x40 := (let! x32 := (Ok (OStr ($"event_id"))) in let! x33 := (Ok ONone) in mk_column x32 x33) in let! x41 := (Ok (OOp IN)) in let! x42 := (let! x34 := (let! x35 := (Ok (OStr ($"group_id"))) in let! x36 := (Ok ONone) in mk_column x35 x36) in let! x37 := (let! x38 := (Ok (OStr ($"primary_hash"))) in let! x39 := (Ok ONone) in mk_column x38 x39) in Ok (OTuple [x34; x37])) in mk_condition x40 x41 x42) in Ok (OList [x31])) in set_clause CWhere q v) in let! v := (Ok (OInt (10))) in set_clause CLimit q v) in let! v := (Ok (OInt (1))) in set_clause COffset q v) in let! v := (Ok (OInt (3600))) in set_clause CGranularity q v) in serialize q) ($"MATCH (discover) SELECT arrayMax(array(1, indexOf('a', hierarchical_hashes))) WHERE event_id IN tuple(group_id, primary_hash) LIMIT 10 OFFSET 1 GRANULARITY 3600") = true.
Proof. vm_compute. reflexivity. Qed.

(* test_query_visitors.py, line 371: sequences can mix expressions with literals *)
Example t235_test_query_visitors : same_str (let! q := (let! q := (let! q := (let! q := (let! q := (let! q := (let! x1 := (let! o := (let! x2 := (Ok (OStr ($"discover"))) in let! x3 := (Ok ONone) in let! x4 := (Ok ONone) in let! x5 := (Ok ONone) in mk_entity x2 x3 x4 x5) in Ok (MObj o)) in let! x6 := (Ok ONone) in let! x7 := (Ok ONone) in let! x8 := (Ok ONone) in let! x9 := (Ok ONone) in let! x10 := (Ok ONone) in let! x11 := (Ok ONone) in let! x12 := (Ok ONone) in let! x13 := (Ok ONone) in let! x14 := (Ok ONone) in let! x15 := (Ok ONone) in let! x16 := (Ok ONone) in mk_query x1 (mkClauses x6 x7 x8 x9 x10 x11 x12 x13 x14 x15 x16)) in let! v := (let! x17 := (let! x28 := (Ok (OStr ($"arrayMax"))) in let! x29 := (let! x18 := (let! x19 := (Ok (OInt (1))) in let! x20 := (let! x25 := (Ok (OStr ($"indexOf"))) in let! x26 := (let! x21 := (Ok (OStr ($"a"))) in let! x22 := (let! x23 := (Ok (OStr ($"hierarchical_hashes"))) in let! x24 := (Ok ONone) in mk_column x23 x24) in Ok (OList [x21; x22])) in let! x27 := (Ok ONone) in mk_function x25 x26 x27) in Ok (OList [x19; x20])) in Ok (OList [x18])) in let! x30 := (Ok ONone) in mk_function x28 x29 x30) in Ok (OList [x17])) in set_clause CSelect q v) in let! v := (let! x31 := (let! x40 := (let! x32 := (Ok (OStr ($"event_id"))) in let! x33 := (Ok ONone) in mk_column x32 x33) in let! x41 := (Ok (OOp IN)) in let! x42 := (let! x34 := (let! x35 := (Ok (OStr ($"group_id"))) in let! x36 := (Ok ONone) in mk_column x35 x36) in let! x37 := (let! x38 := (Ok (OStr ($"primary_hash"))) in let! x39 := (Ok ONone) in mk_column x38 x39) in Ok (OTuple [x34; x37])) in mk_condition x40 x41 x42) in Ok (OList [x31])) in set_clause CWhere q v) in let! v := (Ok (OInt (10))) in set_clause CLimit q v) in let! v := (Ok (OInt (1))) in set_clause COffset q v) in let! v := (Ok (OInt (3600))) in set_clause CGranularity q v) in print q) [77; 65; 84; 67; 72; 32; 40; 100; 105; 115; 99; 111; 118; 101; 114; 41; 10; 83; 69; 76; 69; 67; 84; 32; 97; 114; 114; 97; 121; 77; 97; 120; 40; 97; 114; 114; 97; 121; 40; 49; 44; 32; 105; 110; 100; 101; 120; 79; 102; 40; 39; 97; 39; 44; 32; 104; 105; 101; 114; 97; 114; 99; 104; 105; 99; 97; 108; 95; 104; 97; 115; 104; 101; 115; 41; 41; 41; 10; 87; 72; 69; 82; 69; 32; 101; 118; 101; 110; 116; 95; 105; 100; 32; 73; 78; 32; 116; 117; 112; 108; 101; 40; 103; 114; 111; 117; 112; 95; 105; 100; 44; 32; 112; 114; 105; 109; 97; 114; 121; 95; 104; 97; 115; 104; 41; 10; 76; 73; 77; 73; 84; 32; 49; 48; 10; 79; 70; 70; 83; 69; 84; 32; 49; 10; 71; 82; 65; 78; 85; 76; 65; 82; 73; 84; 89; 32; 51; 54; 48; 48]%N = true.
Proof. vm_compute. reflexivity. Qed.

(* test_query_visitors.py, line 371: sequences can mix expressions with literals *)
Example t236_test_query_visitors : same_str (let! q := (let! q := (let! q := (let! q := (let! q := (let! q := (let! x1 := (let! o := (let! x2 := (Ok (OStr ($"discover"))) in let! x3 := (Ok ONone) in let! x4 := (Ok ONone) in let! x5 := (Ok ONone) in mk_entity x2 x3 x4 x5) in Ok (MObj o)) in let! x6 := (Ok ONone) in let! x7 := (Ok ONone) in let! x8 := (Ok ONone) in let! x9 := (Ok ONone) in let! x10 := (Ok ONone) in let! x11 := (Ok ONone) in let! x12 := (Ok ONone) in let! x13 := (Ok ONone) in let! x14 := (Ok ONone) in let! x15 := (Ok ONone) in let! x16 := (Ok ONone) in mk_query x1 (mkClauses x6 x7 x8 x9 x10 x11 x12 x13 x14 x15 x16)) in let! v := (let! x17 := (let! x28 := (Ok (OStr ($"arrayMax"))) in let! x29 := (let! x18 := (let! x19 := (Ok (OInt (1))) in let! x20 := (let! x25 := (Ok (OStr ($"indexOf"))) in let! x26 := (let! x21 := (Ok (OStr ($"a"))) in let! x22 := (let! x23 := (Ok (OStr ($"hierarchical_hashes"))) in let! x24 := (Ok ONone) in mk_column x23 x24) in Ok (OList [x21; x22])) in let! x27 := (Ok ONone) in mk_function x25 x26 x27) in Ok (OList [x19; x20])) in Ok (OList [x18])) in let! x30 := (Ok ONone) in mk_function x28 x29 x30) in Ok (OList [x17])) in set_clause CSelect q v) in let! v := (let! x31 := (let! x40 := (let! x32 := (Ok (OStr ($"event_id"))) in let! x33 := (Ok ONone) in mk_column x32 x33) in let! x41 := (Ok (OOp IN)) in let! x42 := (let! x34 := (let! x35 := (Ok (OStr ($"group_id"))) in let! x36 := (Ok ONone) in mk_column x35 x36) in let! x37 := (let! x38 := (Ok (OStr ($"primary_hash"))) in let! x39 := (Ok ONone) in mk_column x38 x39) in Ok (OTuple [x34; x37])) in mk_condition x40 x41 x42) in Ok (OList [x31])) in set_clause CWhere q v) in let! v := (Ok (OInt (10))) in set_clause CLimit q v) in let! v := (Ok (OInt (1))) in set_clause COffset q v) in let! v := (Ok (OInt (3600))) in set_clause CGranularity q v) in print_query ($" ") q) ($"MATCH (discover) SELECT arrayMax(array(1, indexOf('a', hierarchical_hashes))) WHERE event_id IN tuple(group_id, primary_hash) LIMIT 10 OFFSET 1 GRANULARITY 3600") = true.
Proof. vm_compute. reflexivity. Qed.

(* test_query_visitors.py, line 403: columns can have aliases *)
Example t237_test_query_visitors : same_str (let! q := (let! q := (let! q := (let! q := (let! x1 := (let! o := (let! x2 := (Ok (OStr ($"events"))) in let! x3 := (Ok ONone) in let! x4 := (Ok ONone) in let! x5 := (Ok ONone) in mk_entity x2 x3 x4 x5) in Ok (MObj o)) in let! x6 := (Ok ONone) in let! x7 := (Ok ONone) in let! x8 := (Ok ONone) in let! x9 := (Ok ONone) in let! x10 := (Ok ONone) in let! x11 := (Ok ONone) in let! x12 := (Ok ONone) in let! x13 := (Ok ONone) in let! x14 := (Ok ONone) in let! x15 := (Ok ONone) in let! x16 := (Ok ONone) in mk_query x1 (mkClauses x6 x7 x8 x9 x10 x11 x12 x13 x14 x15 x16)) in let! v := (let! x17 := (let! x20 := (let! x18 := (Ok (OStr ($"transaction"))) in let! x19 := (Ok ONone) in mk_column x18 x19) in let! x21 := (Ok (OStr ($"tn"))) in mk_aliased x20 x21) in let! x22 := (let! x23 := (Ok (OStr ($"count"))) in let! x24 := (Ok (OList [])) in let! x25 := (Ok (OStr ($"equation[0]"))) in mk_function x23 x24 x25) in Ok (OList [x17; x22])) in set_clause CSelect q v) in let! v := (let! x26 := (let! x29 := (let! x27 := (Ok (OStr ($"project_id"))) in let! x28 := (Ok ONone) in mk_column x27 x28) in let! x30 := (Ok (OStr ($"pi"))) in mk_aliased x29 x30) in let! x31 := (let! x34 := (let! x32 := (Ok (OStr ($"transaction"))) in let! x33 := (Ok ONone) in mk_column x32 x33) in let! x35 := (Ok (OStr ($"tn"))) in mk_aliased x34 x35) in Ok (OList [x26; x31])) in set_clause CGroupby q v) in let! v := (let! x36 := (let! x40 := (let! x37 := (Ok (OStr ($"project_id"))) in let! x38 := (Ok ONone) in mk_column x37 x38) in let! x41 := (Ok (OOp IN)) in let! x42 := (let! x39 := (Ok (OInt (1))) in Ok (OTuple [x39])) in mk_condition x40 x41 x42) in Ok (OList [x36])) in set_clause CWhere q v) in serialize q) ($"MATCH (events) SELECT transaction AS `tn`, count() AS `equation[0]` BY project_id AS `pi`, transaction AS `tn` WHERE project_id IN tuple(1)") = true.
Proof. vm_compute. reflexivity. Qed.

(* test_query_visitors.py, line 403: columns can have aliases *)
Example t238_test_query_visitors : same_str (let! q := (let! q := (let! q := (let! q := (let! x1 := (let! o := (let! x2 := (Ok (OStr ($"events"))) in let! x3 := (Ok ONone) in let! x4 := (Ok ONone) in let! x5 := (Ok ONone) in mk_entity x2 x3 x4 x5) in Ok (MObj o)) in let! x6 := (Ok ONone) in let! x7 := (Ok ONone) in let! x8 := (Ok ONone) in let! x9 := (Ok ONone) in let! x10 := (Ok ONone) in let! x11 := (Ok ONone) in let! x12 := (Ok ONone) in let! x13 := (Ok ONone) in let! x14 := (Ok ONone) in let! x15 := (Ok ONone) in let! x16 := (Ok ONone) in mk_query x1 (mkClauses x6 x7 x8 x9 x10 x11 x12 x13 x14 x15 x16)) in let! v := (let! x17 := (let! x20 := (let! x18 := (Ok (OStr ($"transaction"))) in let! x19 := (Ok ONone) in mk_column x18 x19) in let! x21 := (Ok (OStr ($"tn"))) in mk_aliased x20 x21) in let! x22 := (let! x23 := (Ok (OStr ($"count"))) in let! x24 := (Ok (OList [])) in let! x25 := (Ok (OStr ($"equation[0]"))) in mk_function x23 x24 x25) in Ok (OList [x17; x22])) in set_clause CSelect q v) in let! v := (let! x26 := (let! x29 := (let! x27 := (Ok (OStr ($"project_id"))) in let! x28 := (Ok ONone) in mk_column x27 x28) in let! x30 := (Ok (OStr ($"pi"))) in mk_aliased x29 x30) in let! x31 := (let! x34 := (let! x32 := (Ok (OStr ($"transaction"))) in let! x33 := (Ok ONone) in mk_column x32 x33) in let! x35 := (Ok (OStr ($"tn"))) in mk_aliased x34 x35) in Ok (OList [x26; x31])) in set_clause CGroupby q v) in let! v := (let! x36 := (let! x40 := (let! x37 := (Ok (OStr ($"project_id"))) in let! x38 := (Ok ONone) in mk_column x37 x38) in let! x41 := (Ok (OOp IN)) in let! x42 := (let! x39 := (Ok (OInt (1))) in Ok (OTuple [x39])) in mk_condition x40 x41 x42) in Ok (OList [x36])) in set_clause CWhere q v) in print q) [77; 65; 84; 67; 72; 32; 40; 101; 118; 101; 110; 116; 115; 41; 10; 83; 69; 76; 69; 67; 84; 32; 116; 114; 97; 110; 115; 97; 99; 116; 105; 111; 110; 32; 65; 83; 32; 96; 116; 110; 96; 44; 32; 99; 111; 117; 110; 116; 40; 41; 32; 65; 83; 32; 96; 101; 113; 117; 97; 116; 105; 111; 110; 91; 48; 93; 96; 10; 66; 89; 32; 112; 114; 111; 106; 101; 99; 116; 95; 105; 100; 32; 65; 83; 32; 96; 112; 105; 96; 44; 32; 116; 114; 97; 110; 115; 97; 99; 116; 105; 111; 110; 32; 65; 83; 32; 96; 116; 110; 96; 10; 87; 72; 69; 82; 69; 32; 112; 114; 111; 106; 101; 99; 116; 95; 105; 100; 32; 73; 78; 32; 116; 117; 112; 108; 101; 40; 49; 41]%N = true.
Proof. vm_compute. reflexivity. Qed.

(* test_query_visitors.py, line 403: columns can have aliases *)
Example t239_test_query_visitors : same_str (let! q := (let! q := (let! q := (let! q := (let! x1 := (let! o := (let! x2 := (Ok (OStr ($"events"))) in let! x3 := (Ok ONone) in let! x4 := (Ok ONone) in let! x5 := (Ok ONone) in mk_entity x2 x3 x4 x5) in Ok (MObj o)) in let! x6 := (Ok ONone) in let! x7 := (Ok ONone) in let! x8 := (Ok ONone) in let! x9 := (Ok ONone) in let! x10 := (Ok ONone) in let! x11 := (Ok ONone) in let! x12 := (Ok ONone) in let! x13 := (Ok ONone) in let! x14 := (Ok ONone) in let! x15 := (Ok ONone) in let! x16 := (Ok ONone) in mk_query x1 (mkClauses x6 x7 x8 x9 x10 x11 x12 x13 x14 x15 x16)) in let! v := (let! x17 := (let! x20 := (let! x18 := (Ok (OStr ($"transaction"))) in let! x19 := (Ok ONone) in mk_column x18 x19) in let! x21 := (Ok (OStr ($"tn"))) in mk_aliased x20 x21) in let! x22 := (let! x23 := (Ok (OStr ($"count"))) in let! x24 := (Ok (OList [])) in let! x25 := (Ok (OStr ($"equation[0]"))) in mk_function x23 x24 x25) in Ok (OList [x17; x22])) in set_clause CSelect q v) in let! v := (let! x26 := (let! x29 := (let! x27 := (Ok (OStr ($"project_id"))) in let! x28 := (Ok ONone) in mk_column x27 x28) in let! x30 := (Ok (OStr ($"pi"))) in mk_aliased x29 x30) in let! x31 := (let! x34 := (let! x32 := (Ok (OStr ($"transaction"))) in let! x33 := (Ok ONone) in mk_column x32 x33) in let! x35 := (Ok (OStr ($"tn"))) in mk_aliased x34 x35) in Ok (OList [x26; x31])) in set_clause CGroupby q v) in let! v := (let! x36 := (let! x40 := (let! x37 := (Ok (OStr ($"project_id"))) in let! x38 := (Ok ONone) in mk_column x37 x38) in let! x41 := (Ok (OOp IN)) in let! x42 := (let! x39 := (Ok (OInt (1))) in Ok (OTuple [x39])) in mk_condition x40 x41 x42) in Ok (OList [x36])) in set_clause CWhere q v) in print_query ($" ") q) ($"MATCH (events) SELECT transaction AS `tn`, count() AS `equation[0]` BY project_id AS `pi`, transaction AS `tn` WHERE project_id IN tuple(1)") = true.
Proof. vm_compute. reflexivity. Qed.

(* test_relationships.py, line 16: simple join *)
Example t240_test_relationships : same_str (let! q := (let! q := (let! q := (let! q := (let! q := (let! q := (let! q := (let! x1 := (let! o := (let! x14 := (let! x2 := (let! x11 := (let! x3 := (Ok (OStr ($"events"))) in let! x4 := (Ok (OStr ($"e"))) in let! x5 := (Ok ONone) in let! x6 := (Ok ONone) in mk_entity x3 x4 x5 x6) in let! x12 := (Ok (OStr ($"has"))) in let! x13 := (let! x7 := (Ok (OStr ($"sessions"))) in let! x8 := (Ok (OStr ($"s"))) in let! x9 := (Ok ONone) in let! x10 := (Ok ONone) in mk_entity x7 x8 x9 x10) in mk_relationship x11 x12 x13) in Ok (OList [x2])) in mk_join x14) in Ok (MObj o)) in let! x15 := (Ok ONone) in let! x16 := (Ok ONone) in let! x17 := (Ok ONone) in let! x18 := (Ok ONone) in let! x19 := (Ok ONone) in let! x20 := (Ok ONone) in let! x21 := (Ok ONone) in let! x22 := (Ok ONone) in let! x23 := (Ok ONone) in let! x24 := (Ok ONone) in let! x25 := (Ok ONone) in mk_query x1 (mkClauses x15 x16 x17 x18 x19 x20 x21 x22 x23 x24 x25)) in let! v := (let! x26 := (let! x31 := (Ok (OStr ($"group_id"))) in let! x32 := (let! x27 := (Ok (OStr ($"events"))) in let! x28 := (Ok (OStr ($"e"))) in let! x29 := (Ok ONone) in let! x30 := (Ok ONone) in mk_entity x27 x28 x29 x30) in mk_column x31 x32) in let! x33 := (let! x38 := (Ok (OStr ($"span_id"))) in let! x39 := (let! x34 := (Ok (OStr ($"sessions"))) in let! x35 := (Ok (OStr ($"s"))) in let! x36 := (Ok ONone) in let! x37 := (Ok ONone) in mk_entity x34 x35 x36 x37) in mk_column x38 x39) in Ok (OList [x26; x33])) in set_clause CSelect q v) in let! v := (let! x40 := (let! x47 := (let! x45 := (Ok (OStr ($"timestamp"))) in let! x46 := (let! x41 := (Ok (OStr ($"events"))) in let! x42 := (Ok (OStr ($"e"))) in let! x43 := (Ok ONone) in let! x44 := (Ok ONone) in mk_entity x41 x42 x43 x44) in mk_column x45 x46) in let! x48 := (Ok (OOp IS_NOT_NULL)) in let! x49 := (Ok ONone) in mk_condition x47 x48 x49) in Ok (OList [x40])) in set_clause CWhere q v) in let! v := (let! x50 := (let! x57 := (let! x55 := (Ok (OStr ($"timestamp"))) in let! x56 := (let! x51 := (Ok (OStr ($"events"))) in let! x52 := (Ok (OStr ($"e"))) in let! x53 := (Ok ONone) in let! x54 := (Ok ONone) in mk_entity x51 x52 x53 x54) in mk_column x55 x56) in let! x58 := (Ok (ODir DESC)) in mk_orderby x57 x58) in Ok (OList [x50])) in set_clause COrderby q v) in let! v := (Ok (OInt (10))) in set_clause CLimit q v) in let! v := (Ok (OInt (1))) in set_clause COffset q v) in let! v := (Ok (OInt (3600))) in set_clause CGranularity q v) in serialize q) ($"MATCH (e: events) -[has]-> (s: sessions) SELECT e.group_id, s.span_id WHERE e.timestamp IS NOT NULL ORDER BY e.timestamp DESC LIMIT 10 OFFSET 1 GRANULARITY 3600") = true.
Proof. vm_compute. reflexivity. Qed.

(* test_relationships.py, line 16: simple join *)
Example t241_test_relationships : same_str (let! q := (let! q := (let! q := (let! q := (let! q := (let! q := (let! q := (let! x1 := (let! o := (let! x14 := (let! x2 := (let! x11 := (let! x3 := (Ok (OStr ($"events"))) in let! x4 := (Ok (OStr ($"e"))) in let! x5 := (Ok ONone) in let! x6 := (Ok ONone) in mk_entity x3 x4 x5 x6) in let! x12 := (Ok (OStr ($"has"))) in let! x13 := (let! x7 := (Ok (OStr ($"sessions"))) in let! x8 := (Ok (OStr ($"s"))) in let! x9 := (Ok ONone) in let! x10 := (Ok ONone) in mk_entity x7 x8 x9 x10) in mk_relationship x11 x12 x13) in Ok (OList [x2])) in mk_join x14) in Ok (MObj o)) in let! x15 := (Ok ONone) in let! x16 := (Ok ONone) in let! x17 := (Ok ONone) in let! x18 := (Ok ONone) in let! x19 := (Ok ONone) in let! x20 := (Ok ONone) in let! x21 := (Ok ONone) in let! x22 := (Ok ONone) in let! x23 := (Ok ONone) in let! x24 := (Ok ONone) in let! x25 := (Ok ONone) in mk_query x1 (mkClauses x15 x16 x17 x18 x19 x20 x21 x22 x23 x24 x25)) in let! v := (let! x26 := (let! x31 := (Ok (OStr ($"group_id"))) in let! x32 := (let! x27 := (Ok (OStr ($"events"))) in let! x28 := (Ok (OStr ($"e"))) in let! x29 := (Ok ONone) in let! x30 := (Ok ONone) in mk_entity x27 x28 x29 x30) in mk_column x31 x32) in let! x33 := (let! x38 := (Ok (OStr ($"span_id"))) in let! x39 := (let! x34 := (Ok (OStr ($"sessions"))) in let! x35 := (Ok (OStr ($"s"))) in let! x36 := (Ok ONone) in let! x37 := (Ok ONone) in mk_entity x34 x35 x36 x37) in mk_column x38 x39) in Ok (OList [x26; x33])) in set_clause CSelect q v) in let! v := (let! x40 := (let! x47 := (let! x45 := (Ok (OStr ($"timestamp"))) in let! x46 := (let! x41 := (Ok (OStr ($"events"))) in let! x42 := (Ok (OStr ($"e"))) in let! x43 := (Ok ONone) in let! x44 := (Ok ONone) in mk_entity x41 x42 x43 x44) in mk_column x45 x46) in let! x48 := (Ok (OOp IS_NOT_NULL)) in let! x49 := (Ok ONone) in mk_condition x47 x48 x49) in Ok (OList [x40])) in set_clause CWhere q v) in let! v := (let! x50 := (let! x57 := (let! x55 := (Ok (OStr ($"timestamp"))) in let! x56 := (let! x51 := (Ok (OStr ($"events"))) in let! x52 := (Ok (OStr ($"e"))) in let! x53 := (Ok ONone) in let! x54 := (Ok ONone) in mk_entity x51 x52 x53 x54) in mk_column x55 x56) in let! x58 := (Ok (ODir DESC)) in mk_orderby x57 x58) in Ok (OList [x50])) in set_clause COrderby q v) in let! v := (Ok (OInt (10))) in set_clause CLimit q v) in let! v := (Ok (OInt (1))) in set_clause COffset q v) in let! v := (Ok (OInt (3600))) in set_clause CGranularity q v) in print q) [77; 65; 84; 67; 72; 32; 40; 101; 58; 32; 101; 118; 101; 110; 116; 115; 41; 32; 45; 91; 104; 97; 115; 93; 45; 62; 32; 40; 115; 58; 32; 115; 101; 115; 115; 105; 111; 110; 115; 41; 10; 83; 69; 76; 69; 67; 84; 32; 101; 46; 103; 114; 111; 117; 112; 95; 105; 100; 44; 32; 115; 46; 115; 112; 97; 110; 95; 105; 100; 10; 87; 72; 69; 82; 69; 32; 101; 46; 116; 105; 109; 101; 115; 116; 97; 109; 112; 32; 73; 83; 32; 78; 79; 84; 32; 78; 85; 76; 76; 10; 79; 82; 68; 69; 82; 32; 66; 89; 32; 101; 46; 116; 105; 109; 101; 115; 116; 97; 109; 112; 32; 68; 69; 83; 67; 10; 76; 73; 77; 73; 84; 32; 49; 48; 10; 79; 70; 70; 83; 69; 84; 32; 49; 10; 71; 82; 65; 78; 85; 76; 65; 82; 73; 84; 89; 32; 51; 54; 48; 48]%N = true.
Proof. vm_compute. reflexivity. Qed.

(* test_relationships.py, line 16: simple join *)
Example t242_test_relationships : same_str (let! q := (let! q := (let! q := (let! q := (let! q := (let! q := (let! q := (let! x1 := (let! o := (let! x14 := (let! x2 := (let! x11 := (let! x3 := (Ok (OStr ($"events"))) in let! x4 := (Ok (OStr ($"e"))) in let! x5 := (Ok ONone) in let! x6 := (Ok ONone) in mk_entity x3 x4 x5 x6) in let! x12 := (Ok (OStr ($"has"))) in let! x13 := (let! x7 := (Ok (OStr ($"sessions"))) in let! x8 := (Ok (OStr ($"s"))) in let! x9 := (Ok ONone) in let! x10 := (Ok ONone) in mk_entity x7 x8 x9 x10) in mk_relationship x11 x12 x13) in Ok (OList [x2])) in mk_join x14) in Ok (MObj o)) in let! x15 := (Ok ONone) in let! x16 := (Ok ONone) in let! x17 := (Ok ONone) in let! x18 := (Ok ONone) in let! x19 := (Ok ONone) in let! x20 := (Ok ONone) in let! x21 := (Ok ONone) in let! x22 := (Ok ONone) in let! x23 := (Ok ONone) in let! x24 := (Ok ONone) in let! x25 := (Ok ONone) in mk_query x1 (mkClauses x15 x16 x17 x18 x19 x20 x21 x22 x23 x24 x25)) in let! v := (let! x26 := (let! x31 := (Ok (OStr ($"group_id"))) in let! x32 := (let! x27 := (Ok (OStr ($"events"))) in let! x28 := (Ok (OStr ($"e"))) in let! x29 := (Ok ONone) in let! x30 := (Ok ONone) in mk_entity x27 x28 x29 x30) in mk_column x31 x32) in let! x33 := (let! x38 := (Ok (OStr ($"span_id"))) in let! x39 := (let! x34 := (Ok (OStr ($"sessions"))) in let! x35 := (Ok (OStr ($"s"))) in let! x36 := (Ok ONone) in let! x37 := (Ok ONone) in mk_entity x34 x35 x36 x37) in mk_column x38 x39) in Ok (OList [x26; x33])) in set_clause CSelect q v) in let! v := (let! x40 := (let! x47 := (let! x45 := (Ok (OStr ($"timestamp"))) in let! x46 := (let! x41 := (Ok (OStr ($"events"))) in let! x42 := (Ok (OStr ($"e"))) in let! x43 := (Ok ONone) in let! x44 := (Ok ONone) in mk_entity x41 x42 x43 x44) in mk_column x45 x46) in let! x48 := (Ok (OOp IS_NOT_NULL)) in let! x49 := (Ok ONone) in mk_condition x47 x48 x49) in Ok (OList [x40])) in set_clause CWhere q v) in let! v := (let! x50 := (let! x57 := (let! x55 := (Ok (OStr ($"timestamp"))) in let! x56 := (let! x51 := (Ok (OStr ($"events"))) in let! x52 := (Ok (OStr ($"e"))) in let! x53 := (Ok ONone) in let! x54 := (Ok ONone) in mk_entity x51 x52 x53 x54) in mk_column x55 x56) in let! x58 := (Ok (ODir DESC)) in mk_orderby x57 x58) in Ok (OList [x50])) in set_clause COrderby q v) in let! v := (Ok (OInt (10))) in set_clause CLimit q v) in let! v := (Ok (OInt (1))) in set_clause COffset q v) in let! v := (Ok (OInt (3600))) in set_clause CGranularity q v) in print_query ($" ") q) ($"MATCH (e: events) -[has]-> (s: sessions) SELECT e.group_id, s.span_id WHERE e.timestamp IS NOT NULL ORDER BY e.timestamp DESC LIMIT 10 OFFSET 1 GRANULARITY 3600") = true.
Proof. vm_compute. reflexivity. Qed.

(* test_relationships.py, line 46: complex join *)
Example t243_test_relationships : same_str (let! q := (let! q := (let! q := (let! q := (let! q := (let! q := (let! q := (let! q := (let! x1 := (let! o := (let! x38 := (let! x2 := (let! x11 := (let! x3 := (Ok (OStr ($"events"))) in let! x4 := (Ok (OStr ($"e"))) in let! x5 := (Ok ONone) in let! x6 := (Ok ONone) in mk_entity x3 x4 x5 x6) in let! x12 := (Ok (OStr ($"has"))) in let! x13 := (let! x7 := (Ok (OStr ($"sessions"))) in let! x8 := (Ok (OStr ($"s"))) in let! x9 := (Ok ONone) in let! x10 := (Ok ONone) in mk_entity x7 x8 x9 x10) in mk_relationship x11 x12 x13) in let! x14 := (let! x23 := (let! x15 := (Ok (OStr ($"events"))) in let! x16 := (Ok (OStr ($"e"))) in let! x17 := (Ok ONone) in let! x18 := (Ok ONone) in mk_entity x15 x16 x17 x18) in let! x24 := (Ok (OStr ($"hasnt"))) in let! x25 := (let! x19 := (Ok (OStr ($"transactions"))) in let! x20 := (Ok (OStr ($"t"))) in let! x21 := (Ok (OFloat (FFin false 10%N (0)))) in let! x22 := (Ok ONone) in mk_entity x19 x20 x21 x22) in mk_relationship x23 x24 x25) in let! x26 := (let! x35 := (let! x27 := (Ok (OStr ($"events"))) in let! x28 := (Ok (OStr ($"e"))) in let! x29 := (Ok ONone) in let! x30 := (Ok ONone) in mk_entity x27 x28 x29 x30) in let! x36 := (Ok (OStr ($"musnt"))) in let! x37 := (let! x31 := (Ok (OStr ($"sessions"))) in let! x32 := (Ok (OStr ($"s"))) in let! x33 := (Ok ONone) in let! x34 := (Ok ONone) in mk_entity x31 x32 x33 x34) in mk_relationship x35 x36 x37) in Ok (OList [x2; x14; x26])) in mk_join x38) in Ok (MObj o)) in let! x39 := (Ok ONone) in let! x40 := (Ok ONone) in let! x41 := (Ok ONone) in let! x42 := (Ok ONone) in let! x43 := (Ok ONone) in let! x44 := (Ok ONone) in let! x45 := (Ok ONone) in let! x46 := (Ok ONone) in let! x47 := (Ok ONone) in let! x48 := (Ok ONone) in let! x49 := (Ok ONone) in mk_query x1 (mkClauses x39 x40 x41 x42 x43 x44 x45 x46 x47 x48 x49)) in let! v := (let! x50 := (let! x55 := (Ok (OStr ($"group_id"))) in let! x56 := (let! x51 := (Ok (OStr ($"events"))) in let! x52 := (Ok (OStr ($"e"))) in let! x53 := (Ok ONone) in let! x54 := (Ok ONone) in mk_entity x51 x52 x53 x54) in mk_column x55 x56) in let! x57 := (let! x62 := (Ok (OStr ($"span_id"))) in let! x63 := (let! x58 := (Ok (OStr ($"sessions"))) in let! x59 := (Ok (OStr ($"s"))) in let! x60 := (Ok ONone) in let! x61 := (Ok ONone) in mk_entity x58 x59 x60 x61) in mk_column x62 x63) in let! x64 := (let! x69 := (Ok (OStr ($"trace_id"))) in let! x70 := (let! x65 := (Ok (OStr ($"transactions"))) in let! x66 := (Ok (OStr ($"t"))) in let! x67 := (Ok ONone) in let! x68 := (Ok ONone) in mk_entity x65 x66 x67 x68) in mk_column x69 x70) in let! x71 := (let! x72 := (Ok (OStr ($"count"))) in let! x73 := (Ok (OList [])) in let! x74 := (Ok (OStr ($"count"))) in mk_function x72 x73 x74) in Ok (OList [x50; x57; x64; x71])) in set_clause CSelect q v) in let! v := (let! x75 := (let! x80 := (Ok (OStr ($"group_id"))) in let! x81 := (let! x76 := (Ok (OStr ($"events"))) in let! x77 := (Ok (OStr ($"e"))) in let! x78 := (Ok ONone) in let! x79 := (Ok ONone) in mk_entity x76 x77 x78 x79) in mk_column x80 x81) in let! x82 := (let! x87 := (Ok (OStr ($"span_id"))) in let! x88 := (let! x83 := (Ok (OStr ($"sessions"))) in let! x84 := (Ok (OStr ($"s"))) in let! x85 := (Ok ONone) in let! x86 := (Ok ONone) in mk_entity x83 x84 x85 x86) in mk_column x87 x88) in let! x89 := (let! x94 := (Ok (OStr ($"trace_id"))) in let! x95 := (let! x90 := (Ok (OStr ($"transactions"))) in let! x91 := (Ok (OStr ($"t"))) in let! x92 := (Ok ONone) in let! x93 := (Ok ONone) in mk_entity x90 x91 x92 x93) in mk_column x94 x95) in Ok (OList [x75; x82; x89])) in set_clause CGroupby q v) in let! v := (let! x96 := (let! x127 := (let! x97 := (let! x104 := (let! x102 := (Ok (OStr ($"timestamp"))) in let! x103 := (let! x98 := (Ok (OStr ($"events"))) in let! x99 := (Ok (OStr ($"e"))) in let! x100 := (Ok ONone) in let! x101 := (Ok ONone) in mk_entity x98 x99 x100 x101) in mk_column x102 x103) in let! x105 := (Ok (OOp IS_NOT_NULL)) in let! x106 := (Ok ONone) in mk_condition x104 x105 x106) in let! x107 := (let! x114 := (let! x112 := (Ok (OStr ($"timestamp"))) in let! x113 := (let! x108 := (Ok (OStr ($"sessions"))) in let! x109 := (Ok (OStr ($"s"))) in let! x110 := (Ok ONone) in let! x111 := (Ok ONone) in mk_entity x108 x109 x110 x111) in mk_column x112 x113) in let! x115 := (Ok (OOp IS_NOT_NULL)) in let! x116 := (Ok ONone) in mk_condition x114 x115 x116) in let! x117 := (let! x124 := (let! x122 := (Ok (OStr ($"timestamp"))) in let! x123 := (let! x118 := (Ok (OStr ($"transactions"))) in let! x119 := (Ok (OStr ($"t"))) in let! x120 := (Ok ONone) in let! x121 := (Ok ONone) in mk_entity x118 x119 x120 x121) in mk_column x122 x123) in let! x125 := (Ok (OOp IS_NOT_NULL)) in let! x126 := (Ok ONone) in mk_condition x124 x125 x126) in Ok (OList [x97; x107; x117])) in mk_or x127) in Ok (OList [x96])) in set_clause CWhere q v) in let! v := (let! x128 := (let! x135 := (let! x133 := (Ok (OStr ($"timestamp"))) in let! x134 := (let! x129 := (Ok (OStr ($"events"))) in let! x130 := (Ok (OStr ($"e"))) in let! x131 := (Ok ONone) in let! x132 := (Ok ONone) in mk_entity x129 x130 x131 x132) in mk_column x133 x134) in let! x136 := (Ok (ODir DESC)) in mk_orderby x135 x136) in Ok (OList [x128])) in set_clause COrderby q v) in let! v := (Ok (OInt (10))) in set_clause CLimit q v) in let! v := (Ok (OInt (1))) in set_clause COffset q v) in let! v := (Ok (OInt (3600))) in set_clause CGranularity q v) in serialize q) ($"MATCH (e: events) -[has]-> (s: sessions), (e: events) -[hasnt]-> (t: transactions SAMPLE 10.0), (e: events) -[musnt]-> (s: sessions) SELECT e.group_id, s.span_id, t.trace_id, count() AS `count` BY e.group_id, s.span_id, t.trace_id WHERE (e.timestamp IS NOT NULL OR s.timestamp IS NOT NULL OR t.timestamp IS NOT NULL) ORDER BY e.timestamp DESC LIMIT 10 OFFSET 1 GRANULARITY 3600") = true.
Proof. vm_compute. reflexivity. Qed.

(* test_relationships.py, line 46: complex join *)
Example t244_test_relationships : same_str (let! q := (let! q := (let! q := (let! q := (let! q := (let! q := (let! q := (let! q := (let! x1 := (let! o := (let! x38 := (let! x2 := (let! x11 := (let! x3 := (Ok (OStr ($"events"))) in let! x4 := (Ok (OStr ($"e"))) in let! x5 := (Ok ONone) in let! x6 := (Ok ONone) in mk_entity x3 x4 x5 x6) in let! x12 := (Ok (OStr ($"has"))) in let! x13 := (let! x7 := (Ok (OStr ($"sessions"))) in let! x8 := (Ok (OStr ($"s"))) in let! x9 := (Ok ONone) in let! x10 := (Ok ONone) in mk_entity x7 x8 x9 x10) in mk_relationship x11 x12 x13) in let! x14 := (let! x23 := (let! x15 := (Ok (OStr ($"events"))) in let! x16 := (Ok (OStr ($"e"))) in let! x17 := (Ok ONone) in let! x18 := (Ok ONone) in mk_entity x15 x16 x17 x18) in let! x24 := (Ok (OStr ($"hasnt"))) in let! x25 := (let! x19 := (Ok (OStr ($"transactions"))) in let! x20 := (Ok (OStr ($"t"))) in let! x21 := (Ok (OFloat (FFin false 10%N (0)))) in let! x22 := (Ok ONone) in mk_entity x19 x20 x21 x22) in mk_relationship x23 x24 x25) in let! x26 := (let! x35 := (let! x27 := (Ok (OStr ($"events"))) in let! x28 := (Ok (OStr ($"e"))) in let! x29 := (Ok ONone) in let! x30 := (Ok ONone) in mk_entity x27 x28 x29 x30) in let! x36 := (Ok (OStr ($"musnt"))) in let! x37 := (let! x31 := (Ok (OStr ($"sessions"))) in let! x32 := (Ok (OStr ($"s"))) in let! x33 := (Ok ONone) in let! x34 := (Ok ONone) in mk_entity x31 x32 x33 x34) in mk_relationship x35 x36 x37) in Ok (OList [x2; x14; x26])) in mk_join x38) in Ok (MObj o)) in let! x39 := (Ok ONone) in let! x40 := (Ok ONone) in let! x41 := (Ok ONone) in let! x42 := (Ok ONone) in let! x43 := (Ok ONone) in let! x44 := (Ok ONone) in let! x45 := (Ok ONone) in let! x46 := (Ok ONone) in let! x47 := (Ok ONone) in let! x48 := (Ok ONone) in let! x49 := (Ok ONone) in mk_query x1 (mkClauses x39 x40 x41 x42 x43 x44 x45 x46 x47 x48 x49)) in let! v := (let! x50 := (let! x55 := (Ok (OStr ($"group_id"))) in let! x56 := (let! x51 := (Ok (OStr ($"events"))) in let! x52 := (Ok (OStr ($"e"))) in let! x53 := (Ok ONone) in let! x54 := (Ok ONone) in mk_entity x51 x52 x53 x54) in mk_column x55 x56) in let! x57 := (let! x62 := (Ok (OStr ($"span_id"))) in let! x63 := (let! x58 := (Ok (OStr ($"sessions"))) in let! x59 := (Ok (OStr ($"s"))) in let! x60 := (Ok ONone) in let! x61 := (Ok ONone) in mk_entity x58 x59 x60 x61) in mk_column x62 x63) in let! x64 := (let! x69 := (Ok (OStr ($"trace_id"))) in let! x70 := (let! x65 := (Ok (OStr ($"transactions"))) in let! x66 := (Ok (OStr ($"t"))) in let! x67 := (Ok ONone) in let! x68 := (Ok ONone) in mk_entity x65 x66 x67 x68) in mk_column x69 x70) in let! x71 := (let! x72 := (Ok (OStr ($"count"))) in let! x73 := (Ok (OList [])) in let! x74 := (Ok (OStr ($"count"))) in mk_function x72 x73 x74) in Ok (OList [x50; x57; x64; x71])) in set_clause CSelect q v) in let! v := (let! x75 := (let! x80 := (Ok (OStr ($"group_id"))) in let! x81 := (let! x76 := (Ok (OStr ($"events"))) in let! x77 := (Ok (OStr ($"e"))) in let! x78 := (Ok ONone) in let! x79 := (Ok ONone) in mk_entity x76 x77 x78 x79) in mk_column x80 x81) in let! x82 := (let! x87 := (Ok (OStr ($"span_id"))) in let! x88 := (let! x83 := (Ok (OStr ($"sessions"))) in let! x84 := (Ok (OStr ($"s"))) in let! x85 := (Ok ONone) in let! x86 := (Ok ONone) in mk_entity x83 x84 x85 x86) in mk_column x87 x88) in let! x89 := (let! x94 := (Ok (OStr ($"trace_id"))) in let! x95 := (let! x90 := (Ok (OStr ($"transactions"))) in let! x91 := (Ok (OStr ($"t"))) in let! x92 := (Ok ONone) in let! x93 := (Ok ONone) in mk_entity x90 x91 x92 x93) in mk_column x94 x95) in Ok (OList [x75; x82; x89])) in set_clause CGroupby q v) in let! v := (let! x96 := (let! x127 := (let! x97 := (let! x104 := (let! x102 := (Ok (OStr ($"timestamp"))) in let! x103 := (let! x98 := (Ok (OStr ($"events"))) in let! x99 := (Ok (OStr ($"e"))) in let! x100 := (Ok ONone) in let! x101 := (Ok ONone) in mk_entity x98 x99 x100 x101) in mk_column x102 x103) in let! x105 := (Ok (OOp IS_NOT_NULL)) in let! x106 := (Ok ONone) in mk_condition x104 x105 x106) in let! x107 := (let! x114 := (let! x112 := (Ok (OStr ($"timestamp"))) in let! x113 := (let! x108 := (Ok (OStr ($"sessions"))) in let! x109 := (Ok (OStr ($"s"))) in let! x110 := (Ok ONone) in let! x111 := (Ok ONone) in mk_entity x108 x109 x110 x111) in mk_column x112 x113) in let! x115 := (Ok (OOp IS_NOT_NULL)) in let! x116 := (Ok ONone) in mk_condition x114 x115 x116) in let! x117 := (let! x124 := (let! x122 := (Ok (OStr ($"timestamp"))) in let! x123 := (let! x118 := (Ok (OStr ($"transactions"))) in let! x119 := (Ok (OStr ($"t"))) in let! x120 := (Ok ONone) in let! x121 := (Ok ONone) in mk_entity x118 x119 x120 x121) in mk_column x122 x123) in let! x125 := (Ok (OOp IS_NOT_NULL)) in let! x126 := (Ok ONone) in mk_condition x124 x125 x126) in Ok (OList [x97; x107; x117])) in mk_or x127) in Ok (OList [x96])) in set_clause CWhere q v) in let! v := (let! x128 := (let! x135 := (let! x133 := (Ok (OStr ($"timestamp"))) in let! x134 := (let! x129 := (Ok (OStr ($"events"))) in let! x130 := (Ok (OStr ($"e"))) in let! x131 := (Ok ONone) in let! x132 := (Ok ONone) in mk_entity x129 x130 x131 x132) in mk_column x133 x134) in let! x136 := (Ok (ODir DESC)) in mk_orderby x135 x136) in Ok (OList [x128])) in set_clause COrderby q v) in let! v := (Ok (OInt (10))) in set_clause CLimit q v) in let! v := (Ok (OInt (1))) in set_clause COffset q v) in let! v := (Ok (OInt (3600))) in set_clause CGranularity q v) in print q) [77; 65; 84; 67; 72; 32; 40; 101; 58; 32; 101; 118; 101; 110; 116; 115; 41; 32; 45; 91; 104; 97; 115; 93; 45; 62; 32; 40; 115; 58; 32; 115; 101; 115; 115; 105; 111; 110; 115; 41; 44; 32; 40; 101; 58; 32; 101; 118; 101; 110; 116; 115; 41; 32; 45; 91; 104; 97; 115; 110; 116; 93; 45; 62; 32; 40; 116; 58; 32; 116; 114; 97; 110; 115; 97; 99; 116; 105; 111; 110; 115; 32; 83; 65; 77; 80; 76; 69; 32; 49; 48; 46; 48; 41; 44; 32; 40; 101; 58; 32; 101; 118; 101; 110; 116; 115; 41; 32; 45; 91; 109; 117; 115; 110; 116; 93; 45; 62; 32; 40; 115; 58; 32; 115; 101; 115; 115; 105; 111; 110; 115; 41; 10; 83; 69; 76; 69; 67; 84; 32; 101; 46; 103; 114; 111; 117; 112; 95; 105; 100; 44; 32; 115; 46; 115; 112; 97; 110; 95; 105; 100; 44; 32; 116; 46; 116; 114; 97; 99; 101; 95; 105; 100; 44; 32; 99; 111; 117; 110; 116; 40; 41; 32; 65; 83; 32; 96; 99; 111; 117; 110; 116; 96; 10; 66; 89; 32; 101; 46; 103; 114; 111; 117; 112; 95; 105; 100; 44; 32; 115; 46; 115; 112; 97; 110; 95; 105; 100; 44; 32; 116; 46; 116; 114; 97; 99; 101; 95; 105; 100; 10; 87; 72; 69; 82; 69; 32; 40; 101; 46; 116; 105; 109; 101; 115; 116; 97; 109; 112; 32; 73; 83; 32; 78; 79; 84; 32; 78; 85; 76; 76; 32; 79; 82; 32; 115; 46; 116; 105; 109; 101; 115; 116; 97; 109; 112; 32; 73; 83; 32; 78; 79; 84; 32; 78; 85; 76; 76; 32; 79; 82; 32; 116; 46; 116; 105; 109; 101; 115; 116; 97; 109; 112; 32; 73; 83; 32; 78; 79; 84; 32; 78; 85; 76; 76; 41; 10; 79; 82; 68; 69; 82; 32; 66; 89; 32; 101; 46; 116; 105; 109; 101; 115; 116; 97; 109; 112; 32; 68; 69; 83; 67; 10; 76; 73; 77; 73; 84; 32; 49; 48; 10; 79; 70; 70; 83; 69; 84; 32; 49; 10; 71; 82; 65; 78; 85; 76; 65; 82; 73; 84; 89; 32; 51; 54; 48; 48]%N = true.
Proof. vm_compute. reflexivity. Qed.

(* test_relationships.py, line 46: complex join *)
Example t245_test_relationships : same_str (let! q := (let! q := (let! q := (let! q := (let! q := (let! q := (let! q := (let! q := (let! x1 := (let! o := (let! x38 := (let! x2 := (let! x11 := (let! x3 := (Ok (OStr ($"events"))) in let! x4 := (Ok (OStr ($"e"))) in let! x5 := (Ok ONone) in let! x6 := (Ok ONone) in mk_entity x3 x4 x5 x6) in let! x12 := (Ok (OStr ($"has"))) in let! x13 := (let! x7 := (Ok (OStr ($"sessions"))) in let! x8 := (Ok (OStr ($"s"))) in let! x9 := (Ok ONone) in let! x10 := (Ok ONone) in mk_entity x7 x8 x9 x10) in mk_relationship x11 x12 x13) in let! x14 := (let! x23 := (let! x15 := (Ok (OStr ($"events"))) in let! x16 := (Ok (OStr ($"e"))) in let! x17 := (Ok ONone) in let! x18 := (Ok ONone) in mk_entity x15 x16 x17 x18) in let! x24 := (Ok (OStr ($"hasnt"))) in let! x25 := (let! x19 := (Ok (OStr ($"transactions"))) in let! x20 := (Ok (OStr ($"t"))) in let! x21 := (Ok (OFloat (FFin false 10%N (0)))) in let! x22 := (Ok ONone) in mk_entity x19 x20 x21 x22) in mk_relationship x23 x24 x25) in let! x26 := (let! x35 := (let! x27 := (Ok (OStr ($"events"))) in let! x28 := (Ok (OStr ($"e"))) in let! x29 := (Ok ONone) in let! x30 := (Ok ONone) in mk_entity x27 x28 x29 x30) in let! x36 := (Ok (OStr ($"musnt"))) in let! x37 := (let! x31 := (Ok (OStr ($"sessions"))) in let! x32 := (Ok (OStr ($"s"))) in let! x33 := (Ok ONone) in let! x34 := (Ok ONone) in mk_entity x31 x32 x33 x34) in mk_relationship x35 x36 x37) in Ok (OList [x2; x14; x26])) in mk_join x38) in Ok (MObj o)) in let! x39 := (Ok ONone) in let! x40 := (Ok ONone) in let! x41 := (Ok ONone) in let! x42 := (Ok ONone) in let! x43 := (Ok ONone) in let! x44 := (Ok ONone) in let! x45 := (Ok ONone) in let! x46 := (Ok ONone) in let! x47 := (Ok ONone) in let! x48 := (Ok ONone) in let! x49 := (Ok ONone) in mk_query x1 (mkClauses x39 x40 x41 x42 x43 x44 x45 x46 x47 x48 x49)) in let! v := (let! x50 := (let! x55 := (Ok (OStr ($"group_id"))) in let! x56 := (let! x51 := (Ok (OStr ($"events"))) in let! x52 := (Ok (OStr ($"e"))) in let! x53 := (Ok ONone) in let! x54 := (Ok ONone) in mk_entity x51 x52 x53 x54) in mk_column x55 x56) in let! x57 := (let! x62 := (Ok (OStr ($"span_id"))) in let! x63 := (let! x58 := (Ok (OStr ($"sessions"))) in let! x59 := (Ok (OStr ($"s"))) in let! x60 := (Ok ONone) in let! x61 := (Ok ONone) in mk_entity x58 x59 x60 x61) in mk_column x62 x63) in let! x64 := (let! x69 := (Ok (OStr ($"trace_id"))) in let! x70 := (let! x65 := (Ok (OStr ($"transactions"))) in let! x66 := (Ok (OStr ($"t"))) in let! x67 := (Ok ONone) in let! x68 := (Ok ONone) in mk_entity x65 x66 x67 x68) in mk_column x69 x70) in let! x71 := (let! x72 := (Ok (OStr ($"count"))) in let! x73 := (Ok (OList [])) in let! x74 := (Ok (OStr ($"count"))) in mk_function x72 x73 x74) in Ok (OList [x50; x57; x64; x71])) in set_clause CSelect q v) in let! v := (let! x75 := (let! x80 := (Ok (OStr ($"group_id"))) in let! x81 := (let! x76 := (Ok (OStr ($"events"))) in let! x77 := (Ok (OStr ($"e"))) in let! x78 := (Ok ONone) in let! x79 := (Ok ONone) in mk_entity x76 x77 x78 x79) in mk_column x80 x81) in let! x82 := (let! x87 := (Ok (OStr ($"span_id"))) in let! x88 := (let! x83 := (Ok (OStr ($"sessions"))) in let! x84 := (Ok (OStr ($"s"))) in let! x85 := (Ok ONone) in let! x86 := (Ok ONone) in mk_entity x83 x84 x85 x86) in mk_column x87 x88) in let! x89 := (let! x94 := (Ok (OStr ($"trace_id"))) in let! x95 := (let! x90 := (Ok (OStr ($"transactions"))) in let! x91 := (Ok (OStr ($"t"))) in let! x92 := (Ok ONone) in let! x93 := (Ok ONone) in mk_entity x90 x91 x92 x93) in mk_column x94 x95) in Ok (OList [x75; x82; x89])) in set_clause CGroupby q v) in let! v := (let! x96 := (let! x127 := (let! x97 := (let! x104 := (let! x102 := (Ok (OStr ($"timestamp"))) in let! x103 := (let! x98 := (Ok (OStr ($"events"))) in let! x99 := (Ok (OStr ($"e"))) in let! x100 := (Ok ONone) in let! x101 := (Ok ONone) in mk_entity x98 x99 x100 x101) in mk_column x102 x103) in let! x105 := (Ok (OOp IS_NOT_NULL)) in let! x106 := (Ok ONone) in mk_condition x104 x105 x106) in let! x107 := (let! x114 := (let! x112 := (Ok (OStr ($"timestamp"))) in let! x113 := (let! x108 := (Ok (OStr ($"sessions"))) in let! x109 := (Ok (OStr ($"s"))) in let! x110 := (Ok ONone) in let! x111 := (Ok ONone) in mk_entity x108 x109 x110 x111) in mk_column x112 x113) in let! x115 := (Ok (OOp IS_NOT_NULL)) in let! x116 := (Ok ONone) in mk_condition x114 x115 x116) in let! x117 := (let! x124 := (let! x122 := (Ok (OStr ($"timestamp"))) in let! x123 := (let! x118 := (Ok (OStr ($"transactions"))) in let! x119 := (Ok (OStr ($"t"))) in let! x120 := (Ok ONone) in let! x121 := (Ok ONone) in mk_entity x118 x119 x120 x121) in mk_column x122 x123) in let! x125 := (Ok (OOp IS_NOT_NULL)) in let! x126 := (Ok ONone) in mk_condition x124 x125 x126) in Ok (OList [x97; x107; x117])) in mk_or x127) in Ok (OList [x96])) in set_clause CWhere q v) in let! v := (let! x128 := (let! x135 := (let! x133 := (Ok (OStr ($"timestamp"))) in let! x134 := (let! x129 := (Ok (OStr ($"events"))) in let! x130 := (Ok (OStr ($"e"))) in let! x131 := (Ok ONone) in let! x132 := (Ok ONone) in mk_entity x129 x130 x131 x132) in mk_column x133 x134) in let! x136 := (Ok (ODir DESC)) in mk_orderby x135 x136) in Ok (OList [x128])) in set_clause COrderby q v) in let! v := (Ok (OInt (10))) in set_clause CLimit q v) in let! v := (Ok (OInt (1))) in set_clause COffset q v) in let! v := (Ok (OInt (3600))) in set_clause CGranularity q v) in print_query ($" ") q) ($"MATCH (e: events) -[has]-> (s: sessions), (e: events) -[hasnt]-> (t: transactions SAMPLE 10.0), (e: events) -[musnt]-> (s: sessions) SELECT e.group_id, s.span_id, t.trace_id, count() AS `count` BY e.group_id, s.span_id, t.trace_id WHERE (e.timestamp IS NOT NULL OR s.timestamp IS NOT NULL OR t.timestamp IS NOT NULL) ORDER BY e.timestamp DESC LIMIT 10 OFFSET 1 GRANULARITY 3600") = true.
Proof. vm_compute. reflexivity. Qed.

(* test_query_validation.py, line 36: all columns in data model *)
Example t246_test_query_validation : passes (let! q := (let! q := (let! x1 := (let! o := (let! x2 := (Ok (OStr ($"test"))) in let! x3 := (Ok ONone) in let! x4 := (Ok ONone) in let! x5 := (Ok (ODataModel (mkDM [mkSC ($"test1") false; mkSC ($"test2") false; mkSC ($"required1") true; mkSC ($"required2") true; mkSC ($"time") false] (mkSC ($"time") false)))) in mk_entity x2 x3 x4 x5) in Ok (MObj o)) in let! x6 := (let! x7 := (let! x8 := (Ok (OStr ($"test1"))) in let! x9 := (Ok ONone) in mk_column x8 x9) in let! x10 := (let! x11 := (Ok (OStr ($"required1"))) in let! x12 := (Ok ONone) in mk_column x11 x12) in Ok (OList [x7; x10])) in let! x13 := (Ok ONone) in let! x14 := (Ok ONone) in let! x15 := (Ok ONone) in let! x16 := (Ok ONone) in let! x17 := (Ok ONone) in let! x18 := (Ok ONone) in let! x19 := (Ok ONone) in let! x20 := (Ok ONone) in let! x21 := (Ok ONone) in let! x22 := (Ok ONone) in mk_query x1 (mkClauses x6 x13 x14 x15 x16 x17 x18 x19 x20 x21 x22)) in let! v := (let! x23 := (let! x29 := (let! x24 := (Ok (OStr ($"required1"))) in let! x25 := (Ok ONone) in mk_column x24 x25) in let! x30 := (Ok (OOp IN)) in let! x31 := (let! x26 := (Ok (OInt (1))) in let! x27 := (Ok (OInt (2))) in let! x28 := (Ok (OInt (3))) in Ok (OList [x26; x27; x28])) in mk_condition x29 x30 x31) in let! x32 := (let! x35 := (let! x33 := (Ok (OStr ($"required2"))) in let! x34 := (Ok ONone) in mk_column x33 x34) in let! x36 := (Ok (OOp EQ)) in let! x37 := (Ok (OInt (1))) in mk_condition x35 x36 x37) in let! x38 := (let! x41 := (let! x39 := (Ok (OStr ($"time"))) in let! x40 := (Ok ONone) in mk_column x39 x40) in let! x42 := (Ok (OOp GTE)) in let! x43 := (Ok (ODateTime (mkDT (mkDate 2021 1 2) 3 4 5 5 (Some 0)))) in mk_condition x41 x42 x43) in let! x44 := (let! x47 := (let! x45 := (Ok (OStr ($"time"))) in let! x46 := (Ok ONone) in mk_column x45 x46) in let! x48 := (Ok (OOp LT)) in let! x49 := (Ok (ODateTime (mkDT (mkDate 2021 1 2) 3 4 5 6 (Some 0)))) in mk_condition x47 x48 x49) in Ok (OList [x23; x32; x38; x44])) in set_clause CWhere q v) in validate_match q) = true.
Proof. vm_compute. reflexivity. Qed.

(* test_query_validation.py, line 44: some columns not in data model *)
Example t247_test_query_validation : fails (let! q := (let! q := (let! x1 := (let! o := (let! x2 := (Ok (OStr ($"test"))) in let! x3 := (Ok ONone) in let! x4 := (Ok ONone) in let! x5 := (Ok (ODataModel (mkDM [mkSC ($"test1") false; mkSC ($"test2") false; mkSC ($"required1") true; mkSC ($"required2") true; mkSC ($"time") false] (mkSC ($"time") false)))) in mk_entity x2 x3 x4 x5) in Ok (MObj o)) in let! x6 := (let! x7 := (let! x8 := (Ok (OStr ($"test1"))) in let! x9 := (Ok ONone) in mk_column x8 x9) in let! x10 := (let! x11 := (Ok (OStr ($"outside"))) in let! x12 := (Ok ONone) in mk_column x11 x12) in Ok (OList [x7; x10])) in let! x13 := (Ok ONone) in let! x14 := (Ok ONone) in let! x15 := (Ok ONone) in let! x16 := (Ok ONone) in let! x17 := (Ok ONone) in let! x18 := (Ok ONone) in let! x19 := (Ok ONone) in let! x20 := (Ok ONone) in let! x21 := (Ok ONone) in let! x22 := (Ok ONone) in mk_query x1 (mkClauses x6 x13 x14 x15 x16 x17 x18 x19 x20 x21 x22)) in let! v := (let! x23 := (let! x29 := (let! x24 := (Ok (OStr ($"required1"))) in let! x25 := (Ok ONone) in mk_column x24 x25) in let! x30 := (Ok (OOp IN)) in let! x31 := (let! x26 := (Ok (OInt (1))) in let! x27 := (Ok (OInt (2))) in let! x28 := (Ok (OInt (3))) in Ok (OList [x26; x27; x28])) in mk_condition x29 x30 x31) in let! x32 := (let! x35 := (let! x33 := (Ok (OStr ($"required2"))) in let! x34 := (Ok ONone) in mk_column x33 x34) in let! x36 := (Ok (OOp EQ)) in let! x37 := (Ok (OInt (1))) in mk_condition x35 x36 x37) in let! x38 := (let! x41 := (let! x39 := (Ok (OStr ($"time"))) in let! x40 := (Ok ONone) in mk_column x39 x40) in let! x42 := (Ok (OOp GTE)) in let! x43 := (Ok (ODateTime (mkDT (mkDate 2021 1 2) 3 4 5 5 (Some 0)))) in mk_condition x41 x42 x43) in let! x44 := (let! x47 := (let! x45 := (Ok (OStr ($"time"))) in let! x46 := (Ok ONone) in mk_column x45 x46) in let! x48 := (Ok (OOp LT)) in let! x49 := (Ok (ODateTime (mkDT (mkDate 2021 1 2) 3 4 5 6 (Some 0)))) in mk_condition x47 x48 x49) in Ok (OList [x23; x32; x38; x44])) in set_clause CWhere q v) in validate_match q) (fun e => match e with InvalidColumnError => true | _ => false end) = true.
Proof. vm_compute. reflexivity. Qed.

(* test_query_validation.py, line 74: all columns in data model *)
Example t248_test_query_validation : passes (let! q := (let! q := (let! x1 := (let! o := (let! x2 := (Ok (OStr ($"test"))) in let! x3 := (Ok ONone) in let! x4 := (Ok (ODataModel (mkDM [mkSC ($"test1") false; mkSC ($"test2") false; mkSC ($"required1") true; mkSC ($"required2") true; mkSC ($"time") false] (mkSC ($"time") false)))) in mk_storage x2 x3 x4) in Ok (MObj o)) in let! x5 := (let! x6 := (let! x7 := (Ok (OStr ($"test1"))) in let! x8 := (Ok ONone) in mk_column x7 x8) in let! x9 := (let! x10 := (Ok (OStr ($"required1"))) in let! x11 := (Ok ONone) in mk_column x10 x11) in Ok (OList [x6; x9])) in let! x12 := (Ok ONone) in let! x13 := (Ok ONone) in let! x14 := (Ok ONone) in let! x15 := (Ok ONone) in let! x16 := (Ok ONone) in let! x17 := (Ok ONone) in let! x18 := (Ok ONone) in let! x19 := (Ok ONone) in let! x20 := (Ok ONone) in let! x21 := (Ok ONone) in mk_query x1 (mkClauses x5 x12 x13 x14 x15 x16 x17 x18 x19 x20 x21)) in let! v := (let! x22 := (let! x28 := (let! x23 := (Ok (OStr ($"required1"))) in let! x24 := (Ok ONone) in mk_column x23 x24) in let! x29 := (Ok (OOp IN)) in let! x30 := (let! x25 := (Ok (OInt (1))) in let! x26 := (Ok (OInt (2))) in let! x27 := (Ok (OInt (3))) in Ok (OList [x25; x26; x27])) in mk_condition x28 x29 x30) in let! x31 := (let! x34 := (let! x32 := (Ok (OStr ($"required2"))) in let! x33 := (Ok ONone) in mk_column x32 x33) in let! x35 := (Ok (OOp EQ)) in let! x36 := (Ok (OInt (1))) in mk_condition x34 x35 x36) in let! x37 := (let! x40 := (let! x38 := (Ok (OStr ($"time"))) in let! x39 := (Ok ONone) in mk_column x38 x39) in let! x41 := (Ok (OOp GTE)) in let! x42 := (Ok (ODateTime (mkDT (mkDate 2021 1 2) 3 4 5 5 (Some 0)))) in mk_condition x40 x41 x42) in let! x43 := (let! x46 := (let! x44 := (Ok (OStr ($"time"))) in let! x45 := (Ok ONone) in mk_column x44 x45) in let! x47 := (Ok (OOp LT)) in let! x48 := (Ok (ODateTime (mkDT (mkDate 2021 1 2) 3 4 5 6 (Some 0)))) in mk_condition x46 x47 x48) in Ok (OList [x22; x31; x37; x43])) in set_clause CWhere q v) in validate_match q) = true.
Proof. vm_compute. reflexivity. Qed.

(* test_query_validation.py, line 82: some columns not in data model *)
Example t249_test_query_validation : fails (let! q := (let! q := (let! x1 := (let! o := (let! x2 := (Ok (OStr ($"test"))) in let! x3 := (Ok ONone) in let! x4 := (Ok (ODataModel (mkDM [mkSC ($"test1") false; mkSC ($"test2") false; mkSC ($"required1") true; mkSC ($"required2") true; mkSC ($"time") false] (mkSC ($"time") false)))) in mk_storage x2 x3 x4) in Ok (MObj o)) in let! x5 := (let! x6 := (let! x7 := (Ok (OStr ($"test1"))) in let! x8 := (Ok ONone) in mk_column x7 x8) in let! x9 := (let! x10 := (Ok (OStr ($"outside"))) in let! x11 := (Ok ONone) in mk_column x10 x11) in Ok (OList [x6; x9])) in let! x12 := (Ok ONone) in let! x13 := (Ok ONone) in let! x14 := (Ok ONone) in let! x15 := (Ok ONone) in let! x16 := (Ok ONone) in let! x17 := (Ok ONone) in let! x18 := (Ok ONone) in let! x19 := (Ok ONone) in let! x20 := (Ok ONone) in let! x21 := (Ok ONone) in mk_query x1 (mkClauses x5 x12 x13 x14 x15 x16 x17 x18 x19 x20 x21)) in let! v := (let! x22 := (let! x28 := (let! x23 := (Ok (OStr ($"required1"))) in let! x24 := (Ok ONone) in mk_column x23 x24) in let! x29 := (Ok (OOp IN)) in let! x30 := (let! x25 := (Ok (OInt (1))) in let! x26 := (Ok (OInt (2))) in let! x27 := (Ok (OInt (3))) in Ok (OList [x25; x26; x27])) in mk_condition x28 x29 x30) in let! x31 := (let! x34 := (let! x32 := (Ok (OStr ($"required2"))) in let! x33 := (Ok ONone) in mk_column x32 x33) in let! x35 := (Ok (OOp EQ)) in let! x36 := (Ok (OInt (1))) in mk_condition x34 x35 x36) in let! x37 := (let! x40 := (let! x38 := (Ok (OStr ($"time"))) in let! x39 := (Ok ONone) in mk_column x38 x39) in let! x41 := (Ok (OOp GTE)) in let! x42 := (Ok (ODateTime (mkDT (mkDate 2021 1 2) 3 4 5 5 (Some 0)))) in mk_condition x40 x41 x42) in let! x43 := (let! x46 := (let! x44 := (Ok (OStr ($"time"))) in let! x45 := (Ok ONone) in mk_column x44 x45) in let! x47 := (Ok (OOp LT)) in let! x48 := (Ok (ODateTime (mkDT (mkDate 2021 1 2) 3 4 5 6 (Some 0)))) in mk_condition x46 x47 x48) in Ok (OList [x22; x31; x37; x43])) in set_clause CWhere q v) in validate_match q) (fun e => match e with InvalidColumnError => true | _ => false end) = true.
Proof. vm_compute. reflexivity. Qed.

(* test_query_validation.py, line 112: subquery referencing correct columns *)
Example t250_test_query_validation : passes (let! q := (let! q := (let! q := (let! x1 := (let! q := (let! x2 := (let! o := (let! x3 := (Ok (OStr ($"test"))) in let! x4 := (Ok ONone) in let! x5 := (Ok ONone) in let! x6 := (Ok (ODataModel (mkDM [mkSC ($"test1") false; mkSC ($"test2") false; mkSC ($"required1") true; mkSC ($"required2") true; mkSC ($"time") false] (mkSC ($"time") false)))) in mk_entity x3 x4 x5 x6) in Ok (MObj o)) in let! x7 := (let! x8 := (let! x9 := (Ok (OStr ($"test1"))) in let! x10 := (Ok ONone) in mk_column x9 x10) in let! x11 := (let! x12 := (Ok (OStr ($"test2"))) in let! x13 := (Ok ONone) in mk_column x12 x13) in Ok (OList [x8; x11])) in let! x14 := (Ok ONone) in let! x15 := (Ok ONone) in let! x16 := (let! x17 := (let! x23 := (let! x18 := (Ok (OStr ($"required1"))) in let! x19 := (Ok ONone) in mk_column x18 x19) in let! x24 := (Ok (OOp IN)) in let! x25 := (let! x20 := (Ok (OInt (1))) in let! x21 := (Ok (OInt (2))) in let! x22 := (Ok (OInt (3))) in Ok (OList [x20; x21; x22])) in mk_condition x23 x24 x25) in let! x26 := (let! x29 := (let! x27 := (Ok (OStr ($"required2"))) in let! x28 := (Ok ONone) in mk_column x27 x28) in let! x30 := (Ok (OOp EQ)) in let! x31 := (Ok (OInt (1))) in mk_condition x29 x30 x31) in let! x32 := (let! x35 := (let! x33 := (Ok (OStr ($"time"))) in let! x34 := (Ok ONone) in mk_column x33 x34) in let! x36 := (Ok (OOp GTE)) in let! x37 := (Ok (ODateTime (mkDT (mkDate 2021 1 2) 3 4 5 5 (Some 0)))) in mk_condition x35 x36 x37) in let! x38 := (let! x41 := (let! x39 := (Ok (OStr ($"time"))) in let! x40 := (Ok ONone) in mk_column x39 x40) in let! x42 := (Ok (OOp LT)) in let! x43 := (Ok (ODateTime (mkDT (mkDate 2021 1 2) 3 4 5 6 (Some 0)))) in mk_condition x41 x42 x43) in Ok (OList [x17; x26; x32; x38])) in let! x44 := (Ok ONone) in let! x45 := (Ok ONone) in let! x46 := (Ok ONone) in let! x47 := (Ok ONone) in let! x48 := (Ok ONone) in let! x49 := (Ok ONone) in let! x50 := (Ok ONone) in mk_query x2 (mkClauses x7 x14 x15 x16 x44 x45 x46 x47 x48 x49 x50)) in Ok (MQuery q)) in let! x51 := (Ok ONone) in let! x52 := (Ok ONone) in let! x53 := (Ok ONone) in let! x54 := (Ok ONone) in let! x55 := (Ok ONone) in let! x56 := (Ok ONone) in let! x57 := (Ok ONone) in let! x58 := (Ok ONone) in let! x59 := (Ok ONone) in let! x60 := (Ok ONone) in let! x61 := (Ok ONone) in mk_query x1 (mkClauses x51 x52 x53 x54 x55 x56 x57 x58 x59 x60 x61)) in let! v := (let! x62 := (let! x66 := (Ok (OStr ($"uniq"))) in let! x67 := (let! x63 := (let! x64 := (Ok (OStr ($"test1"))) in let! x65 := (Ok ONone) in mk_column x64 x65) in Ok (OList [x63])) in let! x68 := (Ok (OStr ($"uniq_event"))) in mk_function x66 x67 x68) in let! x69 := (let! x70 := (Ok (OStr ($"test2"))) in let! x71 := (Ok ONone) in mk_column x70 x71) in Ok (OList [x62; x69])) in set_clause CSelect q v) in let! v := (let! x72 := (let! x73 := (Ok (OStr ($"test2"))) in let! x74 := (Ok ONone) in mk_column x73 x74) in Ok (OList [x72])) in set_clause CGroupby q v) in validate_match q) = true.
Proof. vm_compute. reflexivity. Qed.

(* test_query_validation.py, line 132: subquery with incorrect columns *)
Example t251_test_query_validation : fails (let! q := (let! q := (let! q := (let! x1 := (let! q := (let! x2 := (let! o := (let! x3 := (Ok (OStr ($"test"))) in let! x4 := (Ok ONone) in let! x5 := (Ok ONone) in let! x6 := (Ok (ODataModel (mkDM [mkSC ($"test1") false; mkSC ($"test2") false; mkSC ($"required1") true; mkSC ($"required2") true; mkSC ($"time") false] (mkSC ($"time") false)))) in mk_entity x3 x4 x5 x6) in Ok (MObj o)) in let! x7 := (let! x8 := (let! x9 := (Ok (OStr ($"test1"))) in let! x10 := (Ok ONone) in mk_column x9 x10) in let! x11 := (let! x12 := (Ok (OStr ($"test2"))) in let! x13 := (Ok ONone) in mk_column x12 x13) in Ok (OList [x8; x11])) in let! x14 := (Ok ONone) in let! x15 := (Ok ONone) in let! x16 := (let! x17 := (let! x23 := (let! x18 := (Ok (OStr ($"required1"))) in let! x19 := (Ok ONone) in mk_column x18 x19) in let! x24 := (Ok (OOp IN)) in let! x25 := (let! x20 := (Ok (OInt (1))) in let! x21 := (Ok (OInt (2))) in let! x22 := (Ok (OInt (3))) in Ok (OList [x20; x21; x22])) in mk_condition x23 x24 x25) in let! x26 := (let! x29 := (let! x27 := (Ok (OStr ($"required2"))) in let! x28 := (Ok ONone) in mk_column x27 x28) in let! x30 := (Ok (OOp EQ)) in let! x31 := (Ok (OInt (1))) in mk_condition x29 x30 x31) in let! x32 := (let! x35 := (let! x33 := (Ok (OStr ($"time"))) in let! x34 := (Ok ONone) in mk_column x33 x34) in let! x36 := (Ok (OOp GTE)) in let! x37 := (Ok (ODateTime (mkDT (mkDate 2021 1 2) 3 4 5 5 (Some 0)))) in mk_condition x35 x36 x37) in let! x38 := (let! x41 := (let! x39 := (Ok (OStr ($"time"))) in let! x40 := (Ok ONone) in mk_column x39 x40) in let! x42 := (Ok (OOp LT)) in let! x43 := (Ok (ODateTime (mkDT (mkDate 2021 1 2) 3 4 5 6 (Some 0)))) in mk_condition x41 x42 x43) in Ok (OList [x17; x26; x32; x38])) in let! x44 := (Ok ONone) in let! x45 := (Ok ONone) in let! x46 := (Ok ONone) in let! x47 := (Ok ONone) in let! x48 := (Ok ONone) in let! x49 := (Ok ONone) in let! x50 := (Ok ONone) in mk_query x2 (mkClauses x7 x14 x15 x16 x44 x45 x46 x47 x48 x49 x50)) in Ok (MQuery q)) in let! x51 := (Ok ONone) in let! x52 := (Ok ONone) in let! x53 := (Ok ONone) in let! x54 := (Ok ONone) in let! x55 := (Ok ONone) in let! x56 := (Ok ONone) in let! x57 := (Ok ONone) in let! x58 := (Ok ONone) in let! x59 := (Ok ONone) in let! x60 := (Ok ONone) in let! x61 := (Ok ONone) in mk_query x1 (mkClauses x51 x52 x53 x54 x55 x56 x57 x58 x59 x60 x61)) in let! v := (let! x62 := (let! x66 := (Ok (OStr ($"uniq"))) in let! x67 := (let! x63 := (let! x64 := (Ok (OStr ($"test1"))) in let! x65 := (Ok ONone) in mk_column x64 x65) in Ok (OList [x63])) in let! x68 := (Ok (OStr ($"uniq_event"))) in mk_function x66 x67 x68) in let! x69 := (let! x70 := (Ok (OStr ($"outside"))) in let! x71 := (Ok ONone) in mk_column x70 x71) in Ok (OList [x62; x69])) in set_clause CSelect q v) in let! v := (let! x72 := (let! x73 := (Ok (OStr ($"outside"))) in let! x74 := (Ok ONone) in mk_column x73 x74) in Ok (OList [x72])) in set_clause CGroupby q v) in validate_match q) (fun e => match e with InvalidMatchError => true | _ => false end) = true.
Proof. vm_compute. reflexivity. Qed.

(* test_query_validation.py, line 154: sub sub query with incorrect columns *)
Example t252_test_query_validation : fails (let! q := (let! q := (let! x1 := (let! q := (let! x2 := (let! q := (let! x3 := (let! o := (let! x4 := (Ok (OStr ($"test"))) in let! x5 := (Ok ONone) in let! x6 := (Ok ONone) in let! x7 := (Ok (ODataModel (mkDM [mkSC ($"test1") false; mkSC ($"test2") false; mkSC ($"required1") true; mkSC ($"required2") true; mkSC ($"time") false] (mkSC ($"time") false)))) in mk_entity x4 x5 x6 x7) in Ok (MObj o)) in let! x8 := (let! x9 := (let! x10 := (Ok (OStr ($"test1"))) in let! x11 := (Ok ONone) in mk_column x10 x11) in let! x12 := (let! x13 := (Ok (OStr ($"test2"))) in let! x14 := (Ok ONone) in mk_column x13 x14) in Ok (OList [x9; x12])) in let! x15 := (Ok ONone) in let! x16 := (Ok ONone) in let! x17 := (let! x18 := (let! x24 := (let! x19 := (Ok (OStr ($"required1"))) in let! x20 := (Ok ONone) in mk_column x19 x20) in let! x25 := (Ok (OOp IN)) in let! x26 := (let! x21 := (Ok (OInt (1))) in let! x22 := (Ok (OInt (2))) in let! x23 := (Ok (OInt (3))) in Ok (OList [x21; x22; x23])) in mk_condition x24 x25 x26) in let! x27 := (let! x30 := (let! x28 := (Ok (OStr ($"required2"))) in let! x29 := (Ok ONone) in mk_column x28 x29) in let! x31 := (Ok (OOp EQ)) in let! x32 := (Ok (OInt (1))) in mk_condition x30 x31 x32) in let! x33 := (let! x36 := (let! x34 := (Ok (OStr ($"time"))) in let! x35 := (Ok ONone) in mk_column x34 x35) in let! x37 := (Ok (OOp GTE)) in let! x38 := (Ok (ODateTime (mkDT (mkDate 2021 1 2) 3 4 5 5 (Some 0)))) in mk_condition x36 x37 x38) in let! x39 := (let! x42 := (let! x40 := (Ok (OStr ($"time"))) in let! x41 := (Ok ONone) in mk_column x40 x41) in let! x43 := (Ok (OOp LT)) in let! x44 := (Ok (ODateTime (mkDT (mkDate 2021 1 2) 3 4 5 6 (Some 0)))) in mk_condition x42 x43 x44) in Ok (OList [x18; x27; x33; x39])) in let! x45 := (Ok ONone) in let! x46 := (Ok ONone) in let! x47 := (Ok ONone) in let! x48 := (Ok ONone) in let! x49 := (Ok ONone) in let! x50 := (Ok ONone) in let! x51 := (Ok ONone) in mk_query x3 (mkClauses x8 x15 x16 x17 x45 x46 x47 x48 x49 x50 x51)) in Ok (MQuery q)) in let! x52 := (let! x53 := (let! x57 := (Ok (OStr ($"uniq"))) in let! x58 := (let! x54 := (let! x55 := (Ok (OStr ($"test1"))) in let! x56 := (Ok ONone) in mk_column x55 x56) in Ok (OList [x54])) in let! x59 := (Ok (OStr ($"uniq_event"))) in mk_function x57 x58 x59) in let! x60 := (let! x61 := (Ok (OStr ($"test1"))) in let! x62 := (Ok ONone) in mk_column x61 x62) in Ok (OList [x53; x60])) in let! x63 := (let! x64 := (let! x65 := (Ok (OStr ($"test1"))) in let! x66 := (Ok ONone) in mk_column x65 x66) in Ok (OList [x64])) in let! x67 := (Ok ONone) in let! x68 := (Ok ONone) in let! x69 := (Ok ONone) in let! x70 := (Ok ONone) in let! x71 := (Ok ONone) in let! x72 := (Ok ONone) in let! x73 := (Ok ONone) in let! x74 := (Ok ONone) in let! x75 := (Ok ONone) in mk_query x2 (mkClauses x52 x63 x67 x68 x69 x70 x71 x72 x73 x74 x75)) in Ok (MQuery q)) in let! x76 := (Ok ONone) in let! x77 := (Ok ONone) in let! x78 := (Ok ONone) in let! x79 := (Ok ONone) in let! x80 := (Ok ONone) in let! x81 := (Ok ONone) in let! x82 := (Ok ONone) in let! x83 := (Ok ONone) in let! x84 := (Ok ONone) in let! x85 := (Ok ONone) in let! x86 := (Ok ONone) in mk_query x1 (mkClauses x76 x77 x78 x79 x80 x81 x82 x83 x84 x85 x86)) in let! v := (let! x87 := (let! x91 := (Ok (OStr ($"toString"))) in let! x92 := (let! x88 := (let! x89 := (Ok (OStr ($"outside"))) in let! x90 := (Ok ONone) in mk_column x89 x90) in Ok (OList [x88])) in let! x93 := (Ok ONone) in mk_function x91 x92 x93) in Ok (OList [x87])) in set_clause CSelect q v) in validate_match q) (fun e => match e with InvalidMatchError => true | _ => false end) = true.
Proof. vm_compute. reflexivity. Qed.

(* test_query_validation.py, line 195: all columns must be qualified *)
Example t253_test_query_validation : fails (let! q := (let! q := (let! q := (let! x1 := (let! o := (let! x14 := (let! x2 := (let! x11 := (let! x3 := (Ok (OStr ($"test_a"))) in let! x4 := (Ok (OStr ($"ta"))) in let! x5 := (Ok ONone) in let! x6 := (Ok (ODataModel (mkDM [mkSC ($"test1") false; mkSC ($"test2") false; mkSC ($"required1") true; mkSC ($"required2") true; mkSC ($"time") false] (mkSC ($"time") false)))) in mk_entity x3 x4 x5 x6) in let! x12 := (Ok (OStr ($"has"))) in let! x13 := (let! x7 := (Ok (OStr ($"test_b"))) in let! x8 := (Ok (OStr ($"tb"))) in let! x9 := (Ok ONone) in let! x10 := (Ok (ODataModel (mkDM [mkSC ($"test1") false; mkSC ($"test2") false; mkSC ($"required1") true; mkSC ($"required2") true; mkSC ($"time") false] (mkSC ($"time") false)))) in mk_entity x7 x8 x9 x10) in mk_relationship x11 x12 x13) in Ok (OList [x2])) in mk_join x14) in Ok (MObj o)) in let! x15 := (Ok ONone) in let! x16 := (Ok ONone) in let! x17 := (Ok ONone) in let! x18 := (Ok ONone) in let! x19 := (Ok ONone) in let! x20 := (Ok ONone) in let! x21 := (Ok ONone) in let! x22 := (Ok ONone) in let! x23 := (Ok ONone) in let! x24 := (Ok ONone) in let! x25 := (Ok ONone) in mk_query x1 (mkClauses x15 x16 x17 x18 x19 x20 x21 x22 x23 x24 x25)) in let! v := (let! x26 := (let! x27 := (Ok (OStr ($"test1"))) in let! x28 := (Ok ONone) in mk_column x27 x28) in let! x29 := (let! x34 := (Ok (OStr ($"test2"))) in let! x35 := (let! x30 := (Ok (OStr ($"test_b"))) in let! x31 := (Ok (OStr ($"tb"))) in let! x32 := (Ok ONone) in let! x33 := (Ok (ODataModel (mkDM [mkSC ($"test1") false; mkSC ($"test2") false; mkSC ($"required1") true; mkSC ($"required2") true; mkSC ($"time") false] (mkSC ($"time") false)))) in mk_entity x30 x31 x32 x33) in mk_column x34 x35) in Ok (OList [x26; x29])) in set_clause CSelect q v) in let! v := (let! x36 := (let! x43 := (let! x41 := (Ok (OStr ($"time"))) in let! x42 := (let! x37 := (Ok (OStr ($"test_a"))) in let! x38 := (Ok (OStr ($"ta"))) in let! x39 := (Ok ONone) in let! x40 := (Ok (ODataModel (mkDM [mkSC ($"test1") false; mkSC ($"test2") false; mkSC ($"required1") true; mkSC ($"required2") true; mkSC ($"time") false] (mkSC ($"time") false)))) in mk_entity x37 x38 x39 x40) in mk_column x41 x42) in let! x44 := (Ok (OOp IS_NOT_NULL)) in let! x45 := (Ok ONone) in mk_condition x43 x44 x45) in Ok (OList [x36])) in set_clause CWhere q v) in validate_match q) (fun e => match e with InvalidMatchError => true | _ => false end) = true.
Proof. vm_compute. reflexivity. Qed.

(* test_query_validation.py, line 202: column with different entity *)
Example t254_test_query_validation : fails (let! q := (let! q := (let! q := (let! x1 := (let! o := (let! x14 := (let! x2 := (let! x11 := (let! x3 := (Ok (OStr ($"test_a"))) in let! x4 := (Ok (OStr ($"ta"))) in let! x5 := (Ok ONone) in let! x6 := (Ok (ODataModel (mkDM [mkSC ($"test1") false; mkSC ($"test2") false; mkSC ($"required1") true; mkSC ($"required2") true; mkSC ($"time") false] (mkSC ($"time") false)))) in mk_entity x3 x4 x5 x6) in let! x12 := (Ok (OStr ($"has"))) in let! x13 := (let! x7 := (Ok (OStr ($"test_b"))) in let! x8 := (Ok (OStr ($"tb"))) in let! x9 := (Ok ONone) in let! x10 := (Ok (ODataModel (mkDM [mkSC ($"test1") false; mkSC ($"test2") false; mkSC ($"required1") true; mkSC ($"required2") true; mkSC ($"time") false] (mkSC ($"time") false)))) in mk_entity x7 x8 x9 x10) in mk_relationship x11 x12 x13) in Ok (OList [x2])) in mk_join x14) in Ok (MObj o)) in let! x15 := (Ok ONone) in let! x16 := (Ok ONone) in let! x17 := (Ok ONone) in let! x18 := (Ok ONone) in let! x19 := (Ok ONone) in let! x20 := (Ok ONone) in let! x21 := (Ok ONone) in let! x22 := (Ok ONone) in let! x23 := (Ok ONone) in let! x24 := (Ok ONone) in let! x25 := (Ok ONone) in mk_query x1 (mkClauses x15 x16 x17 x18 x19 x20 x21 x22 x23 x24 x25)) in let! v := (let! x26 := (let! x31 := (Ok (OStr ($"test1"))) in let! x32 := (let! x27 := (Ok (OStr ($"transactions"))) in let! x28 := (Ok (OStr ($"t"))) in let! x29 := (Ok ONone) in let! x30 := (Ok ONone) in mk_entity x27 x28 x29 x30) in mk_column x31 x32) in let! x33 := (let! x38 := (Ok (OStr ($"test2"))) in let! x39 := (let! x34 := (Ok (OStr ($"test_b"))) in let! x35 := (Ok (OStr ($"tb"))) in let! x36 := (Ok ONone) in let! x37 := (Ok (ODataModel (mkDM [mkSC ($"test1") false; mkSC ($"test2") false; mkSC ($"required1") true; mkSC ($"required2") true; mkSC ($"time") false] (mkSC ($"time") false)))) in mk_entity x34 x35 x36 x37) in mk_column x38 x39) in Ok (OList [x26; x33])) in set_clause CSelect q v) in let! v := (let! x40 := (let! x47 := (let! x45 := (Ok (OStr ($"time"))) in let! x46 := (let! x41 := (Ok (OStr ($"test_a"))) in let! x42 := (Ok (OStr ($"ta"))) in let! x43 := (Ok ONone) in let! x44 := (Ok (ODataModel (mkDM [mkSC ($"test1") false; mkSC ($"test2") false; mkSC ($"required1") true; mkSC ($"required2") true; mkSC ($"time") false] (mkSC ($"time") false)))) in mk_entity x41 x42 x43 x44) in mk_column x45 x46) in let! x48 := (Ok (OOp IS_NOT_NULL)) in let! x49 := (Ok ONone) in mk_condition x47 x48 x49) in Ok (OList [x40])) in set_clause CWhere q v) in validate_match q) (fun e => match e with InvalidMatchError => true | _ => false end) = true.
Proof. vm_compute. reflexivity. Qed.

(* test_query_validation.py, line 211: column with different entity alias *)
Example t255_test_query_validation : fails (let! q := (let! q := (let! q := (let! x1 := (let! o := (let! x14 := (let! x2 := (let! x11 := (let! x3 := (Ok (OStr ($"test_a"))) in let! x4 := (Ok (OStr ($"ta"))) in let! x5 := (Ok ONone) in let! x6 := (Ok (ODataModel (mkDM [mkSC ($"test1") false; mkSC ($"test2") false; mkSC ($"required1") true; mkSC ($"required2") true; mkSC ($"time") false] (mkSC ($"time") false)))) in mk_entity x3 x4 x5 x6) in let! x12 := (Ok (OStr ($"has"))) in let! x13 := (let! x7 := (Ok (OStr ($"test_b"))) in let! x8 := (Ok (OStr ($"tb"))) in let! x9 := (Ok ONone) in let! x10 := (Ok (ODataModel (mkDM [mkSC ($"test1") false; mkSC ($"test2") false; mkSC ($"required1") true; mkSC ($"required2") true; mkSC ($"time") false] (mkSC ($"time") false)))) in mk_entity x7 x8 x9 x10) in mk_relationship x11 x12 x13) in Ok (OList [x2])) in mk_join x14) in Ok (MObj o)) in let! x15 := (Ok ONone) in let! x16 := (Ok ONone) in let! x17 := (Ok ONone) in let! x18 := (Ok ONone) in let! x19 := (Ok ONone) in let! x20 := (Ok ONone) in let! x21 := (Ok ONone) in let! x22 := (Ok ONone) in let! x23 := (Ok ONone) in let! x24 := (Ok ONone) in let! x25 := (Ok ONone) in mk_query x1 (mkClauses x15 x16 x17 x18 x19 x20 x21 x22 x23 x24 x25)) in let! v := (let! x26 := (let! x31 := (Ok (OStr ($"test1"))) in let! x32 := (let! x27 := (Ok (OStr ($"test_a"))) in let! x28 := (Ok (OStr ($"other"))) in let! x29 := (Ok ONone) in let! x30 := (Ok (ODataModel (mkDM [mkSC ($"test1") false; mkSC ($"test2") false; mkSC ($"required1") true; mkSC ($"required2") true; mkSC ($"time") false] (mkSC ($"time") false)))) in mk_entity x27 x28 x29 x30) in mk_column x31 x32) in let! x33 := (let! x38 := (Ok (OStr ($"test2"))) in let! x39 := (let! x34 := (Ok (OStr ($"test_b"))) in let! x35 := (Ok (OStr ($"tb"))) in let! x36 := (Ok ONone) in let! x37 := (Ok (ODataModel (mkDM [mkSC ($"test1") false; mkSC ($"test2") false; mkSC ($"required1") true; mkSC ($"required2") true; mkSC ($"time") false] (mkSC ($"time") false)))) in mk_entity x34 x35 x36 x37) in mk_column x38 x39) in Ok (OList [x26; x33])) in set_clause CSelect q v) in let! v := (let! x40 := (let! x47 := (let! x45 := (Ok (OStr ($"time"))) in let! x46 := (let! x41 := (Ok (OStr ($"test_a"))) in let! x42 := (Ok (OStr ($"ta"))) in let! x43 := (Ok ONone) in let! x44 := (Ok (ODataModel (mkDM [mkSC ($"test1") false; mkSC ($"test2") false; mkSC ($"required1") true; mkSC ($"required2") true; mkSC ($"time") false] (mkSC ($"time") false)))) in mk_entity x41 x42 x43 x44) in mk_column x45 x46) in let! x48 := (Ok (OOp IS_NOT_NULL)) in let! x49 := (Ok ONone) in mk_condition x47 x48 x49) in Ok (OList [x40])) in set_clause CWhere q v) in validate_match q) (fun e => match e with InvalidMatchError => true | _ => false end) = true.
Proof. vm_compute. reflexivity. Qed.

(* test_query_validation.py, line 223: duplicate entity alias *)
Example t256_test_query_validation : fails (let! q := (let! q := (let! q := (let! x1 := (let! o := (let! x14 := (let! x2 := (let! x11 := (let! x3 := (Ok (OStr ($"test_a"))) in let! x4 := (Ok (OStr ($"ta"))) in let! x5 := (Ok ONone) in let! x6 := (Ok (ODataModel (mkDM [mkSC ($"test1") false; mkSC ($"test2") false; mkSC ($"required1") true; mkSC ($"required2") true; mkSC ($"time") false] (mkSC ($"time") false)))) in mk_entity x3 x4 x5 x6) in let! x12 := (Ok (OStr ($"has"))) in let! x13 := (let! x7 := (Ok (OStr ($"test_b"))) in let! x8 := (Ok (OStr ($"tb"))) in let! x9 := (Ok ONone) in let! x10 := (Ok (ODataModel (mkDM [mkSC ($"test1") false; mkSC ($"test2") false; mkSC ($"required1") true; mkSC ($"required2") true; mkSC ($"time") false] (mkSC ($"time") false)))) in mk_entity x7 x8 x9 x10) in mk_relationship x11 x12 x13) in Ok (OList [x2])) in mk_join x14) in Ok (MObj o)) in let! x15 := (Ok ONone) in let! x16 := (Ok ONone) in let! x17 := (Ok ONone) in let! x18 := (Ok ONone) in let! x19 := (Ok ONone) in let! x20 := (Ok ONone) in let! x21 := (Ok ONone) in let! x22 := (Ok ONone) in let! x23 := (Ok ONone) in let! x24 := (Ok ONone) in let! x25 := (Ok ONone) in mk_query x1 (mkClauses x15 x16 x17 x18 x19 x20 x21 x22 x23 x24 x25)) in let! v := (let! x26 := (let! x31 := (Ok (OStr ($"test1"))) in let! x32 := (let! x27 := (Ok (OStr ($"test_a"))) in let! x28 := (Ok (OStr ($"tb"))) in let! x29 := (Ok ONone) in let! x30 := (Ok (ODataModel (mkDM [mkSC ($"test1") false; mkSC ($"test2") false; mkSC ($"required1") true; mkSC ($"required2") true; mkSC ($"time") false] (mkSC ($"time") false)))) in mk_entity x27 x28 x29 x30) in mk_column x31 x32) in let! x33 := (let! x38 := (Ok (OStr ($"test2"))) in let! x39 := (let! x34 := (Ok (OStr ($"test_b"))) in let! x35 := (Ok (OStr ($"tb"))) in let! x36 := (Ok ONone) in let! x37 := (Ok (ODataModel (mkDM [mkSC ($"test1") false; mkSC ($"test2") false; mkSC ($"required1") true; mkSC ($"required2") true; mkSC ($"time") false] (mkSC ($"time") false)))) in mk_entity x34 x35 x36 x37) in mk_column x38 x39) in Ok (OList [x26; x33])) in set_clause CSelect q v) in let! v := (let! x40 := (let! x47 := (let! x45 := (Ok (OStr ($"time"))) in let! x46 := (let! x41 := (Ok (OStr ($"test_a"))) in let! x42 := (Ok (OStr ($"ta"))) in let! x43 := (Ok ONone) in let! x44 := (Ok (ODataModel (mkDM [mkSC ($"test1") false; mkSC ($"test2") false; mkSC ($"required1") true; mkSC ($"required2") true; mkSC ($"time") false] (mkSC ($"time") false)))) in mk_entity x41 x42 x43 x44) in mk_column x45 x46) in let! x48 := (Ok (OOp IS_NOT_NULL)) in let! x49 := (Ok ONone) in mk_condition x47 x48 x49) in Ok (OList [x40])) in set_clause CWhere q v) in validate_match q) (fun e => match e with InvalidMatchError => true | _ => false end) = true.
Proof. vm_compute. reflexivity. Qed.

(* test_required_column_validation.py, line 35: entity has no data model *)
Example t257_test_required_column_validation : passes (let! q := (let! x1 := (let! o := (let! x2 := (Ok (OStr ($"test"))) in let! x3 := (Ok ONone) in let! x4 := (Ok ONone) in let! x5 := (Ok ONone) in mk_entity x2 x3 x4 x5) in Ok (MObj o)) in let! x6 := (let! x7 := (let! x8 := (Ok (OStr ($"test1"))) in let! x9 := (Ok ONone) in mk_column x8 x9) in let! x10 := (let! x11 := (Ok (OStr ($"required1"))) in let! x12 := (Ok ONone) in mk_column x11 x12) in Ok (OList [x7; x10])) in let! x13 := (Ok ONone) in let! x14 := (Ok ONone) in let! x15 := (let! x16 := (let! x22 := (let! x17 := (Ok (OStr ($"test1"))) in let! x18 := (Ok ONone) in mk_column x17 x18) in let! x23 := (Ok (OOp IN)) in let! x24 := (let! x19 := (Ok (OInt (1))) in let! x20 := (Ok (OInt (2))) in let! x21 := (Ok (OInt (3))) in Ok (OList [x19; x20; x21])) in mk_condition x22 x23 x24) in Ok (OList [x16])) in let! x25 := (Ok ONone) in let! x26 := (Ok ONone) in let! x27 := (Ok ONone) in let! x28 := (Ok ONone) in let! x29 := (Ok ONone) in let! x30 := (Ok ONone) in let! x31 := (Ok ONone) in mk_query x1 (mkClauses x6 x13 x14 x15 x25 x26 x27 x28 x29 x30 x31)) in validate_required_columns q) = true.
Proof. vm_compute. reflexivity. Qed.

(* test_required_column_validation.py, line 41: query has no conditions *)
Example t258_test_required_column_validation : fails (let! q := (let! x1 := (let! o := (let! x2 := (Ok (OStr ($"test"))) in let! x3 := (Ok ONone) in let! x4 := (Ok ONone) in let! x5 := (Ok (ODataModel (mkDM [mkSC ($"test1") false; mkSC ($"test2") false; mkSC ($"required1") true; mkSC ($"required2") true; mkSC ($"time") false] (mkSC ($"time") false)))) in mk_entity x2 x3 x4 x5) in Ok (MObj o)) in let! x6 := (let! x7 := (let! x8 := (Ok (OStr ($"test1"))) in let! x9 := (Ok ONone) in mk_column x8 x9) in let! x10 := (let! x11 := (Ok (OStr ($"required1"))) in let! x12 := (Ok ONone) in mk_column x11 x12) in Ok (OList [x7; x10])) in let! x13 := (Ok ONone) in let! x14 := (Ok ONone) in let! x15 := (Ok (OList [])) in let! x16 := (Ok ONone) in let! x17 := (Ok ONone) in let! x18 := (Ok ONone) in let! x19 := (Ok ONone) in let! x20 := (Ok ONone) in let! x21 := (Ok ONone) in let! x22 := (Ok ONone) in mk_query x1 (mkClauses x6 x13 x14 x15 x16 x17 x18 x19 x20 x21 x22)) in validate_required_columns q) (fun e => match e with RequiredColumnError => true | _ => false end) = true.
Proof. vm_compute. reflexivity. Qed.

(* test_required_column_validation.py, line 47: all required columns *)
Example t259_test_required_column_validation : passes (let! q := (let! x1 := (let! o := (let! x2 := (Ok (OStr ($"test"))) in let! x3 := (Ok ONone) in let! x4 := (Ok ONone) in let! x5 := (Ok (ODataModel (mkDM [mkSC ($"test1") false; mkSC ($"test2") false; mkSC ($"required1") true; mkSC ($"required2") true; mkSC ($"time") false] (mkSC ($"time") false)))) in mk_entity x2 x3 x4 x5) in Ok (MObj o)) in let! x6 := (let! x7 := (let! x8 := (Ok (OStr ($"test1"))) in let! x9 := (Ok ONone) in mk_column x8 x9) in let! x10 := (let! x11 := (Ok (OStr ($"required1"))) in let! x12 := (Ok ONone) in mk_column x11 x12) in Ok (OList [x7; x10])) in let! x13 := (Ok ONone) in let! x14 := (Ok ONone) in let! x15 := (let! x16 := (let! x22 := (let! x17 := (Ok (OStr ($"required1"))) in let! x18 := (Ok ONone) in mk_column x17 x18) in let! x23 := (Ok (OOp IN)) in let! x24 := (let! x19 := (Ok (OInt (1))) in let! x20 := (Ok (OInt (2))) in let! x21 := (Ok (OInt (3))) in Ok (OList [x19; x20; x21])) in mk_condition x22 x23 x24) in let! x25 := (let! x28 := (let! x26 := (Ok (OStr ($"required2"))) in let! x27 := (Ok ONone) in mk_column x26 x27) in let! x29 := (Ok (OOp EQ)) in let! x30 := (Ok (OInt (1))) in mk_condition x28 x29 x30) in let! x31 := (let! x34 := (let! x32 := (Ok (OStr ($"time"))) in let! x33 := (Ok ONone) in mk_column x32 x33) in let! x35 := (Ok (OOp GTE)) in let! x36 := (Ok (ODateTime (mkDT (mkDate 2021 1 2) 3 4 5 5 (Some 0)))) in mk_condition x34 x35 x36) in let! x37 := (let! x40 := (let! x38 := (Ok (OStr ($"time"))) in let! x39 := (Ok ONone) in mk_column x38 x39) in let! x41 := (Ok (OOp LT)) in let! x42 := (Ok (ODateTime (mkDT (mkDate 2021 1 2) 3 4 5 6 (Some 0)))) in mk_condition x40 x41 x42) in Ok (OList [x16; x25; x31; x37])) in let! x43 := (Ok ONone) in let! x44 := (Ok ONone) in let! x45 := (Ok ONone) in let! x46 := (Ok ONone) in let! x47 := (Ok ONone) in let! x48 := (Ok ONone) in let! x49 := (Ok ONone) in mk_query x1 (mkClauses x6 x13 x14 x15 x43 x44 x45 x46 x47 x48 x49)) in validate_required_columns q) = true.
Proof. vm_compute. reflexivity. Qed.

(* test_required_column_validation.py, line 58: all required columns in nested And *)
Example t260_test_required_column_validation : passes (let! q := (let! x1 := (let! o := (let! x2 := (Ok (OStr ($"test"))) in let! x3 := (Ok ONone) in let! x4 := (Ok ONone) in let! x5 := (Ok (ODataModel (mkDM [mkSC ($"test1") false; mkSC ($"test2") false; mkSC ($"required1") true; mkSC ($"required2") true; mkSC ($"time") false] (mkSC ($"time") false)))) in mk_entity x2 x3 x4 x5) in Ok (MObj o)) in let! x6 := (let! x7 := (let! x8 := (Ok (OStr ($"test1"))) in let! x9 := (Ok ONone) in mk_column x8 x9) in let! x10 := (let! x11 := (Ok (OStr ($"required1"))) in let! x12 := (Ok ONone) in mk_column x11 x12) in Ok (OList [x7; x10])) in let! x13 := (Ok ONone) in let! x14 := (Ok ONone) in let! x15 := (let! x16 := (let! x32 := (let! x17 := (let! x23 := (let! x18 := (Ok (OStr ($"required1"))) in let! x19 := (Ok ONone) in mk_column x18 x19) in let! x24 := (Ok (OOp IN)) in let! x25 := (let! x20 := (Ok (OInt (1))) in let! x21 := (Ok (OInt (2))) in let! x22 := (Ok (OInt (3))) in Ok (OList [x20; x21; x22])) in mk_condition x23 x24 x25) in let! x26 := (let! x29 := (let! x27 := (Ok (OStr ($"required2"))) in let! x28 := (Ok ONone) in mk_column x27 x28) in let! x30 := (Ok (OOp EQ)) in let! x31 := (Ok (OInt (1))) in mk_condition x29 x30 x31) in Ok (OList [x17; x26])) in mk_and x32) in let! x33 := (let! x36 := (let! x34 := (Ok (OStr ($"time"))) in let! x35 := (Ok ONone) in mk_column x34 x35) in let! x37 := (Ok (OOp GTE)) in let! x38 := (Ok (ODateTime (mkDT (mkDate 2021 1 2) 3 4 5 5 (Some 0)))) in mk_condition x36 x37 x38) in let! x39 := (let! x42 := (let! x40 := (Ok (OStr ($"time"))) in let! x41 := (Ok ONone) in mk_column x40 x41) in let! x43 := (Ok (OOp LT)) in let! x44 := (Ok (ODateTime (mkDT (mkDate 2021 1 2) 3 4 5 6 (Some 0)))) in mk_condition x42 x43 x44) in Ok (OList [x16; x33; x39])) in let! x45 := (Ok ONone) in let! x46 := (Ok ONone) in let! x47 := (Ok ONone) in let! x48 := (Ok ONone) in let! x49 := (Ok ONone) in let! x50 := (Ok ONone) in let! x51 := (Ok ONone) in mk_query x1 (mkClauses x6 x13 x14 x15 x45 x46 x47 x48 x49 x50 x51)) in validate_required_columns q) = true.
Proof. vm_compute. reflexivity. Qed.

(* test_required_column_validation.py, line 73: missing required columns *)
Example t261_test_required_column_validation : fails (let! q := (let! x1 := (let! o := (let! x2 := (Ok (OStr ($"test"))) in let! x3 := (Ok ONone) in let! x4 := (Ok ONone) in let! x5 := (Ok (ODataModel (mkDM [mkSC ($"test1") false; mkSC ($"test2") false; mkSC ($"required1") true; mkSC ($"required2") true; mkSC ($"time") false] (mkSC ($"time") false)))) in mk_entity x2 x3 x4 x5) in Ok (MObj o)) in let! x6 := (let! x7 := (let! x8 := (Ok (OStr ($"test1"))) in let! x9 := (Ok ONone) in mk_column x8 x9) in let! x10 := (let! x11 := (Ok (OStr ($"required1"))) in let! x12 := (Ok ONone) in mk_column x11 x12) in Ok (OList [x7; x10])) in let! x13 := (Ok ONone) in let! x14 := (Ok ONone) in let! x15 := (let! x16 := (let! x19 := (let! x17 := (Ok (OStr ($"required2"))) in let! x18 := (Ok ONone) in mk_column x17 x18) in let! x20 := (Ok (OOp EQ)) in let! x21 := (Ok (OInt (1))) in mk_condition x19 x20 x21) in let! x22 := (let! x25 := (let! x23 := (Ok (OStr ($"time"))) in let! x24 := (Ok ONone) in mk_column x23 x24) in let! x26 := (Ok (OOp GTE)) in let! x27 := (Ok (ODateTime (mkDT (mkDate 2021 1 2) 3 4 5 5 (Some 0)))) in mk_condition x25 x26 x27) in let! x28 := (let! x31 := (let! x29 := (Ok (OStr ($"time"))) in let! x30 := (Ok ONone) in mk_column x29 x30) in let! x32 := (Ok (OOp LT)) in let! x33 := (Ok (ODateTime (mkDT (mkDate 2021 1 2) 3 4 5 6 (Some 0)))) in mk_condition x31 x32 x33) in Ok (OList [x16; x22; x28])) in let! x34 := (Ok ONone) in let! x35 := (Ok ONone) in let! x36 := (Ok ONone) in let! x37 := (Ok ONone) in let! x38 := (Ok ONone) in let! x39 := (Ok ONone) in let! x40 := (Ok ONone) in mk_query x1 (mkClauses x6 x13 x14 x15 x34 x35 x36 x37 x38 x39 x40)) in validate_required_columns q) (fun e => match e with RequiredColumnError => true | _ => false end) = true.
Proof. vm_compute. reflexivity. Qed.

(* test_required_column_validation.py, line 85: all required columns in OR *)
Example t262_test_required_column_validation : fails (let! q := (let! x1 := (let! o := (let! x2 := (Ok (OStr ($"test"))) in let! x3 := (Ok ONone) in let! x4 := (Ok ONone) in let! x5 := (Ok (ODataModel (mkDM [mkSC ($"test1") false; mkSC ($"test2") false; mkSC ($"required1") true; mkSC ($"required2") true; mkSC ($"time") false] (mkSC ($"time") false)))) in mk_entity x2 x3 x4 x5) in Ok (MObj o)) in let! x6 := (let! x7 := (let! x8 := (Ok (OStr ($"test1"))) in let! x9 := (Ok ONone) in mk_column x8 x9) in let! x10 := (let! x11 := (Ok (OStr ($"required1"))) in let! x12 := (Ok ONone) in mk_column x11 x12) in Ok (OList [x7; x10])) in let! x13 := (Ok ONone) in let! x14 := (Ok ONone) in let! x15 := (let! x16 := (let! x32 := (let! x17 := (let! x23 := (let! x18 := (Ok (OStr ($"required1"))) in let! x19 := (Ok ONone) in mk_column x18 x19) in let! x24 := (Ok (OOp IN)) in let! x25 := (let! x20 := (Ok (OInt (1))) in let! x21 := (Ok (OInt (2))) in let! x22 := (Ok (OInt (3))) in Ok (OList [x20; x21; x22])) in mk_condition x23 x24 x25) in let! x26 := (let! x29 := (let! x27 := (Ok (OStr ($"required2"))) in let! x28 := (Ok ONone) in mk_column x27 x28) in let! x30 := (Ok (OOp EQ)) in let! x31 := (Ok (OInt (1))) in mk_condition x29 x30 x31) in Ok (OList [x17; x26])) in mk_or x32) in let! x33 := (let! x36 := (let! x34 := (Ok (OStr ($"time"))) in let! x35 := (Ok ONone) in mk_column x34 x35) in let! x37 := (Ok (OOp GTE)) in let! x38 := (Ok (ODateTime (mkDT (mkDate 2021 1 2) 3 4 5 5 (Some 0)))) in mk_condition x36 x37 x38) in let! x39 := (let! x42 := (let! x40 := (Ok (OStr ($"time"))) in let! x41 := (Ok ONone) in mk_column x40 x41) in let! x43 := (Ok (OOp LT)) in let! x44 := (Ok (ODateTime (mkDT (mkDate 2021 1 2) 3 4 5 6 (Some 0)))) in mk_condition x42 x43 x44) in Ok (OList [x16; x33; x39])) in let! x45 := (Ok ONone) in let! x46 := (Ok ONone) in let! x47 := (Ok ONone) in let! x48 := (Ok ONone) in let! x49 := (Ok ONone) in let! x50 := (Ok ONone) in let! x51 := (Ok ONone) in mk_query x1 (mkClauses x6 x13 x14 x15 x45 x46 x47 x48 x49 x50 x51)) in validate_required_columns q) (fun e => match e with RequiredColumnError => true | _ => false end) = true.
Proof. vm_compute. reflexivity. Qed.

(* test_required_column_validation.py, line 102: wrong ops *)
Example t263_test_required_column_validation : fails (let! q := (let! x1 := (let! o := (let! x2 := (Ok (OStr ($"test"))) in let! x3 := (Ok ONone) in let! x4 := (Ok ONone) in let! x5 := (Ok (ODataModel (mkDM [mkSC ($"test1") false; mkSC ($"test2") false; mkSC ($"required1") true; mkSC ($"required2") true; mkSC ($"time") false] (mkSC ($"time") false)))) in mk_entity x2 x3 x4 x5) in Ok (MObj o)) in let! x6 := (let! x7 := (let! x8 := (Ok (OStr ($"test1"))) in let! x9 := (Ok ONone) in mk_column x8 x9) in let! x10 := (let! x11 := (Ok (OStr ($"required1"))) in let! x12 := (Ok ONone) in mk_column x11 x12) in Ok (OList [x7; x10])) in let! x13 := (Ok ONone) in let! x14 := (Ok ONone) in let! x15 := (let! x16 := (let! x22 := (let! x17 := (Ok (OStr ($"required1"))) in let! x18 := (Ok ONone) in mk_column x17 x18) in let! x23 := (Ok (OOp NOT_IN)) in let! x24 := (let! x19 := (Ok (OInt (1))) in let! x20 := (Ok (OInt (2))) in let! x21 := (Ok (OInt (3))) in Ok (OList [x19; x20; x21])) in mk_condition x22 x23 x24) in let! x25 := (let! x28 := (let! x26 := (Ok (OStr ($"required2"))) in let! x27 := (Ok ONone) in mk_column x26 x27) in let! x29 := (Ok (OOp EQ)) in let! x30 := (Ok (OInt (1))) in mk_condition x28 x29 x30) in let! x31 := (let! x34 := (let! x32 := (Ok (OStr ($"time"))) in let! x33 := (Ok ONone) in mk_column x32 x33) in let! x35 := (Ok (OOp GTE)) in let! x36 := (Ok (ODateTime (mkDT (mkDate 2021 1 2) 3 4 5 5 (Some 0)))) in mk_condition x34 x35 x36) in let! x37 := (let! x40 := (let! x38 := (Ok (OStr ($"time"))) in let! x39 := (Ok ONone) in mk_column x38 x39) in let! x41 := (Ok (OOp LT)) in let! x42 := (Ok (ODateTime (mkDT (mkDate 2021 1 2) 3 4 5 6 (Some 0)))) in mk_condition x40 x41 x42) in Ok (OList [x16; x25; x31; x37])) in let! x43 := (Ok ONone) in let! x44 := (Ok ONone) in let! x45 := (Ok ONone) in let! x46 := (Ok ONone) in let! x47 := (Ok ONone) in let! x48 := (Ok ONone) in let! x49 := (Ok ONone) in mk_query x1 (mkClauses x6 x13 x14 x15 x43 x44 x45 x46 x47 x48 x49)) in validate_required_columns q) (fun e => match e with RequiredColumnError => true | _ => false end) = true.
Proof. vm_compute. reflexivity. Qed.

(* test_required_column_validation.py, line 115: missing time op *)
Example t264_test_required_column_validation : fails (let! q := (let! x1 := (let! o := (let! x2 := (Ok (OStr ($"test"))) in let! x3 := (Ok ONone) in let! x4 := (Ok ONone) in let! x5 := (Ok (ODataModel (mkDM [mkSC ($"test1") false; mkSC ($"test2") false; mkSC ($"required1") true; mkSC ($"required2") true; mkSC ($"time") false] (mkSC ($"time") false)))) in mk_entity x2 x3 x4 x5) in Ok (MObj o)) in let! x6 := (let! x7 := (let! x8 := (Ok (OStr ($"test1"))) in let! x9 := (Ok ONone) in mk_column x8 x9) in let! x10 := (let! x11 := (Ok (OStr ($"required1"))) in let! x12 := (Ok ONone) in mk_column x11 x12) in Ok (OList [x7; x10])) in let! x13 := (Ok ONone) in let! x14 := (Ok ONone) in let! x15 := (let! x16 := (let! x22 := (let! x17 := (Ok (OStr ($"required1"))) in let! x18 := (Ok ONone) in mk_column x17 x18) in let! x23 := (Ok (OOp IN)) in let! x24 := (let! x19 := (Ok (OInt (1))) in let! x20 := (Ok (OInt (2))) in let! x21 := (Ok (OInt (3))) in Ok (OList [x19; x20; x21])) in mk_condition x22 x23 x24) in let! x25 := (let! x28 := (let! x26 := (Ok (OStr ($"required2"))) in let! x27 := (Ok ONone) in mk_column x26 x27) in let! x29 := (Ok (OOp EQ)) in let! x30 := (Ok (OInt (1))) in mk_condition x28 x29 x30) in let! x31 := (let! x34 := (let! x32 := (Ok (OStr ($"time"))) in let! x33 := (Ok ONone) in mk_column x32 x33) in let! x35 := (Ok (OOp GTE)) in let! x36 := (Ok (ODateTime (mkDT (mkDate 2021 1 2) 3 4 5 5 (Some 0)))) in mk_condition x34 x35 x36) in Ok (OList [x16; x25; x31])) in let! x37 := (Ok ONone) in let! x38 := (Ok ONone) in let! x39 := (Ok ONone) in let! x40 := (Ok ONone) in let! x41 := (Ok ONone) in let! x42 := (Ok ONone) in let! x43 := (Ok ONone) in mk_query x1 (mkClauses x6 x13 x14 x15 x37 x38 x39 x40 x41 x42 x43)) in validate_required_columns q) (fun e => match e with RequiredColumnError => true | _ => false end) = true.
Proof. vm_compute. reflexivity. Qed.

(* test_required_column_validation.py, line 127: wrong time op *)
Example t265_test_required_column_validation : fails (let! q := (let! x1 := (let! o := (let! x2 := (Ok (OStr ($"test"))) in let! x3 := (Ok ONone) in let! x4 := (Ok ONone) in let! x5 := (Ok (ODataModel (mkDM [mkSC ($"test1") false; mkSC ($"test2") false; mkSC ($"required1") true; mkSC ($"required2") true; mkSC ($"time") false] (mkSC ($"time") false)))) in mk_entity x2 x3 x4 x5) in Ok (MObj o)) in let! x6 := (let! x7 := (let! x8 := (Ok (OStr ($"test1"))) in let! x9 := (Ok ONone) in mk_column x8 x9) in let! x10 := (let! x11 := (Ok (OStr ($"required1"))) in let! x12 := (Ok ONone) in mk_column x11 x12) in Ok (OList [x7; x10])) in let! x13 := (Ok ONone) in let! x14 := (Ok ONone) in let! x15 := (let! x16 := (let! x22 := (let! x17 := (Ok (OStr ($"required1"))) in let! x18 := (Ok ONone) in mk_column x17 x18) in let! x23 := (Ok (OOp IN)) in let! x24 := (let! x19 := (Ok (OInt (1))) in let! x20 := (Ok (OInt (2))) in let! x21 := (Ok (OInt (3))) in Ok (OList [x19; x20; x21])) in mk_condition x22 x23 x24) in let! x25 := (let! x28 := (let! x26 := (Ok (OStr ($"required2"))) in let! x27 := (Ok ONone) in mk_column x26 x27) in let! x29 := (Ok (OOp EQ)) in let! x30 := (Ok (OInt (1))) in mk_condition x28 x29 x30) in let! x31 := (let! x34 := (let! x32 := (Ok (OStr ($"time"))) in let! x33 := (Ok ONone) in mk_column x32 x33) in let! x35 := (Ok (OOp GTE)) in let! x36 := (Ok (ODateTime (mkDT (mkDate 2021 1 2) 3 4 5 5 (Some 0)))) in mk_condition x34 x35 x36) in let! x37 := (let! x40 := (let! x38 := (Ok (OStr ($"time"))) in let! x39 := (Ok ONone) in mk_column x38 x39) in let! x41 := (Ok (OOp LTE)) in let! x42 := (Ok (ODateTime (mkDT (mkDate 2021 1 2) 3 4 5 6 (Some 0)))) in mk_condition x40 x41 x42) in Ok (OList [x16; x25; x31; x37])) in let! x43 := (Ok ONone) in let! x44 := (Ok ONone) in let! x45 := (Ok ONone) in let! x46 := (Ok ONone) in let! x47 := (Ok ONone) in let! x48 := (Ok ONone) in let! x49 := (Ok ONone) in mk_query x1 (mkClauses x6 x13 x14 x15 x43 x44 x45 x46 x47 x48 x49)) in validate_required_columns q) (fun e => match e with RequiredColumnError => true | _ => false end) = true.
Proof. vm_compute. reflexivity. Qed.

(* test_required_column_validation.py, line 161: entities have no data model *)
Example t266_test_required_column_validation : passes (let! q := (let! x1 := (let! o := (let! x14 := (let! x2 := (let! x11 := (let! x3 := (Ok (OStr ($"test_a"))) in let! x4 := (Ok (OStr ($"ta"))) in let! x5 := (Ok ONone) in let! x6 := (Ok ONone) in mk_entity x3 x4 x5 x6) in let! x12 := (Ok (OStr ($"has"))) in let! x13 := (let! x7 := (Ok (OStr ($"test_b"))) in let! x8 := (Ok (OStr ($"tb"))) in let! x9 := (Ok ONone) in let! x10 := (Ok (ODataModel (mkDM [mkSC ($"test1") false; mkSC ($"test2") false; mkSC ($"required1") true; mkSC ($"required2") true; mkSC ($"time") false] (mkSC ($"time") false)))) in mk_entity x7 x8 x9 x10) in mk_relationship x11 x12 x13) in Ok (OList [x2])) in mk_join x14) in Ok (MObj o)) in let! x15 := (let! x16 := (let! x21 := (Ok (OStr ($"test1"))) in let! x22 := (let! x17 := (Ok (OStr ($"test_a"))) in let! x18 := (Ok (OStr ($"ta"))) in let! x19 := (Ok ONone) in let! x20 := (Ok ONone) in mk_entity x17 x18 x19 x20) in mk_column x21 x22) in let! x23 := (let! x28 := (Ok (OStr ($"required1"))) in let! x29 := (let! x24 := (Ok (OStr ($"test_b"))) in let! x25 := (Ok (OStr ($"tb"))) in let! x26 := (Ok ONone) in let! x27 := (Ok (ODataModel (mkDM [mkSC ($"test1") false; mkSC ($"test2") false; mkSC ($"required1") true; mkSC ($"required2") true; mkSC ($"time") false] (mkSC ($"time") false)))) in mk_entity x24 x25 x26 x27) in mk_column x28 x29) in Ok (OList [x16; x23])) in let! x30 := (Ok ONone) in let! x31 := (Ok ONone) in let! x32 := (let! x33 := (let! x43 := (let! x38 := (Ok (OStr ($"required1"))) in let! x39 := (let! x34 := (Ok (OStr ($"test_b"))) in let! x35 := (Ok (OStr ($"tb"))) in let! x36 := (Ok ONone) in let! x37 := (Ok (ODataModel (mkDM [mkSC ($"test1") false; mkSC ($"test2") false; mkSC ($"required1") true; mkSC ($"required2") true; mkSC ($"time") false] (mkSC ($"time") false)))) in mk_entity x34 x35 x36 x37) in mk_column x38 x39) in let! x44 := (Ok (OOp IN)) in let! x45 := (let! x40 := (Ok (OInt (1))) in let! x41 := (Ok (OInt (2))) in let! x42 := (Ok (OInt (3))) in Ok (OList [x40; x41; x42])) in mk_condition x43 x44 x45) in let! x46 := (let! x53 := (let! x51 := (Ok (OStr ($"required2"))) in let! x52 := (let! x47 := (Ok (OStr ($"test_b"))) in let! x48 := (Ok (OStr ($"tb"))) in let! x49 := (Ok ONone) in let! x50 := (Ok (ODataModel (mkDM [mkSC ($"test1") false; mkSC ($"test2") false; mkSC ($"required1") true; mkSC ($"required2") true; mkSC ($"time") false] (mkSC ($"time") false)))) in mk_entity x47 x48 x49 x50) in mk_column x51 x52) in let! x54 := (Ok (OOp EQ)) in let! x55 := (Ok (OInt (1))) in mk_condition x53 x54 x55) in let! x56 := (let! x63 := (let! x61 := (Ok (OStr ($"time"))) in let! x62 := (let! x57 := (Ok (OStr ($"test_b"))) in let! x58 := (Ok (OStr ($"tb"))) in let! x59 := (Ok ONone) in let! x60 := (Ok (ODataModel (mkDM [mkSC ($"test1") false; mkSC ($"test2") false; mkSC ($"required1") true; mkSC ($"required2") true; mkSC ($"time") false] (mkSC ($"time") false)))) in mk_entity x57 x58 x59 x60) in mk_column x61 x62) in let! x64 := (Ok (OOp GTE)) in let! x65 := (Ok (ODateTime (mkDT (mkDate 2021 1 2) 3 4 5 5 (Some 0)))) in mk_condition x63 x64 x65) in let! x66 := (let! x73 := (let! x71 := (Ok (OStr ($"time"))) in let! x72 := (let! x67 := (Ok (OStr ($"test_b"))) in let! x68 := (Ok (OStr ($"tb"))) in let! x69 := (Ok ONone) in let! x70 := (Ok (ODataModel (mkDM [mkSC ($"test1") false; mkSC ($"test2") false; mkSC ($"required1") true; mkSC ($"required2") true; mkSC ($"time") false] (mkSC ($"time") false)))) in mk_entity x67 x68 x69 x70) in mk_column x71 x72) in let! x74 := (Ok (OOp LT)) in let! x75 := (Ok (ODateTime (mkDT (mkDate 2021 1 2) 3 4 5 6 (Some 0)))) in mk_condition x73 x74 x75) in let! x76 := (let! x86 := (let! x81 := (Ok (OStr ($"test1"))) in let! x82 := (let! x77 := (Ok (OStr ($"test_a"))) in let! x78 := (Ok (OStr ($"ta"))) in let! x79 := (Ok ONone) in let! x80 := (Ok ONone) in mk_entity x77 x78 x79 x80) in mk_column x81 x82) in let! x87 := (Ok (OOp IN)) in let! x88 := (let! x83 := (Ok (OInt (1))) in let! x84 := (Ok (OInt (2))) in let! x85 := (Ok (OInt (3))) in Ok (OList [x83; x84; x85])) in mk_condition x86 x87 x88) in Ok (OList [x33; x46; x56; x66; x76])) in let! x89 := (Ok ONone) in let! x90 := (Ok ONone) in let! x91 := (Ok ONone) in let! x92 := (Ok ONone) in let! x93 := (Ok ONone) in let! x94 := (Ok ONone) in let! x95 := (Ok ONone) in mk_query x1 (mkClauses x15 x30 x31 x32 x89 x90 x91 x92 x93 x94 x95)) in validate_required_columns q) = true.
Proof. vm_compute. reflexivity. Qed.

(* test_required_column_validation.py, line 167: one entity has no conditions *)
Example t267_test_required_column_validation : fails (let! q := (let! x1 := (let! o := (let! x14 := (let! x2 := (let! x11 := (let! x3 := (Ok (OStr ($"test_a"))) in let! x4 := (Ok (OStr ($"ta"))) in let! x5 := (Ok ONone) in let! x6 := (Ok (ODataModel (mkDM [mkSC ($"test1") false; mkSC ($"test2") false; mkSC ($"required1") true; mkSC ($"required2") true; mkSC ($"time") false] (mkSC ($"time") false)))) in mk_entity x3 x4 x5 x6) in let! x12 := (Ok (OStr ($"has"))) in let! x13 := (let! x7 := (Ok (OStr ($"test_b"))) in let! x8 := (Ok (OStr ($"tb"))) in let! x9 := (Ok ONone) in let! x10 := (Ok (ODataModel (mkDM [mkSC ($"test1") false; mkSC ($"test2") false; mkSC ($"required1") true; mkSC ($"required2") true; mkSC ($"time") false] (mkSC ($"time") false)))) in mk_entity x7 x8 x9 x10) in mk_relationship x11 x12 x13) in Ok (OList [x2])) in mk_join x14) in Ok (MObj o)) in let! x15 := (let! x16 := (let! x21 := (Ok (OStr ($"test1"))) in let! x22 := (let! x17 := (Ok (OStr ($"test_a"))) in let! x18 := (Ok (OStr ($"ta"))) in let! x19 := (Ok ONone) in let! x20 := (Ok (ODataModel (mkDM [mkSC ($"test1") false; mkSC ($"test2") false; mkSC ($"required1") true; mkSC ($"required2") true; mkSC ($"time") false] (mkSC ($"time") false)))) in mk_entity x17 x18 x19 x20) in mk_column x21 x22) in let! x23 := (let! x28 := (Ok (OStr ($"required1"))) in let! x29 := (let! x24 := (Ok (OStr ($"test_b"))) in let! x25 := (Ok (OStr ($"tb"))) in let! x26 := (Ok ONone) in let! x27 := (Ok (ODataModel (mkDM [mkSC ($"test1") false; mkSC ($"test2") false; mkSC ($"required1") true; mkSC ($"required2") true; mkSC ($"time") false] (mkSC ($"time") false)))) in mk_entity x24 x25 x26 x27) in mk_column x28 x29) in Ok (OList [x16; x23])) in let! x30 := (Ok ONone) in let! x31 := (Ok ONone) in let! x32 := (let! x33 := (let! x43 := (let! x38 := (Ok (OStr ($"required1"))) in let! x39 := (let! x34 := (Ok (OStr ($"test_b"))) in let! x35 := (Ok (OStr ($"tb"))) in let! x36 := (Ok ONone) in let! x37 := (Ok (ODataModel (mkDM [mkSC ($"test1") false; mkSC ($"test2") false; mkSC ($"required1") true; mkSC ($"required2") true; mkSC ($"time") false] (mkSC ($"time") false)))) in mk_entity x34 x35 x36 x37) in mk_column x38 x39) in let! x44 := (Ok (OOp IN)) in let! x45 := (let! x40 := (Ok (OInt (1))) in let! x41 := (Ok (OInt (2))) in let! x42 := (Ok (OInt (3))) in Ok (OList [x40; x41; x42])) in mk_condition x43 x44 x45) in let! x46 := (let! x53 := (let! x51 := (Ok (OStr ($"required2"))) in let! x52 := (let! x47 := (Ok (OStr ($"test_b"))) in let! x48 := (Ok (OStr ($"tb"))) in let! x49 := (Ok ONone) in let! x50 := (Ok (ODataModel (mkDM [mkSC ($"test1") false; mkSC ($"test2") false; mkSC ($"required1") true; mkSC ($"required2") true; mkSC ($"time") false] (mkSC ($"time") false)))) in mk_entity x47 x48 x49 x50) in mk_column x51 x52) in let! x54 := (Ok (OOp EQ)) in let! x55 := (Ok (OInt (1))) in mk_condition x53 x54 x55) in let! x56 := (let! x63 := (let! x61 := (Ok (OStr ($"time"))) in let! x62 := (let! x57 := (Ok (OStr ($"test_b"))) in let! x58 := (Ok (OStr ($"tb"))) in let! x59 := (Ok ONone) in let! x60 := (Ok (ODataModel (mkDM [mkSC ($"test1") false; mkSC ($"test2") false; mkSC ($"required1") true; mkSC ($"required2") true; mkSC ($"time") false] (mkSC ($"time") false)))) in mk_entity x57 x58 x59 x60) in mk_column x61 x62) in let! x64 := (Ok (OOp GTE)) in let! x65 := (Ok (ODateTime (mkDT (mkDate 2021 1 2) 3 4 5 5 (Some 0)))) in mk_condition x63 x64 x65) in let! x66 := (let! x73 := (let! x71 := (Ok (OStr ($"time"))) in let! x72 := (let! x67 := (Ok (OStr ($"test_b"))) in let! x68 := (Ok (OStr ($"tb"))) in let! x69 := (Ok ONone) in let! x70 := (Ok (ODataModel (mkDM [mkSC ($"test1") false; mkSC ($"test2") false; mkSC ($"required1") true; mkSC ($"required2") true; mkSC ($"time") false] (mkSC ($"time") false)))) in mk_entity x67 x68 x69 x70) in mk_column x71 x72) in let! x74 := (Ok (OOp LT)) in let! x75 := (Ok (ODateTime (mkDT (mkDate 2021 1 2) 3 4 5 6 (Some 0)))) in mk_condition x73 x74 x75) in Ok (OList [x33; x46; x56; x66])) in let! x76 := (Ok ONone) in let! x77 := (Ok ONone) in let! x78 := (Ok ONone) in let! x79 := (Ok ONone) in let! x80 := (Ok ONone) in let! x81 := (Ok ONone) in let! x82 := (Ok ONone) in mk_query x1 (mkClauses x15 x30 x31 x32 x76 x77 x78 x79 x80 x81 x82)) in validate_required_columns q) (fun e => match e with RequiredColumnError => true | _ => false end) = true.
Proof. vm_compute. reflexivity. Qed.

(* test_required_column_validation.py, line 175: all required columns *)
Example t268_test_required_column_validation : passes (let! q := (let! x1 := (let! o := (let! x14 := (let! x2 := (let! x11 := (let! x3 := (Ok (OStr ($"test_a"))) in let! x4 := (Ok (OStr ($"ta"))) in let! x5 := (Ok ONone) in let! x6 := (Ok (ODataModel (mkDM [mkSC ($"test1") false; mkSC ($"test2") false; mkSC ($"required1") true; mkSC ($"required2") true; mkSC ($"time") false] (mkSC ($"time") false)))) in mk_entity x3 x4 x5 x6) in let! x12 := (Ok (OStr ($"has"))) in let! x13 := (let! x7 := (Ok (OStr ($"test_b"))) in let! x8 := (Ok (OStr ($"tb"))) in let! x9 := (Ok ONone) in let! x10 := (Ok (ODataModel (mkDM [mkSC ($"test1") false; mkSC ($"test2") false; mkSC ($"required1") true; mkSC ($"required2") true; mkSC ($"time") false] (mkSC ($"time") false)))) in mk_entity x7 x8 x9 x10) in mk_relationship x11 x12 x13) in Ok (OList [x2])) in mk_join x14) in Ok (MObj o)) in let! x15 := (let! x16 := (let! x21 := (Ok (OStr ($"test1"))) in let! x22 := (let! x17 := (Ok (OStr ($"test_a"))) in let! x18 := (Ok (OStr ($"ta"))) in let! x19 := (Ok ONone) in let! x20 := (Ok (ODataModel (mkDM [mkSC ($"test1") false; mkSC ($"test2") false; mkSC ($"required1") true; mkSC ($"required2") true; mkSC ($"time") false] (mkSC ($"time") false)))) in mk_entity x17 x18 x19 x20) in mk_column x21 x22) in let! x23 := (let! x28 := (Ok (OStr ($"required1"))) in let! x29 := (let! x24 := (Ok (OStr ($"test_b"))) in let! x25 := (Ok (OStr ($"tb"))) in let! x26 := (Ok ONone) in let! x27 := (Ok (ODataModel (mkDM [mkSC ($"test1") false; mkSC ($"test2") false; mkSC ($"required1") true; mkSC ($"required2") true; mkSC ($"time") false] (mkSC ($"time") false)))) in mk_entity x24 x25 x26 x27) in mk_column x28 x29) in Ok (OList [x16; x23])) in let! x30 := (Ok ONone) in let! x31 := (Ok ONone) in let! x32 := (let! x33 := (let! x43 := (let! x38 := (Ok (OStr ($"required1"))) in let! x39 := (let! x34 := (Ok (OStr ($"test_b"))) in let! x35 := (Ok (OStr ($"tb"))) in let! x36 := (Ok ONone) in let! x37 := (Ok (ODataModel (mkDM [mkSC ($"test1") false; mkSC ($"test2") false; mkSC ($"required1") true; mkSC ($"required2") true; mkSC ($"time") false] (mkSC ($"time") false)))) in mk_entity x34 x35 x36 x37) in mk_column x38 x39) in let! x44 := (Ok (OOp IN)) in let! x45 := (let! x40 := (Ok (OInt (1))) in let! x41 := (Ok (OInt (2))) in let! x42 := (Ok (OInt (3))) in Ok (OList [x40; x41; x42])) in mk_condition x43 x44 x45) in let! x46 := (let! x53 := (let! x51 := (Ok (OStr ($"required2"))) in let! x52 := (let! x47 := (Ok (OStr ($"test_b"))) in let! x48 := (Ok (OStr ($"tb"))) in let! x49 := (Ok ONone) in let! x50 := (Ok (ODataModel (mkDM [mkSC ($"test1") false; mkSC ($"test2") false; mkSC ($"required1") true; mkSC ($"required2") true; mkSC ($"time") false] (mkSC ($"time") false)))) in mk_entity x47 x48 x49 x50) in mk_column x51 x52) in let! x54 := (Ok (OOp EQ)) in let! x55 := (Ok (OInt (1))) in mk_condition x53 x54 x55) in let! x56 := (let! x63 := (let! x61 := (Ok (OStr ($"time"))) in let! x62 := (let! x57 := (Ok (OStr ($"test_b"))) in let! x58 := (Ok (OStr ($"tb"))) in let! x59 := (Ok ONone) in let! x60 := (Ok (ODataModel (mkDM [mkSC ($"test1") false; mkSC ($"test2") false; mkSC ($"required1") true; mkSC ($"required2") true; mkSC ($"time") false] (mkSC ($"time") false)))) in mk_entity x57 x58 x59 x60) in mk_column x61 x62) in let! x64 := (Ok (OOp GTE)) in let! x65 := (Ok (ODateTime (mkDT (mkDate 2021 1 2) 3 4 5 5 (Some 0)))) in mk_condition x63 x64 x65) in let! x66 := (let! x73 := (let! x71 := (Ok (OStr ($"time"))) in let! x72 := (let! x67 := (Ok (OStr ($"test_b"))) in let! x68 := (Ok (OStr ($"tb"))) in let! x69 := (Ok ONone) in let! x70 := (Ok (ODataModel (mkDM [mkSC ($"test1") false; mkSC ($"test2") false; mkSC ($"required1") true; mkSC ($"required2") true; mkSC ($"time") false] (mkSC ($"time") false)))) in mk_entity x67 x68 x69 x70) in mk_column x71 x72) in let! x74 := (Ok (OOp LT)) in let! x75 := (Ok (ODateTime (mkDT (mkDate 2021 1 2) 3 4 5 6 (Some 0)))) in mk_condition x73 x74 x75) in let! x76 := (let! x86 := (let! x81 := (Ok (OStr ($"required1"))) in let! x82 := (let! x77 := (Ok (OStr ($"test_a"))) in let! x78 := (Ok (OStr ($"ta"))) in let! x79 := (Ok ONone) in let! x80 := (Ok (ODataModel (mkDM [mkSC ($"test1") false; mkSC ($"test2") false; mkSC ($"required1") true; mkSC ($"required2") true; mkSC ($"time") false] (mkSC ($"time") false)))) in mk_entity x77 x78 x79 x80) in mk_column x81 x82) in let! x87 := (Ok (OOp IN)) in let! x88 := (let! x83 := (Ok (OInt (1))) in let! x84 := (Ok (OInt (2))) in let! x85 := (Ok (OInt (3))) in Ok (OList [x83; x84; x85])) in mk_condition x86 x87 x88) in let! x89 := (let! x96 := (let! x94 := (Ok (OStr ($"required2"))) in let! x95 := (let! x90 := (Ok (OStr ($"test_a"))) in let! x91 := (Ok (OStr ($"ta"))) in let! x92 := (Ok ONone) in let! x93 := (Ok (ODataModel (mkDM [mkSC ($"test1") false; mkSC ($"test2") false; mkSC ($"required1") true; mkSC ($"required2") true; mkSC ($"time") false] (mkSC ($"time") false)))) in mk_entity x90 x91 x92 x93) in mk_column x94 x95) in let! x97 := (Ok (OOp EQ)) in let! x98 := (Ok (OInt (1))) in mk_condition x96 x97 x98) in let! x99 := (let! x106 := (let! x104 := (Ok (OStr ($"time"))) in let! x105 := (let! x100 := (Ok (OStr ($"test_a"))) in let! x101 := (Ok (OStr ($"ta"))) in let! x102 := (Ok ONone) in let! x103 := (Ok (ODataModel (mkDM [mkSC ($"test1") false; mkSC ($"test2") false; mkSC ($"required1") true; mkSC ($"required2") true; mkSC ($"time") false] (mkSC ($"time") false)))) in mk_entity x100 x101 x102 x103) in mk_column x104 x105) in let! x107 := (Ok (OOp GTE)) in let! x108 := (Ok (ODateTime (mkDT (mkDate 2021 1 2) 3 4 5 5 (Some 0)))) in mk_condition x106 x107 x108) in let! x109 := (let! x116 := (let! x114 := (Ok (OStr ($"time"))) in let! x115 := (let! x110 := (Ok (OStr ($"test_a"))) in let! x111 := (Ok (OStr ($"ta"))) in let! x112 := (Ok ONone) in let! x113 := (Ok (ODataModel (mkDM [mkSC ($"test1") false; mkSC ($"test2") false; mkSC ($"required1") true; mkSC ($"required2") true; mkSC ($"time") false] (mkSC ($"time") false)))) in mk_entity x110 x111 x112 x113) in mk_column x114 x115) in let! x117 := (Ok (OOp LT)) in let! x118 := (Ok (ODateTime (mkDT (mkDate 2021 1 2) 3 4 5 6 (Some 0)))) in mk_condition x116 x117 x118) in Ok (OList [x33; x46; x56; x66; x76; x89; x99; x109])) in let! x119 := (Ok ONone) in let! x120 := (Ok ONone) in let! x121 := (Ok ONone) in let! x122 := (Ok ONone) in let! x123 := (Ok ONone) in let! x124 := (Ok ONone) in let! x125 := (Ok ONone) in mk_query x1 (mkClauses x15 x30 x31 x32 x119 x120 x121 x122 x123 x124 x125)) in validate_required_columns q) = true.
Proof. vm_compute. reflexivity. Qed.

(* test_required_column_validation.py, line 186: all required columns in nested And *)
Example t269_test_required_column_validation : passes (let! q := (let! x1 := (let! o := (let! x14 := (let! x2 := (let! x11 := (let! x3 := (Ok (OStr ($"test_a"))) in let! x4 := (Ok (OStr ($"ta"))) in let! x5 := (Ok ONone) in let! x6 := (Ok (ODataModel (mkDM [mkSC ($"test1") false; mkSC ($"test2") false; mkSC ($"required1") true; mkSC ($"required2") true; mkSC ($"time") false] (mkSC ($"time") false)))) in mk_entity x3 x4 x5 x6) in let! x12 := (Ok (OStr ($"has"))) in let! x13 := (let! x7 := (Ok (OStr ($"test_b"))) in let! x8 := (Ok (OStr ($"tb"))) in let! x9 := (Ok ONone) in let! x10 := (Ok (ODataModel (mkDM [mkSC ($"test1") false; mkSC ($"test2") false; mkSC ($"required1") true; mkSC ($"required2") true; mkSC ($"time") false] (mkSC ($"time") false)))) in mk_entity x7 x8 x9 x10) in mk_relationship x11 x12 x13) in Ok (OList [x2])) in mk_join x14) in Ok (MObj o)) in let! x15 := (let! x16 := (let! x21 := (Ok (OStr ($"test1"))) in let! x22 := (let! x17 := (Ok (OStr ($"test_a"))) in let! x18 := (Ok (OStr ($"ta"))) in let! x19 := (Ok ONone) in let! x20 := (Ok (ODataModel (mkDM [mkSC ($"test1") false; mkSC ($"test2") false; mkSC ($"required1") true; mkSC ($"required2") true; mkSC ($"time") false] (mkSC ($"time") false)))) in mk_entity x17 x18 x19 x20) in mk_column x21 x22) in let! x23 := (let! x28 := (Ok (OStr ($"required1"))) in let! x29 := (let! x24 := (Ok (OStr ($"test_b"))) in let! x25 := (Ok (OStr ($"tb"))) in let! x26 := (Ok ONone) in let! x27 := (Ok (ODataModel (mkDM [mkSC ($"test1") false; mkSC ($"test2") false; mkSC ($"required1") true; mkSC ($"required2") true; mkSC ($"time") false] (mkSC ($"time") false)))) in mk_entity x24 x25 x26 x27) in mk_column x28 x29) in Ok (OList [x16; x23])) in let! x30 := (Ok ONone) in let! x31 := (Ok ONone) in let! x32 := (let! x33 := (let! x43 := (let! x38 := (Ok (OStr ($"required1"))) in let! x39 := (let! x34 := (Ok (OStr ($"test_b"))) in let! x35 := (Ok (OStr ($"tb"))) in let! x36 := (Ok ONone) in let! x37 := (Ok (ODataModel (mkDM [mkSC ($"test1") false; mkSC ($"test2") false; mkSC ($"required1") true; mkSC ($"required2") true; mkSC ($"time") false] (mkSC ($"time") false)))) in mk_entity x34 x35 x36 x37) in mk_column x38 x39) in let! x44 := (Ok (OOp IN)) in let! x45 := (let! x40 := (Ok (OInt (1))) in let! x41 := (Ok (OInt (2))) in let! x42 := (Ok (OInt (3))) in Ok (OList [x40; x41; x42])) in mk_condition x43 x44 x45) in let! x46 := (let! x53 := (let! x51 := (Ok (OStr ($"required2"))) in let! x52 := (let! x47 := (Ok (OStr ($"test_b"))) in let! x48 := (Ok (OStr ($"tb"))) in let! x49 := (Ok ONone) in let! x50 := (Ok (ODataModel (mkDM [mkSC ($"test1") false; mkSC ($"test2") false; mkSC ($"required1") true; mkSC ($"required2") true; mkSC ($"time") false] (mkSC ($"time") false)))) in mk_entity x47 x48 x49 x50) in mk_column x51 x52) in let! x54 := (Ok (OOp EQ)) in let! x55 := (Ok (OInt (1))) in mk_condition x53 x54 x55) in let! x56 := (let! x63 := (let! x61 := (Ok (OStr ($"time"))) in let! x62 := (let! x57 := (Ok (OStr ($"test_b"))) in let! x58 := (Ok (OStr ($"tb"))) in let! x59 := (Ok ONone) in let! x60 := (Ok (ODataModel (mkDM [mkSC ($"test1") false; mkSC ($"test2") false; mkSC ($"required1") true; mkSC ($"required2") true; mkSC ($"time") false] (mkSC ($"time") false)))) in mk_entity x57 x58 x59 x60) in mk_column x61 x62) in let! x64 := (Ok (OOp GTE)) in let! x65 := (Ok (ODateTime (mkDT (mkDate 2021 1 2) 3 4 5 5 (Some 0)))) in mk_condition x63 x64 x65) in let! x66 := (let! x73 := (let! x71 := (Ok (OStr ($"time"))) in let! x72 := (let! x67 := (Ok (OStr ($"test_b"))) in let! x68 := (Ok (OStr ($"tb"))) in let! x69 := (Ok ONone) in let! x70 := (Ok (ODataModel (mkDM [mkSC ($"test1") false; mkSC ($"test2") false; mkSC ($"required1") true; mkSC ($"required2") true; mkSC ($"time") false] (mkSC ($"time") false)))) in mk_entity x67 x68 x69 x70) in mk_column x71 x72) in let! x74 := (Ok (OOp LT)) in let! x75 := (Ok (ODateTime (mkDT (mkDate 2021 1 2) 3 4 5 6 (Some 0)))) in mk_condition x73 x74 x75) in let! x76 := (let! x100 := (let! x77 := (let! x87 := (let! x82 := (Ok (OStr ($"required1"))) in let! x83 := (let! x78 := (Ok (OStr ($"test_a"))) in let! x79 := (Ok (OStr ($"ta"))) in let! x80 := (Ok ONone) in let! x81 := (Ok (ODataModel (mkDM [mkSC ($"test1") false; mkSC ($"test2") false; mkSC ($"required1") true; mkSC ($"required2") true; mkSC ($"time") false] (mkSC ($"time") false)))) in mk_entity x78 x79 x80 x81) in mk_column x82 x83) in let! x88 := (Ok (OOp IN)) in let! x89 := (let! x84 := (Ok (OInt (1))) in let! x85 := (Ok (OInt (2))) in let! x86 := (Ok (OInt (3))) in Ok (OList [x84; x85; x86])) in mk_condition x87 x88 x89) in let! x90 := (let! x97 := (let! x95 := (Ok (OStr ($"required2"))) in let! x96 := (let! x91 := (Ok (OStr ($"test_a"))) in let! x92 := (Ok (OStr ($"ta"))) in let! x93 := (Ok ONone) in let! x94 := (Ok (ODataModel (mkDM [mkSC ($"test1") false; mkSC ($"test2") false; mkSC ($"required1") true; mkSC ($"required2") true; mkSC ($"time") false] (mkSC ($"time") false)))) in mk_entity x91 x92 x93 x94) in mk_column x95 x96) in let! x98 := (Ok (OOp EQ)) in let! x99 := (Ok (OInt (1))) in mk_condition x97 x98 x99) in Ok (OList [x77; x90])) in mk_and x100) in let! x101 := (let! x108 := (let! x106 := (Ok (OStr ($"time"))) in let! x107 := (let! x102 := (Ok (OStr ($"test_a"))) in let! x103 := (Ok (OStr ($"ta"))) in let! x104 := (Ok ONone) in let! x105 := (Ok (ODataModel (mkDM [mkSC ($"test1") false; mkSC ($"test2") false; mkSC ($"required1") true; mkSC ($"required2") true; mkSC ($"time") false] (mkSC ($"time") false)))) in mk_entity x102 x103 x104 x105) in mk_column x106 x107) in let! x109 := (Ok (OOp GTE)) in let! x110 := (Ok (ODateTime (mkDT (mkDate 2021 1 2) 3 4 5 5 (Some 0)))) in mk_condition x108 x109 x110) in let! x111 := (let! x118 := (let! x116 := (Ok (OStr ($"time"))) in let! x117 := (let! x112 := (Ok (OStr ($"test_a"))) in let! x113 := (Ok (OStr ($"ta"))) in let! x114 := (Ok ONone) in let! x115 := (Ok (ODataModel (mkDM [mkSC ($"test1") false; mkSC ($"test2") false; mkSC ($"required1") true; mkSC ($"required2") true; mkSC ($"time") false] (mkSC ($"time") false)))) in mk_entity x112 x113 x114 x115) in mk_column x116 x117) in let! x119 := (Ok (OOp LT)) in let! x120 := (Ok (ODateTime (mkDT (mkDate 2021 1 2) 3 4 5 6 (Some 0)))) in mk_condition x118 x119 x120) in Ok (OList [x33; x46; x56; x66; x76; x101; x111])) in let! x121 := (Ok ONone) in let! x122 := (Ok ONone) in let! x123 := (Ok ONone) in let! x124 := (Ok ONone) in let! x125 := (Ok ONone) in let! x126 := (Ok ONone) in let! x127 := (Ok ONone) in mk_query x1 (mkClauses x15 x30 x31 x32 x121 x122 x123 x124 x125 x126 x127)) in validate_required_columns q) = true.
Proof. vm_compute. reflexivity. Qed.

(* test_required_column_validation.py, line 201: missing required columns *)
Example t270_test_required_column_validation : fails (let! q := (let! x1 := (let! o := (let! x14 := (let! x2 := (let! x11 := (let! x3 := (Ok (OStr ($"test_a"))) in let! x4 := (Ok (OStr ($"ta"))) in let! x5 := (Ok ONone) in let! x6 := (Ok (ODataModel (mkDM [mkSC ($"test1") false; mkSC ($"test2") false; mkSC ($"required1") true; mkSC ($"required2") true; mkSC ($"time") false] (mkSC ($"time") false)))) in mk_entity x3 x4 x5 x6) in let! x12 := (Ok (OStr ($"has"))) in let! x13 := (let! x7 := (Ok (OStr ($"test_b"))) in let! x8 := (Ok (OStr ($"tb"))) in let! x9 := (Ok ONone) in let! x10 := (Ok (ODataModel (mkDM [mkSC ($"test1") false; mkSC ($"test2") false; mkSC ($"required1") true; mkSC ($"required2") true; mkSC ($"time") false] (mkSC ($"time") false)))) in mk_entity x7 x8 x9 x10) in mk_relationship x11 x12 x13) in Ok (OList [x2])) in mk_join x14) in Ok (MObj o)) in let! x15 := (let! x16 := (let! x21 := (Ok (OStr ($"test1"))) in let! x22 := (let! x17 := (Ok (OStr ($"test_a"))) in let! x18 := (Ok (OStr ($"ta"))) in let! x19 := (Ok ONone) in let! x20 := (Ok (ODataModel (mkDM [mkSC ($"test1") false; mkSC ($"test2") false; mkSC ($"required1") true; mkSC ($"required2") true; mkSC ($"time") false] (mkSC ($"time") false)))) in mk_entity x17 x18 x19 x20) in mk_column x21 x22) in let! x23 := (let! x28 := (Ok (OStr ($"required1"))) in let! x29 := (let! x24 := (Ok (OStr ($"test_b"))) in let! x25 := (Ok (OStr ($"tb"))) in let! x26 := (Ok ONone) in let! x27 := (Ok (ODataModel (mkDM [mkSC ($"test1") false; mkSC ($"test2") false; mkSC ($"required1") true; mkSC ($"required2") true; mkSC ($"time") false] (mkSC ($"time") false)))) in mk_entity x24 x25 x26 x27) in mk_column x28 x29) in Ok (OList [x16; x23])) in let! x30 := (Ok ONone) in let! x31 := (Ok ONone) in let! x32 := (let! x33 := (let! x43 := (let! x38 := (Ok (OStr ($"required1"))) in let! x39 := (let! x34 := (Ok (OStr ($"test_b"))) in let! x35 := (Ok (OStr ($"tb"))) in let! x36 := (Ok ONone) in let! x37 := (Ok (ODataModel (mkDM [mkSC ($"test1") false; mkSC ($"test2") false; mkSC ($"required1") true; mkSC ($"required2") true; mkSC ($"time") false] (mkSC ($"time") false)))) in mk_entity x34 x35 x36 x37) in mk_column x38 x39) in let! x44 := (Ok (OOp IN)) in let! x45 := (let! x40 := (Ok (OInt (1))) in let! x41 := (Ok (OInt (2))) in let! x42 := (Ok (OInt (3))) in Ok (OList [x40; x41; x42])) in mk_condition x43 x44 x45) in let! x46 := (let! x53 := (let! x51 := (Ok (OStr ($"required2"))) in let! x52 := (let! x47 := (Ok (OStr ($"test_b"))) in let! x48 := (Ok (OStr ($"tb"))) in let! x49 := (Ok ONone) in let! x50 := (Ok (ODataModel (mkDM [mkSC ($"test1") false; mkSC ($"test2") false; mkSC ($"required1") true; mkSC ($"required2") true; mkSC ($"time") false] (mkSC ($"time") false)))) in mk_entity x47 x48 x49 x50) in mk_column x51 x52) in let! x54 := (Ok (OOp EQ)) in let! x55 := (Ok (OInt (1))) in mk_condition x53 x54 x55) in let! x56 := (let! x63 := (let! x61 := (Ok (OStr ($"time"))) in let! x62 := (let! x57 := (Ok (OStr ($"test_b"))) in let! x58 := (Ok (OStr ($"tb"))) in let! x59 := (Ok ONone) in let! x60 := (Ok (ODataModel (mkDM [mkSC ($"test1") false; mkSC ($"test2") false; mkSC ($"required1") true; mkSC ($"required2") true; mkSC ($"time") false] (mkSC ($"time") false)))) in mk_entity x57 x58 x59 x60) in mk_column x61 x62) in let! x64 := (Ok (OOp GTE)) in let! x65 := (Ok (ODateTime (mkDT (mkDate 2021 1 2) 3 4 5 5 (Some 0)))) in mk_condition x63 x64 x65) in let! x66 := (let! x73 := (let! x71 := (Ok (OStr ($"time"))) in let! x72 := (let! x67 := (Ok (OStr ($"test_b"))) in let! x68 := (Ok (OStr ($"tb"))) in let! x69 := (Ok ONone) in let! x70 := (Ok (ODataModel (mkDM [mkSC ($"test1") false; mkSC ($"test2") false; mkSC ($"required1") true; mkSC ($"required2") true; mkSC ($"time") false] (mkSC ($"time") false)))) in mk_entity x67 x68 x69 x70) in mk_column x71 x72) in let! x74 := (Ok (OOp LT)) in let! x75 := (Ok (ODateTime (mkDT (mkDate 2021 1 2) 3 4 5 6 (Some 0)))) in mk_condition x73 x74 x75) in let! x76 := (let! x83 := (let! x81 := (Ok (OStr ($"required2"))) in let! x82 := (let! x77 := (Ok (OStr ($"test_a"))) in let! x78 := (Ok (OStr ($"ta"))) in let! x79 := (Ok ONone) in let! x80 := (Ok (ODataModel (mkDM [mkSC ($"test1") false; mkSC ($"test2") false; mkSC ($"required1") true; mkSC ($"required2") true; mkSC ($"time") false] (mkSC ($"time") false)))) in mk_entity x77 x78 x79 x80) in mk_column x81 x82) in let! x84 := (Ok (OOp EQ)) in let! x85 := (Ok (OInt (1))) in mk_condition x83 x84 x85) in let! x86 := (let! x93 := (let! x91 := (Ok (OStr ($"time"))) in let! x92 := (let! x87 := (Ok (OStr ($"test_a"))) in let! x88 := (Ok (OStr ($"ta"))) in let! x89 := (Ok ONone) in let! x90 := (Ok (ODataModel (mkDM [mkSC ($"test1") false; mkSC ($"test2") false; mkSC ($"required1") true; mkSC ($"required2") true; mkSC ($"time") false] (mkSC ($"time") false)))) in mk_entity x87 x88 x89 x90) in mk_column x91 x92) in let! x94 := (Ok (OOp GTE)) in let! x95 := (Ok (ODateTime (mkDT (mkDate 2021 1 2) 3 4 5 5 (Some 0)))) in mk_condition x93 x94 x95) in let! x96 := (let! x103 := (let! x101 := (Ok (OStr ($"time"))) in let! x102 := (let! x97 := (Ok (OStr ($"test_a"))) in let! x98 := (Ok (OStr ($"ta"))) in let! x99 := (Ok ONone) in let! x100 := (Ok (ODataModel (mkDM [mkSC ($"test1") false; mkSC ($"test2") false; mkSC ($"required1") true; mkSC ($"required2") true; mkSC ($"time") false] (mkSC ($"time") false)))) in mk_entity x97 x98 x99 x100) in mk_column x101 x102) in let! x104 := (Ok (OOp LT)) in let! x105 := (Ok (ODateTime (mkDT (mkDate 2021 1 2) 3 4 5 6 (Some 0)))) in mk_condition x103 x104 x105) in Ok (OList [x33; x46; x56; x66; x76; x86; x96])) in let! x106 := (Ok ONone) in let! x107 := (Ok ONone) in let! x108 := (Ok ONone) in let! x109 := (Ok ONone) in let! x110 := (Ok ONone) in let! x111 := (Ok ONone) in let! x112 := (Ok ONone) in mk_query x1 (mkClauses x15 x30 x31 x32 x106 x107 x108 x109 x110 x111 x112)) in validate_required_columns q) (fun e => match e with RequiredColumnError => true | _ => false end) = true.
Proof. vm_compute. reflexivity. Qed.

(* test_required_column_validation.py, line 213: all required columns in OR *)
Example t271_test_required_column_validation : fails (let! q := (let! x1 := (let! o := (let! x14 := (let! x2 := (let! x11 := (let! x3 := (Ok (OStr ($"test_a"))) in let! x4 := (Ok (OStr ($"ta"))) in let! x5 := (Ok ONone) in let! x6 := (Ok (ODataModel (mkDM [mkSC ($"test1") false; mkSC ($"test2") false; mkSC ($"required1") true; mkSC ($"required2") true; mkSC ($"time") false] (mkSC ($"time") false)))) in mk_entity x3 x4 x5 x6) in let! x12 := (Ok (OStr ($"has"))) in let! x13 := (let! x7 := (Ok (OStr ($"test_b"))) in let! x8 := (Ok (OStr ($"tb"))) in let! x9 := (Ok ONone) in let! x10 := (Ok (ODataModel (mkDM [mkSC ($"test1") false; mkSC ($"test2") false; mkSC ($"required1") true; mkSC ($"required2") true; mkSC ($"time") false] (mkSC ($"time") false)))) in mk_entity x7 x8 x9 x10) in mk_relationship x11 x12 x13) in Ok (OList [x2])) in mk_join x14) in Ok (MObj o)) in let! x15 := (let! x16 := (let! x21 := (Ok (OStr ($"test1"))) in let! x22 := (let! x17 := (Ok (OStr ($"test_a"))) in let! x18 := (Ok (OStr ($"ta"))) in let! x19 := (Ok ONone) in let! x20 := (Ok (ODataModel (mkDM [mkSC ($"test1") false; mkSC ($"test2") false; mkSC ($"required1") true; mkSC ($"required2") true; mkSC ($"time") false] (mkSC ($"time") false)))) in mk_entity x17 x18 x19 x20) in mk_column x21 x22) in let! x23 := (let! x28 := (Ok (OStr ($"required1"))) in let! x29 := (let! x24 := (Ok (OStr ($"test_b"))) in let! x25 := (Ok (OStr ($"tb"))) in let! x26 := (Ok ONone) in let! x27 := (Ok (ODataModel (mkDM [mkSC ($"test1") false; mkSC ($"test2") false; mkSC ($"required1") true; mkSC ($"required2") true; mkSC ($"time") false] (mkSC ($"time") false)))) in mk_entity x24 x25 x26 x27) in mk_column x28 x29) in Ok (OList [x16; x23])) in let! x30 := (Ok ONone) in let! x31 := (Ok ONone) in let! x32 := (let! x33 := (let! x43 := (let! x38 := (Ok (OStr ($"required1"))) in let! x39 := (let! x34 := (Ok (OStr ($"test_b"))) in let! x35 := (Ok (OStr ($"tb"))) in let! x36 := (Ok ONone) in let! x37 := (Ok (ODataModel (mkDM [mkSC ($"test1") false; mkSC ($"test2") false; mkSC ($"required1") true; mkSC ($"required2") true; mkSC ($"time") false] (mkSC ($"time") false)))) in mk_entity x34 x35 x36 x37) in mk_column x38 x39) in let! x44 := (Ok (OOp IN)) in let! x45 := (let! x40 := (Ok (OInt (1))) in let! x41 := (Ok (OInt (2))) in let! x42 := (Ok (OInt (3))) in Ok (OList [x40; x41; x42])) in mk_condition x43 x44 x45) in let! x46 := (let! x53 := (let! x51 := (Ok (OStr ($"required2"))) in let! x52 := (let! x47 := (Ok (OStr ($"test_b"))) in let! x48 := (Ok (OStr ($"tb"))) in let! x49 := (Ok ONone) in let! x50 := (Ok (ODataModel (mkDM [mkSC ($"test1") false; mkSC ($"test2") false; mkSC ($"required1") true; mkSC ($"required2") true; mkSC ($"time") false] (mkSC ($"time") false)))) in mk_entity x47 x48 x49 x50) in mk_column x51 x52) in let! x54 := (Ok (OOp EQ)) in let! x55 := (Ok (OInt (1))) in mk_condition x53 x54 x55) in let! x56 := (let! x63 := (let! x61 := (Ok (OStr ($"time"))) in let! x62 := (let! x57 := (Ok (OStr ($"test_b"))) in let! x58 := (Ok (OStr ($"tb"))) in let! x59 := (Ok ONone) in let! x60 := (Ok (ODataModel (mkDM [mkSC ($"test1") false; mkSC ($"test2") false; mkSC ($"required1") true; mkSC ($"required2") true; mkSC ($"time") false] (mkSC ($"time") false)))) in mk_entity x57 x58 x59 x60) in mk_column x61 x62) in let! x64 := (Ok (OOp GTE)) in let! x65 := (Ok (ODateTime (mkDT (mkDate 2021 1 2) 3 4 5 5 (Some 0)))) in mk_condition x63 x64 x65) in let! x66 := (let! x73 := (let! x71 := (Ok (OStr ($"time"))) in let! x72 := (let! x67 := (Ok (OStr ($"test_b"))) in let! x68 := (Ok (OStr ($"tb"))) in let! x69 := (Ok ONone) in let! x70 := (Ok (ODataModel (mkDM [mkSC ($"test1") false; mkSC ($"test2") false; mkSC ($"required1") true; mkSC ($"required2") true; mkSC ($"time") false] (mkSC ($"time") false)))) in mk_entity x67 x68 x69 x70) in mk_column x71 x72) in let! x74 := (Ok (OOp LT)) in let! x75 := (Ok (ODateTime (mkDT (mkDate 2021 1 2) 3 4 5 6 (Some 0)))) in mk_condition x73 x74 x75) in let! x76 := (let! x100 := (let! x77 := (let! x87 := (let! x82 := (Ok (OStr ($"required1"))) in let! x83 := (let! x78 := (Ok (OStr ($"test_a"))) in let! x79 := (Ok (OStr ($"ta"))) in let! x80 := (Ok ONone) in let! x81 := (Ok (ODataModel (mkDM [mkSC ($"test1") false; mkSC ($"test2") false; mkSC ($"required1") true; mkSC ($"required2") true; mkSC ($"time") false] (mkSC ($"time") false)))) in mk_entity x78 x79 x80 x81) in mk_column x82 x83) in let! x88 := (Ok (OOp IN)) in let! x89 := (let! x84 := (Ok (OInt (1))) in let! x85 := (Ok (OInt (2))) in let! x86 := (Ok (OInt (3))) in Ok (OList [x84; x85; x86])) in mk_condition x87 x88 x89) in let! x90 := (let! x97 := (let! x95 := (Ok (OStr ($"required2"))) in let! x96 := (let! x91 := (Ok (OStr ($"test_a"))) in let! x92 := (Ok (OStr ($"ta"))) in let! x93 := (Ok ONone) in let! x94 := (Ok (ODataModel (mkDM [mkSC ($"test1") false; mkSC ($"test2") false; mkSC ($"required1") true; mkSC ($"required2") true; mkSC ($"time") false] (mkSC ($"time") false)))) in mk_entity x91 x92 x93 x94) in mk_column x95 x96) in let! x98 := (Ok (OOp EQ)) in let! x99 := (Ok (OInt (1))) in mk_condition x97 x98 x99) in Ok (OList [x77; x90])) in mk_or x100) in let! x101 := (let! x108 := (let! x106 := (Ok (OStr ($"time"))) in let! x107 := (let! x102 := (Ok (OStr ($"test_a"))) in let! x103 := (Ok (OStr ($"ta"))) in let! x104 := (Ok ONone) in let! x105 := (Ok (ODataModel (mkDM [mkSC ($"test1") false; mkSC ($"test2") false; mkSC ($"required1") true; mkSC ($"required2") true; mkSC ($"time") false] (mkSC ($"time") false)))) in mk_entity x102 x103 x104 x105) in mk_column x106 x107) in let! x109 := (Ok (OOp GTE)) in let! x110 := (Ok (ODateTime (mkDT (mkDate 2021 1 2) 3 4 5 5 (Some 0)))) in mk_condition x108 x109 x110) in let! x111 := (let! x118 := (let! x116 := (Ok (OStr ($"time"))) in let! x117 := (let! x112 := (Ok (OStr ($"test_a"))) in let! x113 := (Ok (OStr ($"ta"))) in let! x114 := (Ok ONone) in let! x115 := (Ok (ODataModel (mkDM [mkSC ($"test1") false; mkSC ($"test2") false; mkSC ($"required1") true; mkSC ($"required2") true; mkSC ($"time") false] (mkSC ($"time") false)))) in mk_entity x112 x113 x114 x115) in mk_column x116 x117) in let! x119 := (Ok (OOp LT)) in let! x120 := (Ok (ODateTime (mkDT (mkDate 2021 1 2) 3 4 5 6 (Some 0)))) in mk_condition x118 x119 x120) in Ok (OList [x33; x46; x56; x66; x76; x101; x111])) in let! x121 := (Ok ONone) in let! x122 := (Ok ONone) in let! x123 := (Ok ONone) in let! x124 := (Ok ONone) in let! x125 := (Ok ONone) in let! x126 := (Ok ONone) in let! x127 := (Ok ONone) in mk_query x1 (mkClauses x15 x30 x31 x32 x121 x122 x123 x124 x125 x126 x127)) in validate_required_columns q) (fun e => match e with RequiredColumnError => true | _ => false end) = true.
Proof. vm_compute. reflexivity. Qed.

(* test_required_column_validation.py, line 230: wrong ops *)
Example t272_test_required_column_validation : fails (let! q := (let! x1 := (let! o := (let! x14 := (let! x2 := (let! x11 := (let! x3 := (Ok (OStr ($"test_a"))) in let! x4 := (Ok (OStr ($"ta"))) in let! x5 := (Ok ONone) in let! x6 := (Ok (ODataModel (mkDM [mkSC ($"test1") false; mkSC ($"test2") false; mkSC ($"required1") true; mkSC ($"required2") true; mkSC ($"time") false] (mkSC ($"time") false)))) in mk_entity x3 x4 x5 x6) in let! x12 := (Ok (OStr ($"has"))) in let! x13 := (let! x7 := (Ok (OStr ($"test_b"))) in let! x8 := (Ok (OStr ($"tb"))) in let! x9 := (Ok ONone) in let! x10 := (Ok (ODataModel (mkDM [mkSC ($"test1") false; mkSC ($"test2") false; mkSC ($"required1") true; mkSC ($"required2") true; mkSC ($"time") false] (mkSC ($"time") false)))) in mk_entity x7 x8 x9 x10) in mk_relationship x11 x12 x13) in Ok (OList [x2])) in mk_join x14) in Ok (MObj o)) in let! x15 := (let! x16 := (let! x21 := (Ok (OStr ($"test1"))) in let! x22 := (let! x17 := (Ok (OStr ($"test_a"))) in let! x18 := (Ok (OStr ($"ta"))) in let! x19 := (Ok ONone) in let! x20 := (Ok (ODataModel (mkDM [mkSC ($"test1") false; mkSC ($"test2") false; mkSC ($"required1") true; mkSC ($"required2") true; mkSC ($"time") false] (mkSC ($"time") false)))) in mk_entity x17 x18 x19 x20) in mk_column x21 x22) in let! x23 := (let! x28 := (Ok (OStr ($"required1"))) in let! x29 := (let! x24 := (Ok (OStr ($"test_b"))) in let! x25 := (Ok (OStr ($"tb"))) in let! x26 := (Ok ONone) in let! x27 := (Ok (ODataModel (mkDM [mkSC ($"test1") false; mkSC ($"test2") false; mkSC ($"required1") true; mkSC ($"required2") true; mkSC ($"time") false] (mkSC ($"time") false)))) in mk_entity x24 x25 x26 x27) in mk_column x28 x29) in Ok (OList [x16; x23])) in let! x30 := (Ok ONone) in let! x31 := (Ok ONone) in let! x32 := (let! x33 := (let! x43 := (let! x38 := (Ok (OStr ($"required1"))) in let! x39 := (let! x34 := (Ok (OStr ($"test_b"))) in let! x35 := (Ok (OStr ($"tb"))) in let! x36 := (Ok ONone) in let! x37 := (Ok (ODataModel (mkDM [mkSC ($"test1") false; mkSC ($"test2") false; mkSC ($"required1") true; mkSC ($"required2") true; mkSC ($"time") false] (mkSC ($"time") false)))) in mk_entity x34 x35 x36 x37) in mk_column x38 x39) in let! x44 := (Ok (OOp IN)) in let! x45 := (let! x40 := (Ok (OInt (1))) in let! x41 := (Ok (OInt (2))) in let! x42 := (Ok (OInt (3))) in Ok (OList [x40; x41; x42])) in mk_condition x43 x44 x45) in let! x46 := (let! x53 := (let! x51 := (Ok (OStr ($"required2"))) in let! x52 := (let! x47 := (Ok (OStr ($"test_b"))) in let! x48 := (Ok (OStr ($"tb"))) in let! x49 := (Ok ONone) in let! x50 := (Ok (ODataModel (mkDM [mkSC ($"test1") false; mkSC ($"test2") false; mkSC ($"required1") true; mkSC ($"required2") true; mkSC ($"time") false] (mkSC ($"time") false)))) in mk_entity x47 x48 x49 x50) in mk_column x51 x52) in let! x54 := (Ok (OOp EQ)) in let! x55 := (Ok (OInt (1))) in mk_condition x53 x54 x55) in let! x56 := (let! x63 := (let! x61 := (Ok (OStr ($"time"))) in let! x62 := (let! x57 := (Ok (OStr ($"test_b"))) in let! x58 := (Ok (OStr ($"tb"))) in let! x59 := (Ok ONone) in let! x60 := (Ok (ODataModel (mkDM [mkSC ($"test1") false; mkSC ($"test2") false; mkSC ($"required1") true; mkSC ($"required2") true; mkSC ($"time") false] (mkSC ($"time") false)))) in mk_entity x57 x58 x59 x60) in mk_column x61 x62) in let! x64 := (Ok (OOp GTE)) in let! x65 := (Ok (ODateTime (mkDT (mkDate 2021 1 2) 3 4 5 5 (Some 0)))) in mk_condition x63 x64 x65) in let! x66 := (let! x73 := (let! x71 := (Ok (OStr ($"time"))) in let! x72 := (let! x67 := (Ok (OStr ($"test_b"))) in let! x68 := (Ok (OStr ($"tb"))) in let! x69 := (Ok ONone) in let! x70 := (Ok (ODataModel (mkDM [mkSC ($"test1") false; mkSC ($"test2") false; mkSC ($"required1") true; mkSC ($"required2") true; mkSC ($"time") false] (mkSC ($"time") false)))) in mk_entity x67 x68 x69 x70) in mk_column x71 x72) in let! x74 := (Ok (OOp LT)) in let! x75 := (Ok (ODateTime (mkDT (mkDate 2021 1 2) 3 4 5 6 (Some 0)))) in mk_condition x73 x74 x75) in let! x76 := (let! x86 := (let! x81 := (Ok (OStr ($"required1"))) in let! x82 := (let! x77 := (Ok (OStr ($"test_a"))) in let! x78 := (Ok (OStr ($"ta"))) in let! x79 := (Ok ONone) in let! x80 := (Ok (ODataModel (mkDM [mkSC ($"test1") false; mkSC ($"test2") false; mkSC ($"required1") true; mkSC ($"required2") true; mkSC ($"time") false] (mkSC ($"time") false)))) in mk_entity x77 x78 x79 x80) in mk_column x81 x82) in let! x87 := (Ok (OOp NOT_IN)) in let! x88 := (let! x83 := (Ok (OInt (1))) in let! x84 := (Ok (OInt (2))) in let! x85 := (Ok (OInt (3))) in Ok (OList [x83; x84; x85])) in mk_condition x86 x87 x88) in let! x89 := (let! x96 := (let! x94 := (Ok (OStr ($"required2"))) in let! x95 := (let! x90 := (Ok (OStr ($"test_a"))) in let! x91 := (Ok (OStr ($"ta"))) in let! x92 := (Ok ONone) in let! x93 := (Ok (ODataModel (mkDM [mkSC ($"test1") false; mkSC ($"test2") false; mkSC ($"required1") true; mkSC ($"required2") true; mkSC ($"time") false] (mkSC ($"time") false)))) in mk_entity x90 x91 x92 x93) in mk_column x94 x95) in let! x97 := (Ok (OOp EQ)) in let! x98 := (Ok (OInt (1))) in mk_condition x96 x97 x98) in let! x99 := (let! x106 := (let! x104 := (Ok (OStr ($"time"))) in let! x105 := (let! x100 := (Ok (OStr ($"test_a"))) in let! x101 := (Ok (OStr ($"ta"))) in let! x102 := (Ok ONone) in let! x103 := (Ok (ODataModel (mkDM [mkSC ($"test1") false; mkSC ($"test2") false; mkSC ($"required1") true; mkSC ($"required2") true; mkSC ($"time") false] (mkSC ($"time") false)))) in mk_entity x100 x101 x102 x103) in mk_column x104 x105) in let! x107 := (Ok (OOp GTE)) in let! x108 := (Ok (ODateTime (mkDT (mkDate 2021 1 2) 3 4 5 5 (Some 0)))) in mk_condition x106 x107 x108) in let! x109 := (let! x116 := (let! x114 := (Ok (OStr ($"time"))) in let! x115 := (let! x110 := (Ok (OStr ($"test_a"))) in let! x111 := (Ok (OStr ($"ta"))) in let! x112 := (Ok ONone) in let! x113 := (Ok (ODataModel (mkDM [mkSC ($"test1") false; mkSC ($"test2") false; mkSC ($"required1") true; mkSC ($"required2") true; mkSC ($"time") false] (mkSC ($"time") false)))) in mk_entity x110 x111 x112 x113) in mk_column x114 x115) in let! x117 := (Ok (OOp LT)) in let! x118 := (Ok (ODateTime (mkDT (mkDate 2021 1 2) 3 4 5 6 (Some 0)))) in mk_condition x116 x117 x118) in Ok (OList [x33; x46; x56; x66; x76; x89; x99; x109])) in let! x119 := (Ok ONone) in let! x120 := (Ok ONone) in let! x121 := (Ok ONone) in let! x122 := (Ok ONone) in let! x123 := (Ok ONone) in let! x124 := (Ok ONone) in let! x125 := (Ok ONone) in mk_query x1 (mkClauses x15 x30 x31 x32 x119 x120 x121 x122 x123 x124 x125)) in validate_required_columns q) (fun e => match e with RequiredColumnError => true | _ => false end) = true.
Proof. vm_compute. reflexivity. Qed.

(* test_required_column_validation.py, line 243: missing time op *)
Example t273_test_required_column_validation : fails (let! q := (let! x1 := (let! o := (let! x14 := (let! x2 := (let! x11 := (let! x3 := (Ok (OStr ($"test_a"))) in let! x4 := (Ok (OStr ($"ta"))) in let! x5 := (Ok ONone) in let! x6 := (Ok (ODataModel (mkDM [mkSC ($"test1") false; mkSC ($"test2") false; mkSC ($"required1") true; mkSC ($"required2") true; mkSC ($"time") false] (mkSC ($"time") false)))) in mk_entity x3 x4 x5 x6) in let! x12 := (Ok (OStr ($"has"))) in let! x13 := (let! x7 := (Ok (OStr ($"test_b"))) in let! x8 := (Ok (OStr ($"tb"))) in let! x9 := (Ok ONone) in let! x10 := (Ok (ODataModel (mkDM [mkSC ($"test1") false; mkSC ($"test2") false; mkSC ($"required1") true; mkSC ($"required2") true; mkSC ($"time") false] (mkSC ($"time") false)))) in mk_entity x7 x8 x9 x10) in mk_relationship x11 x12 x13) in Ok (OList [x2])) in mk_join x14) in Ok (MObj o)) in let! x15 := (let! x16 := (let! x21 := (Ok (OStr ($"test1"))) in let! x22 := (let! x17 := (Ok (OStr ($"test_a"))) in let! x18 := (Ok (OStr ($"ta"))) in let! x19 := (Ok ONone) in let! x20 := (Ok (ODataModel (mkDM [mkSC ($"test1") false; mkSC ($"test2") false; mkSC ($"required1") true; mkSC ($"required2") true; mkSC ($"time") false] (mkSC ($"time") false)))) in mk_entity x17 x18 x19 x20) in mk_column x21 x22) in let! x23 := (let! x28 := (Ok (OStr ($"required1"))) in let! x29 := (let! x24 := (Ok (OStr ($"test_b"))) in let! x25 := (Ok (OStr ($"tb"))) in let! x26 := (Ok ONone) in let! x27 := (Ok (ODataModel (mkDM [mkSC ($"test1") false; mkSC ($"test2") false; mkSC ($"required1") true; mkSC ($"required2") true; mkSC ($"time") false] (mkSC ($"time") false)))) in mk_entity x24 x25 x26 x27) in mk_column x28 x29) in Ok (OList [x16; x23])) in let! x30 := (Ok ONone) in let! x31 := (Ok ONone) in let! x32 := (let! x33 := (let! x43 := (let! x38 := (Ok (OStr ($"required1"))) in let! x39 := (let! x34 := (Ok (OStr ($"test_b"))) in let! x35 := (Ok (OStr ($"tb"))) in let! x36 := (Ok ONone) in let! x37 := (Ok (ODataModel (mkDM [mkSC ($"test1") false; mkSC ($"test2") false; mkSC ($"required1") true; mkSC ($"required2") true; mkSC ($"time") false] (mkSC ($"time") false)))) in mk_entity x34 x35 x36 x37) in mk_column x38 x39) in let! x44 := (Ok (OOp IN)) in let! x45 := (let! x40 := (Ok (OInt (1))) in let! x41 := (Ok (OInt (2))) in let! x42 := (Ok (OInt (3))) in Ok (OList [x40; x41; x42])) in mk_condition x43 x44 x45) in let! x46 := (let! x53 := (let! x51 := (Ok (OStr ($"required2"))) in let! x52 := (let! x47 := (Ok (OStr ($"test_b"))) in let! x48 := (Ok (OStr ($"tb"))) in let! x49 := (Ok ONone) in let! x50 := (Ok (ODataModel (mkDM [mkSC ($"test1") false; mkSC ($"test2") false; mkSC ($"required1") true; mkSC ($"required2") true; mkSC ($"time") false] (mkSC ($"time") false)))) in mk_entity x47 x48 x49 x50) in mk_column x51 x52) in let! x54 := (Ok (OOp EQ)) in let! x55 := (Ok (OInt (1))) in mk_condition x53 x54 x55) in let! x56 := (let! x63 := (let! x61 := (Ok (OStr ($"time"))) in let! x62 := (let! x57 := (Ok (OStr ($"test_b"))) in let! x58 := (Ok (OStr ($"tb"))) in let! x59 := (Ok ONone) in let! x60 := (Ok (ODataModel (mkDM [mkSC ($"test1") false; mkSC ($"test2") false; mkSC ($"required1") true; mkSC ($"required2") true; mkSC ($"time") false] (mkSC ($"time") false)))) in mk_entity x57 x58 x59 x60) in mk_column x61 x62) in let! x64 := (Ok (OOp GTE)) in let! x65 := (Ok (ODateTime (mkDT (mkDate 2021 1 2) 3 4 5 5 (Some 0)))) in mk_condition x63 x64 x65) in let! x66 := (let! x73 := (let! x71 := (Ok (OStr ($"time"))) in let! x72 := (let! x67 := (Ok (OStr ($"test_b"))) in let! x68 := (Ok (OStr ($"tb"))) in let! x69 := (Ok ONone) in let! x70 := (Ok (ODataModel (mkDM [mkSC ($"test1") false; mkSC ($"test2") false; mkSC ($"required1") true; mkSC ($"required2") true; mkSC ($"time") false] (mkSC ($"time") false)))) in mk_entity x67 x68 x69 x70) in mk_column x71 x72) in let! x74 := (Ok (OOp LT)) in let! x75 := (Ok (ODateTime (mkDT (mkDate 2021 1 2) 3 4 5 6 (Some 0)))) in mk_condition x73 x74 x75) in let! x76 := (let! x86 := (let! x81 := (Ok (OStr ($"required1"))) in let! x82 := (let! x77 := (Ok (OStr ($"test_a"))) in let! x78 := (Ok (OStr ($"ta"))) in let! x79 := (Ok ONone) in let! x80 := (Ok (ODataModel (mkDM [mkSC ($"test1") false; mkSC ($"test2") false; mkSC ($"required1") true; mkSC ($"required2") true; mkSC ($"time") false] (mkSC ($"time") false)))) in mk_entity x77 x78 x79 x80) in mk_column x81 x82) in let! x87 := (Ok (OOp IN)) in let! x88 := (let! x83 := (Ok (OInt (1))) in let! x84 := (Ok (OInt (2))) in let! x85 := (Ok (OInt (3))) in Ok (OList [x83; x84; x85])) in mk_condition x86 x87 x88) in let! x89 := (let! x96 := (let! x94 := (Ok (OStr ($"required2"))) in let! x95 := (let! x90 := (Ok (OStr ($"test_a"))) in let! x91 := (Ok (OStr ($"ta"))) in let! x92 := (Ok ONone) in let! x93 := (Ok (ODataModel (mkDM [mkSC ($"test1") false; mkSC ($"test2") false; mkSC ($"required1") true; mkSC ($"required2") true; mkSC ($"time") false] (mkSC ($"time") false)))) in mk_entity x90 x91 x92 x93) in mk_column x94 x95) in let! x97 := (Ok (OOp EQ)) in let! x98 := (Ok (OInt (1))) in mk_condition x96 x97 x98) in let! x99 := (let! x106 := (let! x104 := (Ok (OStr ($"time"))) in let! x105 := (let! x100 := (Ok (OStr ($"test_a"))) in let! x101 := (Ok (OStr ($"ta"))) in let! x102 := (Ok ONone) in let! x103 := (Ok (ODataModel (mkDM [mkSC ($"test1") false; mkSC ($"test2") false; mkSC ($"required1") true; mkSC ($"required2") true; mkSC ($"time") false] (mkSC ($"time") false)))) in mk_entity x100 x101 x102 x103) in mk_column x104 x105) in let! x107 := (Ok (OOp GTE)) in let! x108 := (Ok (ODateTime (mkDT (mkDate 2021 1 2) 3 4 5 5 (Some 0)))) in mk_condition x106 x107 x108) in Ok (OList [x33; x46; x56; x66; x76; x89; x99])) in let! x109 := (Ok ONone) in let! x110 := (Ok ONone) in let! x111 := (Ok ONone) in let! x112 := (Ok ONone) in let! x113 := (Ok ONone) in let! x114 := (Ok ONone) in let! x115 := (Ok ONone) in mk_query x1 (mkClauses x15 x30 x31 x32 x109 x110 x111 x112 x113 x114 x115)) in validate_required_columns q) (fun e => match e with RequiredColumnError => true | _ => false end) = true.
Proof. vm_compute. reflexivity. Qed.

(* test_required_column_validation.py, line 255: wrong time op *)
Example t274_test_required_column_validation : fails (let! q := (let! x1 := (let! o := (let! x14 := (let! x2 := (let! x11 := (let! x3 := (Ok (OStr ($"test_a"))) in let! x4 := (Ok (OStr ($"ta"))) in let! x5 := (Ok ONone) in let! x6 := (Ok (ODataModel (mkDM [mkSC ($"test1") false; mkSC ($"test2") false; mkSC ($"required1") true; mkSC ($"required2") true; mkSC ($"time") false] (mkSC ($"time") false)))) in mk_entity x3 x4 x5 x6) in let! x12 := (Ok (OStr ($"has"))) in let! x13 := (let! x7 := (Ok (OStr ($"test_b"))) in let! x8 := (Ok (OStr ($"tb"))) in let! x9 := (Ok ONone) in let! x10 := (Ok (ODataModel (mkDM [mkSC ($"test1") false; mkSC ($"test2") false; mkSC ($"required1") true; mkSC ($"required2") true; mkSC ($"time") false] (mkSC ($"time") false)))) in mk_entity x7 x8 x9 x10) in mk_relationship x11 x12 x13) in Ok (OList [x2])) in mk_join x14) in Ok (MObj o)) in let! x15 := (let! x16 := (let! x21 := (Ok (OStr ($"test1"))) in let! x22 := (let! x17 := (Ok (OStr ($"test_a"))) in let! x18 := (Ok (OStr ($"ta"))) in let! x19 := (Ok ONone) in let! x20 := (Ok (ODataModel (mkDM [mkSC ($"test1") false; mkSC ($"test2") false; mkSC ($"required1") true; mkSC ($"required2") true; mkSC ($"time") false] (mkSC ($"time") false)))) in mk_entity x17 x18 x19 x20) in mk_column x21 x22) in let! x23 := (let! x28 := (Ok (OStr ($"required1"))) in let! x29 := (let! x24 := (Ok (OStr ($"test_b"))) in let! x25 := (Ok (OStr ($"tb"))) in let! x26 := (Ok ONone) in let! x27 := (Ok (ODataModel (mkDM [mkSC ($"test1") false; mkSC ($"test2") false; mkSC ($"required1") true; mkSC ($"required2") true; mkSC ($"time") false] (mkSC ($"time") false)))) in mk_entity x24 x25 x26 x27) in mk_column x28 x29) in Ok (OList [x16; x23])) in let! x30 := (Ok ONone) in let! x31 := (Ok ONone) in let! x32 := (let! x33 := (let! x43 := (let! x38 := (Ok (OStr ($"required1"))) in let! x39 := (let! x34 := (Ok (OStr ($"test_b"))) in let! x35 := (Ok (OStr ($"tb"))) in let! x36 := (Ok ONone) in let! x37 := (Ok (ODataModel (mkDM [mkSC ($"test1") false; mkSC ($"test2") false; mkSC ($"required1") true; mkSC ($"required2") true; mkSC ($"time") false] (mkSC ($"time") false)))) in mk_entity x34 x35 x36 x37) in mk_column x38 x39) in let! x44 := (Ok (OOp IN)) in let! x45 := (let! x40 := (Ok (OInt (1))) in let! x41 := (Ok (OInt (2))) in let! x42 := (Ok (OInt (3))) in Ok (OList [x40; x41; x42])) in mk_condition x43 x44 x45) in let! x46 := (let! x53 := (let! x51 := (Ok (OStr ($"required2"))) in let! x52 := (let! x47 := (Ok (OStr ($"test_b"))) in let! x48 := (Ok (OStr ($"tb"))) in let! x49 := (Ok ONone) in let! x50 := (Ok (ODataModel (mkDM [mkSC ($"test1") false; mkSC ($"test2") false; mkSC ($"required1") true; mkSC ($"required2") true; mkSC ($"time") false] (mkSC ($"time") false)))) in mk_entity x47 x48 x49 x50) in mk_column x51 x52) in let! x54 := (Ok (OOp EQ)) in let! x55 := (Ok (OInt (1))) in mk_condition x53 x54 x55) in let! x56 := (let! x63 := (let! x61 := (Ok (OStr ($"time"))) in let! x62 := (let! x57 := (Ok (OStr ($"test_b"))) in let! x58 := (Ok (OStr ($"tb"))) in let! x59 := (Ok ONone) in let! x60 := (Ok (ODataModel (mkDM [mkSC ($"test1") false; mkSC ($"test2") false; mkSC ($"required1") true; mkSC ($"required2") true; mkSC ($"time") false] (mkSC ($"time") false)))) in mk_entity x57 x58 x59 x60) in mk_column x61 x62) in let! x64 := (Ok (OOp GTE)) in let! x65 := (Ok (ODateTime (mkDT (mkDate 2021 1 2) 3 4 5 5 (Some 0)))) in mk_condition x63 x64 x65) in let! x66 := (let! x73 := (let! x71 := (Ok (OStr ($"time"))) in let! x72 := (let! x67 := (Ok (OStr ($"test_b"))) in let! x68 := (Ok (OStr ($"tb"))) in let! x69 := (Ok ONone) in let! x70 := (Ok (ODataModel (mkDM [mkSC ($"test1") false; mkSC ($"test2") false; mkSC ($"required1") true; mkSC ($"required2") true; mkSC ($"time") false] (mkSC ($"time") false)))) in mk_entity x67 x68 x69 x70) in mk_column x71 x72) in let! x74 := (Ok (OOp LT)) in let! x75 := (Ok (ODateTime (mkDT (mkDate 2021 1 2) 3 4 5 6 (Some 0)))) in mk_condition x73 x74 x75) in let! x76 := (let! x86 := (let! x81 := (Ok (OStr ($"required1"))) in let! x82 := (let! x77 := (Ok (OStr ($"test_a"))) in let! x78 := (Ok (OStr ($"ta"))) in let! x79 := (Ok ONone) in let! x80 := (Ok (ODataModel (mkDM [mkSC ($"test1") false; mkSC ($"test2") false; mkSC ($"required1") true; mkSC ($"required2") true; mkSC ($"time") false] (mkSC ($"time") false)))) in mk_entity x77 x78 x79 x80) in mk_column x81 x82) in let! x87 := (Ok (OOp IN)) in let! x88 := (let! x83 := (Ok (OInt (1))) in let! x84 := (Ok (OInt (2))) in let! x85 := (Ok (OInt (3))) in Ok (OList [x83; x84; x85])) in mk_condition x86 x87 x88) in let! x89 := (let! x96 := (let! x94 := (Ok (OStr ($"required2"))) in let! x95 := (let! x90 := (Ok (OStr ($"test_a"))) in let! x91 := (Ok (OStr ($"ta"))) in let! x92 := (Ok ONone) in let! x93 := (Ok (ODataModel (mkDM [mkSC ($"test1") false; mkSC ($"test2") false; mkSC ($"required1") true; mkSC ($"required2") true; mkSC ($"time") false] (mkSC ($"time") false)))) in mk_entity x90 x91 x92 x93) in mk_column x94 x95) in let! x97 := (Ok (OOp EQ)) in let! x98 := (Ok (OInt (1))) in mk_condition x96 x97 x98) in let! x99 := (let! x106 := (let! x104 := (Ok (OStr ($"time"))) in let! x105 := (let! x100 := (Ok (OStr ($"test_a"))) in let! x101 := (Ok (OStr ($"ta"))) in let! x102 := (Ok ONone) in let! x103 := (Ok (ODataModel (mkDM [mkSC ($"test1") false; mkSC ($"test2") false; mkSC ($"required1") true; mkSC ($"required2") true; mkSC ($"time") false] (mkSC ($"time") false)))) in mk_entity x100 x101 x102 x103) in mk_column x104 x105) in let! x107 := (Ok (OOp GTE)) in let! x108 := (Ok (ODateTime (mkDT (mkDate 2021 1 2) 3 4 5 5 (Some 0)))) in mk_condition x106 x107 x108) in let! x109 := (let! x116 := (let! x114 := (Ok (OStr ($"time"))) in let! x115 := (let! x110 := (Ok (OStr ($"test_a"))) in let! x111 := (Ok (OStr ($"ta"))) in let! x112 := (Ok ONone) in let! x113 := (Ok (ODataModel (mkDM [mkSC ($"test1") false; mkSC ($"test2") false; mkSC ($"required1") true; mkSC ($"required2") true; mkSC ($"time") false] (mkSC ($"time") false)))) in mk_entity x110 x111 x112 x113) in mk_column x114 x115) in let! x117 := (Ok (OOp LTE)) in let! x118 := (Ok (ODateTime (mkDT (mkDate 2021 1 2) 3 4 5 6 (Some 0)))) in mk_condition x116 x117 x118) in Ok (OList [x33; x46; x56; x66; x76; x89; x99; x109])) in let! x119 := (Ok ONone) in let! x120 := (Ok ONone) in let! x121 := (Ok ONone) in let! x122 := (Ok ONone) in let! x123 := (Ok ONone) in let! x124 := (Ok ONone) in let! x125 := (Ok ONone) in mk_query x1 (mkClauses x15 x30 x31 x32 x119 x120 x121 x122 x123 x124 x125)) in validate_required_columns q) (fun e => match e with RequiredColumnError => true | _ => false end) = true.
Proof. vm_compute. reflexivity. Qed.

(* test_required_column_validation.py, line 268: right column, wrong entity *)
Example t275_test_required_column_validation : fails (let! q := (let! x1 := (let! o := (let! x14 := (let! x2 := (let! x11 := (let! x3 := (Ok (OStr ($"test_a"))) in let! x4 := (Ok (OStr ($"ta"))) in let! x5 := (Ok ONone) in let! x6 := (Ok (ODataModel (mkDM [mkSC ($"test1") false; mkSC ($"test2") false; mkSC ($"required1") true; mkSC ($"required2") true; mkSC ($"time") false] (mkSC ($"time") false)))) in mk_entity x3 x4 x5 x6) in let! x12 := (Ok (OStr ($"has"))) in let! x13 := (let! x7 := (Ok (OStr ($"test_b"))) in let! x8 := (Ok (OStr ($"tb"))) in let! x9 := (Ok ONone) in let! x10 := (Ok (ODataModel (mkDM [mkSC ($"test1") false; mkSC ($"test2") false; mkSC ($"required1") true; mkSC ($"required2") true; mkSC ($"time") false] (mkSC ($"time") false)))) in mk_entity x7 x8 x9 x10) in mk_relationship x11 x12 x13) in Ok (OList [x2])) in mk_join x14) in Ok (MObj o)) in let! x15 := (let! x16 := (let! x21 := (Ok (OStr ($"test1"))) in let! x22 := (let! x17 := (Ok (OStr ($"test_a"))) in let! x18 := (Ok (OStr ($"ta"))) in let! x19 := (Ok ONone) in let! x20 := (Ok (ODataModel (mkDM [mkSC ($"test1") false; mkSC ($"test2") false; mkSC ($"required1") true; mkSC ($"required2") true; mkSC ($"time") false] (mkSC ($"time") false)))) in mk_entity x17 x18 x19 x20) in mk_column x21 x22) in let! x23 := (let! x28 := (Ok (OStr ($"required1"))) in let! x29 := (let! x24 := (Ok (OStr ($"test_b"))) in let! x25 := (Ok (OStr ($"tb"))) in let! x26 := (Ok ONone) in let! x27 := (Ok (ODataModel (mkDM [mkSC ($"test1") false; mkSC ($"test2") false; mkSC ($"required1") true; mkSC ($"required2") true; mkSC ($"time") false] (mkSC ($"time") false)))) in mk_entity x24 x25 x26 x27) in mk_column x28 x29) in Ok (OList [x16; x23])) in let! x30 := (Ok ONone) in let! x31 := (Ok ONone) in let! x32 := (let! x33 := (let! x43 := (let! x38 := (Ok (OStr ($"required1"))) in let! x39 := (let! x34 := (Ok (OStr ($"test_b"))) in let! x35 := (Ok (OStr ($"tb"))) in let! x36 := (Ok ONone) in let! x37 := (Ok (ODataModel (mkDM [mkSC ($"test1") false; mkSC ($"test2") false; mkSC ($"required1") true; mkSC ($"required2") true; mkSC ($"time") false] (mkSC ($"time") false)))) in mk_entity x34 x35 x36 x37) in mk_column x38 x39) in let! x44 := (Ok (OOp IN)) in let! x45 := (let! x40 := (Ok (OInt (1))) in let! x41 := (Ok (OInt (2))) in let! x42 := (Ok (OInt (3))) in Ok (OList [x40; x41; x42])) in mk_condition x43 x44 x45) in let! x46 := (let! x53 := (let! x51 := (Ok (OStr ($"required2"))) in let! x52 := (let! x47 := (Ok (OStr ($"test_b"))) in let! x48 := (Ok (OStr ($"tb"))) in let! x49 := (Ok ONone) in let! x50 := (Ok (ODataModel (mkDM [mkSC ($"test1") false; mkSC ($"test2") false; mkSC ($"required1") true; mkSC ($"required2") true; mkSC ($"time") false] (mkSC ($"time") false)))) in mk_entity x47 x48 x49 x50) in mk_column x51 x52) in let! x54 := (Ok (OOp EQ)) in let! x55 := (Ok (OInt (1))) in mk_condition x53 x54 x55) in let! x56 := (let! x63 := (let! x61 := (Ok (OStr ($"time"))) in let! x62 := (let! x57 := (Ok (OStr ($"test_b"))) in let! x58 := (Ok (OStr ($"tb"))) in let! x59 := (Ok ONone) in let! x60 := (Ok (ODataModel (mkDM [mkSC ($"test1") false; mkSC ($"test2") false; mkSC ($"required1") true; mkSC ($"required2") true; mkSC ($"time") false] (mkSC ($"time") false)))) in mk_entity x57 x58 x59 x60) in mk_column x61 x62) in let! x64 := (Ok (OOp GTE)) in let! x65 := (Ok (ODateTime (mkDT (mkDate 2021 1 2) 3 4 5 5 (Some 0)))) in mk_condition x63 x64 x65) in let! x66 := (let! x73 := (let! x71 := (Ok (OStr ($"time"))) in let! x72 := (let! x67 := (Ok (OStr ($"test_b"))) in let! x68 := (Ok (OStr ($"tb"))) in let! x69 := (Ok ONone) in let! x70 := (Ok (ODataModel (mkDM [mkSC ($"test1") false; mkSC ($"test2") false; mkSC ($"required1") true; mkSC ($"required2") true; mkSC ($"time") false] (mkSC ($"time") false)))) in mk_entity x67 x68 x69 x70) in mk_column x71 x72) in let! x74 := (Ok (OOp LT)) in let! x75 := (Ok (ODateTime (mkDT (mkDate 2021 1 2) 3 4 5 6 (Some 0)))) in mk_condition x73 x74 x75) in let! x76 := (let! x86 := (let! x81 := (Ok (OStr ($"required1"))) in let! x82 := (let! x77 := (Ok (OStr ($"test_b"))) in let! x78 := (Ok (OStr ($"tb"))) in let! x79 := (Ok ONone) in let! x80 := (Ok (ODataModel (mkDM [mkSC ($"test1") false; mkSC ($"test2") false; mkSC ($"required1") true; mkSC ($"required2") true; mkSC ($"time") false] (mkSC ($"time") false)))) in mk_entity x77 x78 x79 x80) in mk_column x81 x82) in let! x87 := (Ok (OOp IN)) in let! x88 := (let! x83 := (Ok (OInt (1))) in let! x84 := (Ok (OInt (2))) in let! x85 := (Ok (OInt (3))) in Ok (OList [x83; x84; x85])) in mk_condition x86 x87 x88) in let! x89 := (let! x96 := (let! x94 := (Ok (OStr ($"required2"))) in let! x95 := (let! x90 := (Ok (OStr ($"test_a"))) in let! x91 := (Ok (OStr ($"ta"))) in let! x92 := (Ok ONone) in let! x93 := (Ok (ODataModel (mkDM [mkSC ($"test1") false; mkSC ($"test2") false; mkSC ($"required1") true; mkSC ($"required2") true; mkSC ($"time") false] (mkSC ($"time") false)))) in mk_entity x90 x91 x92 x93) in mk_column x94 x95) in let! x97 := (Ok (OOp EQ)) in let! x98 := (Ok (OInt (1))) in mk_condition x96 x97 x98) in let! x99 := (let! x106 := (let! x104 := (Ok (OStr ($"time"))) in let! x105 := (let! x100 := (Ok (OStr ($"test_b"))) in let! x101 := (Ok (OStr ($"tb"))) in let! x102 := (Ok ONone) in let! x103 := (Ok (ODataModel (mkDM [mkSC ($"test1") false; mkSC ($"test2") false; mkSC ($"required1") true; mkSC ($"required2") true; mkSC ($"time") false] (mkSC ($"time") false)))) in mk_entity x100 x101 x102 x103) in mk_column x104 x105) in let! x107 := (Ok (OOp GTE)) in let! x108 := (Ok (ODateTime (mkDT (mkDate 2021 1 2) 3 4 5 5 (Some 0)))) in mk_condition x106 x107 x108) in let! x109 := (let! x116 := (let! x114 := (Ok (OStr ($"time"))) in let! x115 := (let! x110 := (Ok (OStr ($"test_a"))) in let! x111 := (Ok (OStr ($"ta"))) in let! x112 := (Ok ONone) in let! x113 := (Ok (ODataModel (mkDM [mkSC ($"test1") false; mkSC ($"test2") false; mkSC ($"required1") true; mkSC ($"required2") true; mkSC ($"time") false] (mkSC ($"time") false)))) in mk_entity x110 x111 x112 x113) in mk_column x114 x115) in let! x117 := (Ok (OOp LTE)) in let! x118 := (Ok (ODateTime (mkDT (mkDate 2021 1 2) 3 4 5 6 (Some 0)))) in mk_condition x116 x117 x118) in Ok (OList [x33; x46; x56; x66; x76; x89; x99; x109])) in let! x119 := (Ok ONone) in let! x120 := (Ok ONone) in let! x121 := (Ok ONone) in let! x122 := (Ok ONone) in let! x123 := (Ok ONone) in let! x124 := (Ok ONone) in let! x125 := (Ok ONone) in mk_query x1 (mkClauses x15 x30 x31 x32 x119 x120 x121 x122 x123 x124 x125)) in validate_required_columns q) (fun e => match e with RequiredColumnError => true | _ => false end) = true.
Proof. vm_compute. reflexivity. Qed.

(* test_or_optimizer.py, line 8: basic *)
Example t276_test_or_optimizer : match (let! g := (let! x1 := (let! x20 := (Ok (OBoolOp OR)) in let! x21 := (let! x2 := (let! x5 := (let! x3 := (Ok (OStr ($"transaction"))) in let! x4 := (Ok ONone) in mk_column x3 x4) in let! x6 := (Ok (OOp EQ)) in let! x7 := (Ok (OStr ($"a"))) in mk_condition x5 x6 x7) in let! x8 := (let! x11 := (let! x9 := (Ok (OStr ($"transaction"))) in let! x10 := (Ok ONone) in mk_column x9 x10) in let! x12 := (Ok (OOp EQ)) in let! x13 := (Ok (OStr ($"b"))) in mk_condition x11 x12 x13) in let! x14 := (let! x17 := (let! x15 := (Ok (OStr ($"transaction"))) in let! x16 := (Ok ONone) in mk_column x15 x16) in let! x18 := (Ok (OOp EQ)) in let! x19 := (Ok (OStr ($"c"))) in mk_condition x17 x18 x19) in Ok (OList [x2; x8; x14])) in mk_boolean_condition x20 x21) in Ok (OList [x1])) in match g with OList l => optimize l | _ => Raise TypeError end), (let! x22 := (let! x28 := (let! x23 := (Ok (OStr ($"transaction"))) in let! x24 := (Ok ONone) in mk_column x23 x24) in let! x29 := (Ok (OOp IN)) in let! x30 := (let! x25 := (Ok (OStr ($"a"))) in let! x26 := (Ok (OStr ($"b"))) in let! x27 := (Ok (OStr ($"c"))) in Ok (OList [x25; x26; x27])) in mk_condition x28 x29 x30) in Ok (OList [x22])) with Ok (Some l), Ok e => py_eq (OList l) e | _, _ => false end = true.
Proof. vm_compute. reflexivity. Qed.

(* test_or_optimizer.py, line 24: unsupported *)
Example t277_test_or_optimizer : match (let! g := (let! x1 := (let! x23 := (Ok (OBoolOp OR)) in let! x24 := (let! x2 := (let! x5 := (let! x3 := (Ok (OStr ($"transaction"))) in let! x4 := (Ok ONone) in mk_column x3 x4) in let! x6 := (Ok (OOp EQ)) in let! x7 := (Ok (OStr ($"a"))) in mk_condition x5 x6 x7) in let! x8 := (let! x21 := (Ok (OBoolOp OR)) in let! x22 := (let! x9 := (let! x12 := (let! x10 := (Ok (OStr ($"transaction"))) in let! x11 := (Ok ONone) in mk_column x10 x11) in let! x13 := (Ok (OOp EQ)) in let! x14 := (Ok (OStr ($"b"))) in mk_condition x12 x13 x14) in let! x15 := (let! x18 := (let! x16 := (Ok (OStr ($"transaction"))) in let! x17 := (Ok ONone) in mk_column x16 x17) in let! x19 := (Ok (OOp EQ)) in let! x20 := (Ok (OStr ($"c"))) in mk_condition x18 x19 x20) in Ok (OList [x9; x15])) in mk_boolean_condition x21 x22) in Ok (OList [x2; x8])) in mk_boolean_condition x23 x24) in Ok (OList [x1])) in match g with OList l => optimize l | _ => Raise TypeError end) with Ok None => true | _ => false end = true.
Proof. vm_compute. reflexivity. Qed.

(* test_or_optimizer.py, line 44: snql *)
Example t278_test_or_optimizer : same_str (let! q := (let! q := (let! q := (let! q := (let! q := (let! q := (let! x1 := (let! o := (let! x2 := (Ok (OStr ($"events"))) in let! x3 := (Ok ONone) in let! x4 := (Ok ONone) in let! x5 := (Ok ONone) in mk_entity x2 x3 x4 x5) in Ok (MObj o)) in let! x6 := (Ok ONone) in let! x7 := (Ok ONone) in let! x8 := (Ok ONone) in let! x9 := (Ok ONone) in let! x10 := (Ok ONone) in let! x11 := (Ok ONone) in let! x12 := (Ok ONone) in let! x13 := (Ok ONone) in let! x14 := (Ok ONone) in let! x15 := (Ok ONone) in let! x16 := (Ok ONone) in mk_query x1 (mkClauses x6 x7 x8 x9 x10 x11 x12 x13 x14 x15 x16)) in let! v := (let! x17 := (let! x18 := (Ok (OStr ($"event_id"))) in let! x19 := (Ok ONone) in mk_column x18 x19) in Ok (OList [x17])) in set_clause CSelect q v) in let! v := (let! x20 := (let! x39 := (Ok (OBoolOp OR)) in let! x40 := (let! x21 := (let! x24 := (let! x22 := (Ok (OStr ($"transaction"))) in let! x23 := (Ok ONone) in mk_column x22 x23) in let! x25 := (Ok (OOp EQ)) in let! x26 := (Ok (OStr ($"a"))) in mk_condition x24 x25 x26) in let! x27 := (let! x30 := (let! x28 := (Ok (OStr ($"transaction"))) in let! x29 := (Ok ONone) in mk_column x28 x29) in let! x31 := (Ok (OOp EQ)) in let! x32 := (Ok (OStr ($"b"))) in mk_condition x30 x31 x32) in let! x33 := (let! x36 := (let! x34 := (Ok (OStr ($"transaction"))) in let! x35 := (Ok ONone) in mk_column x34 x35) in let! x37 := (Ok (OOp EQ)) in let! x38 := (Ok (OStr ($"c"))) in mk_condition x36 x37 x38) in Ok (OList [x21; x27; x33])) in mk_boolean_condition x39 x40) in Ok (OList [x20])) in set_clause CWhere q v) in let! v := (Ok (OInt (10))) in set_clause CLimit q v) in let! v := (Ok (OInt (1))) in set_clause COffset q v) in let! v := (Ok (OInt (3600))) in set_clause CGranularity q v) in serialize q) ($"MATCH (events) SELECT event_id WHERE transaction IN array('a', 'b', 'c') LIMIT 10 OFFSET 1 GRANULARITY 3600") = true.
Proof. vm_compute. reflexivity. Qed.

(* test_invalid_query.py, line 16: match is a string *)
Example t279_test_invalid_query : fails (let! x1 := (let! o := (Ok (OStr ($"events"))) in Ok (MObj o)) in let! x2 := (Ok ONone) in let! x3 := (Ok ONone) in let! x4 := (Ok ONone) in let! x5 := (Ok ONone) in let! x6 := (Ok ONone) in let! x7 := (Ok ONone) in let! x8 := (Ok ONone) in let! x9 := (Ok ONone) in let! x10 := (Ok ONone) in let! x11 := (Ok ONone) in let! x12 := (Ok ONone) in mk_query x1 (mkClauses x2 x3 x4 x5 x6 x7 x8 x9 x10 x11 x12)) (fun e => match e with InvalidQueryError => true | _ => false end) = true.
Proof. vm_compute. reflexivity. Qed.

(* test_invalid_query.py, line 22: aliased lhs *)
Example t280_test_invalid_query : fails (let! q := (let! q := (let! x1 := (let! o := (let! x2 := (Ok (OStr ($"events"))) in let! x3 := (Ok ONone) in let! x4 := (Ok ONone) in let! x5 := (Ok ONone) in mk_entity x2 x3 x4 x5) in Ok (MObj o)) in let! x6 := (Ok ONone) in let! x7 := (Ok ONone) in let! x8 := (Ok ONone) in let! x9 := (Ok ONone) in let! x10 := (Ok ONone) in let! x11 := (Ok ONone) in let! x12 := (Ok ONone) in let! x13 := (Ok ONone) in let! x14 := (Ok ONone) in let! x15 := (Ok ONone) in let! x16 := (Ok ONone) in mk_query x1 (mkClauses x6 x7 x8 x9 x10 x11 x12 x13 x14 x15 x16)) in let! v := (let! x17 := (let! x20 := (let! x18 := (Ok (OStr ($"transaction"))) in let! x19 := (Ok ONone) in mk_column x18 x19) in let! x21 := (Ok (OStr ($"tn"))) in mk_aliased x20 x21) in Ok (OList [x17])) in set_clause CSelect q v) in let! v := (let! x22 := (let! x28 := (let! x25 := (let! x23 := (Ok (OStr ($"project_id"))) in let! x24 := (Ok ONone) in mk_column x23 x24) in let! x26 := (Ok (OStr ($"pi"))) in mk_aliased x25 x26) in let! x29 := (Ok (OOp IN)) in let! x30 := (let! x27 := (Ok (OInt (1))) in Ok (OTuple [x27])) in mk_condition x28 x29 x30) in Ok (OList [x22])) in set_clause CWhere q v) (fun e => match e with InvalidConditionError => true | _ => false end) = true.
Proof. vm_compute. reflexivity. Qed.

(* test_invalid_query.py, line 41: match *)
Example t281_test_invalid_query : fails (let! q := (let! x1 := (let! o := (let! x2 := (Ok (OStr ($"events"))) in let! x3 := (Ok ONone) in let! x4 := (Ok ONone) in let! x5 := (Ok ONone) in mk_entity x2 x3 x4 x5) in Ok (MObj o)) in let! x6 := (Ok ONone) in let! x7 := (Ok ONone) in let! x8 := (Ok ONone) in let! x9 := (Ok ONone) in let! x10 := (Ok ONone) in let! x11 := (Ok ONone) in let! x12 := (Ok ONone) in let! x13 := (Ok ONone) in let! x14 := (Ok ONone) in let! x15 := (Ok ONone) in let! x16 := (Ok ONone) in mk_query x1 (mkClauses x6 x7 x8 x9 x10 x11 x12 x13 x14 x15 x16)) in let! m := (let! o := (Ok (OInt (0))) in Ok (MObj o)) in set_match q m) (fun e => match e with InvalidQueryError => true | _ => false end) = true.
Proof. vm_compute. reflexivity. Qed.

(* test_invalid_query.py, line 43: select *)
Example t282_test_invalid_query : fails (let! q := (let! x1 := (let! o := (let! x2 := (Ok (OStr ($"events"))) in let! x3 := (Ok ONone) in let! x4 := (Ok ONone) in let! x5 := (Ok ONone) in mk_entity x2 x3 x4 x5) in Ok (MObj o)) in let! x6 := (Ok ONone) in let! x7 := (Ok ONone) in let! x8 := (Ok ONone) in let! x9 := (Ok ONone) in let! x10 := (Ok ONone) in let! x11 := (Ok ONone) in let! x12 := (Ok ONone) in let! x13 := (Ok ONone) in let! x14 := (Ok ONone) in let! x15 := (Ok ONone) in let! x16 := (Ok ONone) in mk_query x1 (mkClauses x6 x7 x8 x9 x10 x11 x12 x13 x14 x15 x16)) in let! v := (Ok (OInt (0))) in set_clause CSelect q v) (fun e => match e with InvalidQueryError => true | _ => false end) = true.
Proof. vm_compute. reflexivity. Qed.

(* test_invalid_query.py, line 43: select *)
Example t283_test_invalid_query : fails (let! q := (let! x1 := (let! o := (let! x2 := (Ok (OStr ($"events"))) in let! x3 := (Ok ONone) in let! x4 := (Ok ONone) in let! x5 := (Ok ONone) in mk_entity x2 x3 x4 x5) in Ok (MObj o)) in let! x6 := (Ok ONone) in let! x7 := (Ok ONone) in let! x8 := (Ok ONone) in let! x9 := (Ok ONone) in let! x10 := (Ok ONone) in let! x11 := (Ok ONone) in let! x12 := (Ok ONone) in let! x13 := (Ok ONone) in let! x14 := (Ok ONone) in let! x15 := (Ok ONone) in let! x16 := (Ok ONone) in mk_query x1 (mkClauses x6 x7 x8 x9 x10 x11 x12 x13 x14 x15 x16)) in let! v := (Ok (OList [])) in set_clause CSelect q v) (fun e => match e with InvalidQueryError => true | _ => false end) = true.
Proof. vm_compute. reflexivity. Qed.

(* test_invalid_query.py, line 43: select *)
Example t284_test_invalid_query : fails (let! q := (let! x1 := (let! o := (let! x2 := (Ok (OStr ($"events"))) in let! x3 := (Ok ONone) in let! x4 := (Ok ONone) in let! x5 := (Ok ONone) in mk_entity x2 x3 x4 x5) in Ok (MObj o)) in let! x6 := (Ok ONone) in let! x7 := (Ok ONone) in let! x8 := (Ok ONone) in let! x9 := (Ok ONone) in let! x10 := (Ok ONone) in let! x11 := (Ok ONone) in let! x12 := (Ok ONone) in let! x13 := (Ok ONone) in let! x14 := (Ok ONone) in let! x15 := (Ok ONone) in let! x16 := (Ok ONone) in mk_query x1 (mkClauses x6 x7 x8 x9 x10 x11 x12 x13 x14 x15 x16)) in let! v := (let! x17 := (Ok (OInt (0))) in Ok (OList [x17])) in set_clause CSelect q v) (fun e => match e with InvalidQueryError => true | _ => false end) = true.
Proof. vm_compute. reflexivity. Qed.

(* test_invalid_query.py, line 46: groupby *)
Example t285_test_invalid_query : fails (let! q := (let! x1 := (let! o := (let! x2 := (Ok (OStr ($"events"))) in let! x3 := (Ok ONone) in let! x4 := (Ok ONone) in let! x5 := (Ok ONone) in mk_entity x2 x3 x4 x5) in Ok (MObj o)) in let! x6 := (Ok ONone) in let! x7 := (Ok ONone) in let! x8 := (Ok ONone) in let! x9 := (Ok ONone) in let! x10 := (Ok ONone) in let! x11 := (Ok ONone) in let! x12 := (Ok ONone) in let! x13 := (Ok ONone) in let! x14 := (Ok ONone) in let! x15 := (Ok ONone) in let! x16 := (Ok ONone) in mk_query x1 (mkClauses x6 x7 x8 x9 x10 x11 x12 x13 x14 x15 x16)) in let! v := (Ok (OInt (0))) in set_clause CGroupby q v) (fun e => match e with InvalidQueryError => true | _ => false end) = true.
Proof. vm_compute. reflexivity. Qed.

(* test_invalid_query.py, line 46: groupby *)
Example t286_test_invalid_query : fails (let! q := (let! x1 := (let! o := (let! x2 := (Ok (OStr ($"events"))) in let! x3 := (Ok ONone) in let! x4 := (Ok ONone) in let! x5 := (Ok ONone) in mk_entity x2 x3 x4 x5) in Ok (MObj o)) in let! x6 := (Ok ONone) in let! x7 := (Ok ONone) in let! x8 := (Ok ONone) in let! x9 := (Ok ONone) in let! x10 := (Ok ONone) in let! x11 := (Ok ONone) in let! x12 := (Ok ONone) in let! x13 := (Ok ONone) in let! x14 := (Ok ONone) in let! x15 := (Ok ONone) in let! x16 := (Ok ONone) in mk_query x1 (mkClauses x6 x7 x8 x9 x10 x11 x12 x13 x14 x15 x16)) in let! v := (let! x17 := (Ok (OInt (0))) in Ok (OList [x17])) in set_clause CGroupby q v) (fun e => match e with InvalidQueryError => true | _ => false end) = true.
Proof. vm_compute. reflexivity. Qed.

(* test_invalid_query.py, line 47: where *)
Example t287_test_invalid_query : fails (let! q := (let! x1 := (let! o := (let! x2 := (Ok (OStr ($"events"))) in let! x3 := (Ok ONone) in let! x4 := (Ok ONone) in let! x5 := (Ok ONone) in mk_entity x2 x3 x4 x5) in Ok (MObj o)) in let! x6 := (Ok ONone) in let! x7 := (Ok ONone) in let! x8 := (Ok ONone) in let! x9 := (Ok ONone) in let! x10 := (Ok ONone) in let! x11 := (Ok ONone) in let! x12 := (Ok ONone) in let! x13 := (Ok ONone) in let! x14 := (Ok ONone) in let! x15 := (Ok ONone) in let! x16 := (Ok ONone) in mk_query x1 (mkClauses x6 x7 x8 x9 x10 x11 x12 x13 x14 x15 x16)) in let! v := (Ok (OInt (0))) in set_clause CWhere q v) (fun e => match e with InvalidQueryError => true | _ => false end) = true.
Proof. vm_compute. reflexivity. Qed.

(* test_invalid_query.py, line 47: where *)
Example t288_test_invalid_query : fails (let! q := (let! x1 := (let! o := (let! x2 := (Ok (OStr ($"events"))) in let! x3 := (Ok ONone) in let! x4 := (Ok ONone) in let! x5 := (Ok ONone) in mk_entity x2 x3 x4 x5) in Ok (MObj o)) in let! x6 := (Ok ONone) in let! x7 := (Ok ONone) in let! x8 := (Ok ONone) in let! x9 := (Ok ONone) in let! x10 := (Ok ONone) in let! x11 := (Ok ONone) in let! x12 := (Ok ONone) in let! x13 := (Ok ONone) in let! x14 := (Ok ONone) in let! x15 := (Ok ONone) in let! x16 := (Ok ONone) in mk_query x1 (mkClauses x6 x7 x8 x9 x10 x11 x12 x13 x14 x15 x16)) in let! v := (let! x17 := (Ok (OInt (0))) in Ok (OList [x17])) in set_clause CWhere q v) (fun e => match e with InvalidQueryError => true | _ => false end) = true.
Proof. vm_compute. reflexivity. Qed.

(* test_invalid_query.py, line 48: having *)
Example t289_test_invalid_query : fails (let! q := (let! x1 := (let! o := (let! x2 := (Ok (OStr ($"events"))) in let! x3 := (Ok ONone) in let! x4 := (Ok ONone) in let! x5 := (Ok ONone) in mk_entity x2 x3 x4 x5) in Ok (MObj o)) in let! x6 := (Ok ONone) in let! x7 := (Ok ONone) in let! x8 := (Ok ONone) in let! x9 := (Ok ONone) in let! x10 := (Ok ONone) in let! x11 := (Ok ONone) in let! x12 := (Ok ONone) in let! x13 := (Ok ONone) in let! x14 := (Ok ONone) in let! x15 := (Ok ONone) in let! x16 := (Ok ONone) in mk_query x1 (mkClauses x6 x7 x8 x9 x10 x11 x12 x13 x14 x15 x16)) in let! v := (Ok (OInt (0))) in set_clause CHaving q v) (fun e => match e with InvalidQueryError => true | _ => false end) = true.
Proof. vm_compute. reflexivity. Qed.

(* test_invalid_query.py, line 48: having *)
Example t290_test_invalid_query : fails (let! q := (let! x1 := (let! o := (let! x2 := (Ok (OStr ($"events"))) in let! x3 := (Ok ONone) in let! x4 := (Ok ONone) in let! x5 := (Ok ONone) in mk_entity x2 x3 x4 x5) in Ok (MObj o)) in let! x6 := (Ok ONone) in let! x7 := (Ok ONone) in let! x8 := (Ok ONone) in let! x9 := (Ok ONone) in let! x10 := (Ok ONone) in let! x11 := (Ok ONone) in let! x12 := (Ok ONone) in let! x13 := (Ok ONone) in let! x14 := (Ok ONone) in let! x15 := (Ok ONone) in let! x16 := (Ok ONone) in mk_query x1 (mkClauses x6 x7 x8 x9 x10 x11 x12 x13 x14 x15 x16)) in let! v := (let! x17 := (Ok (OInt (0))) in Ok (OList [x17])) in set_clause CHaving q v) (fun e => match e with InvalidQueryError => true | _ => false end) = true.
Proof. vm_compute. reflexivity. Qed.

(* test_invalid_query.py, line 49: orderby *)
Example t291_test_invalid_query : fails (let! q := (let! x1 := (let! o := (let! x2 := (Ok (OStr ($"events"))) in let! x3 := (Ok ONone) in let! x4 := (Ok ONone) in let! x5 := (Ok ONone) in mk_entity x2 x3 x4 x5) in Ok (MObj o)) in let! x6 := (Ok ONone) in let! x7 := (Ok ONone) in let! x8 := (Ok ONone) in let! x9 := (Ok ONone) in let! x10 := (Ok ONone) in let! x11 := (Ok ONone) in let! x12 := (Ok ONone) in let! x13 := (Ok ONone) in let! x14 := (Ok ONone) in let! x15 := (Ok ONone) in let! x16 := (Ok ONone) in mk_query x1 (mkClauses x6 x7 x8 x9 x10 x11 x12 x13 x14 x15 x16)) in let! v := (Ok (OInt (0))) in set_clause COrderby q v) (fun e => match e with InvalidQueryError => true | _ => false end) = true.
Proof. vm_compute. reflexivity. Qed.

(* test_invalid_query.py, line 49: orderby *)
Example t292_test_invalid_query : fails (let! q := (let! x1 := (let! o := (let! x2 := (Ok (OStr ($"events"))) in let! x3 := (Ok ONone) in let! x4 := (Ok ONone) in let! x5 := (Ok ONone) in mk_entity x2 x3 x4 x5) in Ok (MObj o)) in let! x6 := (Ok ONone) in let! x7 := (Ok ONone) in let! x8 := (Ok ONone) in let! x9 := (Ok ONone) in let! x10 := (Ok ONone) in let! x11 := (Ok ONone) in let! x12 := (Ok ONone) in let! x13 := (Ok ONone) in let! x14 := (Ok ONone) in let! x15 := (Ok ONone) in let! x16 := (Ok ONone) in mk_query x1 (mkClauses x6 x7 x8 x9 x10 x11 x12 x13 x14 x15 x16)) in let! v := (let! x17 := (Ok (OInt (0))) in Ok (OList [x17])) in set_clause COrderby q v) (fun e => match e with InvalidQueryError => true | _ => false end) = true.
Proof. vm_compute. reflexivity. Qed.

(* test_invalid_query.py, line 50: limitby *)
Example t293_test_invalid_query : fails (let! q := (let! x1 := (let! o := (let! x2 := (Ok (OStr ($"events"))) in let! x3 := (Ok ONone) in let! x4 := (Ok ONone) in let! x5 := (Ok ONone) in mk_entity x2 x3 x4 x5) in Ok (MObj o)) in let! x6 := (Ok ONone) in let! x7 := (Ok ONone) in let! x8 := (Ok ONone) in let! x9 := (Ok ONone) in let! x10 := (Ok ONone) in let! x11 := (Ok ONone) in let! x12 := (Ok ONone) in let! x13 := (Ok ONone) in let! x14 := (Ok ONone) in let! x15 := (Ok ONone) in let! x16 := (Ok ONone) in mk_query x1 (mkClauses x6 x7 x8 x9 x10 x11 x12 x13 x14 x15 x16)) in let! v := (Ok (OStr ($"a"))) in set_clause CLimitby q v) (fun e => match e with InvalidQueryError => true | _ => false end) = true.
Proof. vm_compute. reflexivity. Qed.

(* test_invalid_query.py, line 51: limit *)
Example t294_test_invalid_query : fails (let! q := (let! x1 := (let! o := (let! x2 := (Ok (OStr ($"events"))) in let! x3 := (Ok ONone) in let! x4 := (Ok ONone) in let! x5 := (Ok ONone) in mk_entity x2 x3 x4 x5) in Ok (MObj o)) in let! x6 := (Ok ONone) in let! x7 := (Ok ONone) in let! x8 := (Ok ONone) in let! x9 := (Ok ONone) in let! x10 := (Ok ONone) in let! x11 := (Ok ONone) in let! x12 := (Ok ONone) in let! x13 := (Ok ONone) in let! x14 := (Ok ONone) in let! x15 := (Ok ONone) in let! x16 := (Ok ONone) in mk_query x1 (mkClauses x6 x7 x8 x9 x10 x11 x12 x13 x14 x15 x16)) in let! v := (Ok (OInt (100000))) in set_clause CLimit q v) is_invalid_expression = true.
Proof. vm_compute. reflexivity. Qed.

(* test_invalid_query.py, line 52: offset *)
Example t295_test_invalid_query : fails (let! q := (let! x1 := (let! o := (let! x2 := (Ok (OStr ($"events"))) in let! x3 := (Ok ONone) in let! x4 := (Ok ONone) in let! x5 := (Ok ONone) in mk_entity x2 x3 x4 x5) in Ok (MObj o)) in let! x6 := (Ok ONone) in let! x7 := (Ok ONone) in let! x8 := (Ok ONone) in let! x9 := (Ok ONone) in let! x10 := (Ok ONone) in let! x11 := (Ok ONone) in let! x12 := (Ok ONone) in let! x13 := (Ok ONone) in let! x14 := (Ok ONone) in let! x15 := (Ok ONone) in let! x16 := (Ok ONone) in mk_query x1 (mkClauses x6 x7 x8 x9 x10 x11 x12 x13 x14 x15 x16)) in let! v := (Ok (OStr ($""))) in set_clause COffset q v) is_invalid_expression = true.
Proof. vm_compute. reflexivity. Qed.

(* test_invalid_query.py, line 53: granularity *)
Example t296_test_invalid_query : fails (let! q := (let! x1 := (let! o := (let! x2 := (Ok (OStr ($"events"))) in let! x3 := (Ok ONone) in let! x4 := (Ok ONone) in let! x5 := (Ok ONone) in mk_entity x2 x3 x4 x5) in Ok (MObj o)) in let! x6 := (Ok ONone) in let! x7 := (Ok ONone) in let! x8 := (Ok ONone) in let! x9 := (Ok ONone) in let! x10 := (Ok ONone) in let! x11 := (Ok ONone) in let! x12 := (Ok ONone) in let! x13 := (Ok ONone) in let! x14 := (Ok ONone) in let! x15 := (Ok ONone) in let! x16 := (Ok ONone) in mk_query x1 (mkClauses x6 x7 x8 x9 x10 x11 x12 x13 x14 x15 x16)) in let! v := (Ok (OInt (-1))) in set_clause CGranularity q v) is_invalid_expression = true.
Proof. vm_compute. reflexivity. Qed.

(* test_invalid_query.py, line 97: inner query *)
Example t297_test_invalid_query : fails (let! q := (let! x1 := (let! q := (let! x2 := (let! o := (let! x3 := (Ok (OStr ($"events"))) in let! x4 := (Ok ONone) in let! x5 := (Ok ONone) in let! x6 := (Ok ONone) in mk_entity x3 x4 x5 x6) in Ok (MObj o)) in let! x7 := (Ok ONone) in let! x8 := (Ok ONone) in let! x9 := (Ok ONone) in let! x10 := (Ok ONone) in let! x11 := (Ok ONone) in let! x12 := (Ok ONone) in let! x13 := (Ok ONone) in let! x14 := (Ok ONone) in let! x15 := (Ok ONone) in let! x16 := (Ok ONone) in let! x17 := (Ok ONone) in mk_query x2 (mkClauses x7 x8 x9 x10 x11 x12 x13 x14 x15 x16 x17)) in Ok (MQuery q)) in let! x18 := (Ok ONone) in let! x19 := (Ok ONone) in let! x20 := (Ok ONone) in let! x21 := (Ok ONone) in let! x22 := (Ok ONone) in let! x23 := (Ok ONone) in let! x24 := (Ok ONone) in let! x25 := (Ok ONone) in let! x26 := (Ok ONone) in let! x27 := (Ok ONone) in let! x28 := (Ok ONone) in mk_query x1 (mkClauses x18 x19 x20 x21 x22 x23 x24 x25 x26 x27 x28)) in let! v := (let! x29 := (let! x30 := (Ok (OStr ($"event_id"))) in let! x31 := (Ok ONone) in mk_column x30 x31) in let! x32 := (let! x33 := (Ok (OStr ($"title"))) in let! x34 := (Ok ONone) in mk_column x33 x34) in Ok (OList [x29; x32])) in set_clause CSelect q v) (fun e => match e with InvalidQueryError => true | _ => false end) = true.
Proof. vm_compute. reflexivity. Qed.

(* test_invalid_query.py, line 108: inner query set *)
Example t298_test_invalid_query : fails (let! q := (let! q := (let! x1 := (let! q := (let! x2 := (let! o := (let! x3 := (Ok (OStr ($"events"))) in let! x4 := (Ok ONone) in let! x5 := (Ok ONone) in let! x6 := (Ok ONone) in mk_entity x3 x4 x5 x6) in Ok (MObj o)) in let! x7 := (let! x8 := (let! x9 := (Ok (OStr ($"title"))) in let! x10 := (Ok ONone) in mk_column x9 x10) in let! x11 := (let! x12 := (Ok (OStr ($"timestamp"))) in let! x13 := (Ok ONone) in mk_column x12 x13) in Ok (OList [x8; x11])) in let! x14 := (Ok ONone) in let! x15 := (Ok ONone) in let! x16 := (Ok ONone) in let! x17 := (Ok ONone) in let! x18 := (Ok ONone) in let! x19 := (Ok ONone) in let! x20 := (Ok ONone) in let! x21 := (Ok ONone) in let! x22 := (Ok ONone) in let! x23 := (Ok ONone) in mk_query x2 (mkClauses x7 x14 x15 x16 x17 x18 x19 x20 x21 x22 x23)) in Ok (MQuery q)) in let! x24 := (Ok ONone) in let! x25 := (Ok ONone) in let! x26 := (Ok ONone) in let! x27 := (Ok ONone) in let! x28 := (Ok ONone) in let! x29 := (Ok ONone) in let! x30 := (Ok ONone) in let! x31 := (Ok ONone) in let! x32 := (Ok ONone) in let! x33 := (Ok ONone) in let! x34 := (Ok ONone) in mk_query x1 (mkClauses x24 x25 x26 x27 x28 x29 x30 x31 x32 x33 x34)) in let! m := (let! q := (let! x35 := (let! o := (let! x36 := (Ok (OStr ($"events"))) in let! x37 := (Ok ONone) in let! x38 := (Ok ONone) in let! x39 := (Ok ONone) in mk_entity x36 x37 x38 x39) in Ok (MObj o)) in let! x40 := (Ok ONone) in let! x41 := (Ok ONone) in let! x42 := (Ok ONone) in let! x43 := (Ok ONone) in let! x44 := (Ok ONone) in let! x45 := (Ok ONone) in let! x46 := (Ok ONone) in let! x47 := (Ok ONone) in let! x48 := (Ok ONone) in let! x49 := (Ok ONone) in let! x50 := (Ok ONone) in mk_query x35 (mkClauses x40 x41 x42 x43 x44 x45 x46 x47 x48 x49 x50)) in Ok (MQuery q)) in set_match q m) in let! v := (let! x51 := (let! x55 := (Ok (OStr ($"uniq"))) in let! x56 := (let! x52 := (let! x53 := (Ok (OStr ($"new_event"))) in let! x54 := (Ok ONone) in mk_column x53 x54) in Ok (OList [x52])) in let! x57 := (Ok (OStr ($"uniq_event"))) in mk_function x55 x56 x57) in let! x58 := (let! x59 := (Ok (OStr ($"title"))) in let! x60 := (Ok ONone) in mk_column x59 x60) in Ok (OList [x51; x58])) in set_clause CSelect q v) (fun e => match e with InvalidQueryError => true | _ => false end) = true.
Proof. vm_compute. reflexivity. Qed.
