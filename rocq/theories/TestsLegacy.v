(** GENERATED by tools/gen_tests_legacy.py from /repo/tests/test_legacy.py and
    test_legacy_api.py: the repository's own tests of json_to_snql, run on the model.
    These are tests of the model, not properties. *)
From Verif Require Import PyBase Objects Exprs Query Metrics Mql MetricsQuery Request Strptime Legacy Concrete ConcreteLegacy.
#[local] Existing Instance demoRT.
#[local] Existing Instance demoCV.
Open Scope Z_scope.

(** json_to_snql(body, entity): dataset, the flags that are set (legacy apart) and the
    printed query *)
Definition converts (body : obj) (entity : str) (lines : list str) (dataset : str) (fs : list (str * obj)) : bool :=
  match snd (json_to_snql body (OStr entity)) with
  | Ok (mkRequest d _ (RQuery q) (RFlags f) _ _) =>
      match print q, flags_to_dict f with
      | Ok s, Ok l => str_eqb s (join [NL] lines) && py_eq d (OStr dataset)
          && py_eq (dict_obj l) (dict_obj (fs ++ [($"legacy", OBool true)]))
      | _, _ => false
      end
  | _ => false
  end.

(* test_legacy.py tests[0], line 8 *)
Example tests_0 : converts
  (ODict [($"selected_columns"); ($"orderby"); ($"offset"); ($"limit"); ($"limitby"); ($"project"); ($"organization"); ($"dataset"); ($"from_date"); ($"to_date"); ($"groupby"); ($"conditions"); ($"having"); ($"aggregations"); ($"consistent"); ($"granularity"); ($"totals"); ($"sample"); ($"debug")] [(OList [(OStr ($"project_id")); (OStr ($"release"))]); (OStr ($"sessions")); (OInt (0)); (OInt (100)); (OList [(OInt (11)); (OStr ($"release"))]); (OList [(OInt (2))]); (OTuple [(OInt (2))]); (OStr ($"sessions")); (OStr ($"2020-10-17T20:51:46.110774")); (OStr ($"2021-01-15T20:51:47.110825")); (OList [(OStr ($"release")); (OStr ($"project_id"))]); (OList [(OList [(OStr ($"project_id")); (OStr ($"IN")); (OList [(OInt (2))])]); (OList [(OStr ($"array_stuff")); (OStr ($"IN")); (OList [(OList [(OInt (2))])])]); (OList [(OStr ($"tuple_stuff")); (OStr ($"IN")); (OTuple [(OTuple [(OInt (2))])])]); (OList [(OStr ($"bucketed_started")); (OStr ($">")); (OStr ($"2020-10-17T20:51:46.110774"))])]); (OList [(OList [(OStr ($"min_users")); (OStr ($">")); (OInt (10))])]); (OList [(OList [(OStr ($"min")); (OList [(OList [(OStr ($"max")); (OList [(OStr ($"users"))]); (OStr ($"max_users"))])]); (OStr ($"min_users"))])]); (OBool true); (OInt (86400)); (OBool true); (OFloat (FFin false 3602879701896397%N (-55))); (OBool true)])
  ($"sessions")
  [($"MATCH (sessions SAMPLE 0.100000)"); ($"SELECT min(max(users) AS `max_users`) AS `min_users`, project_id, release"); ($"BY release, project_id"); ($"WHERE org_id IN tuple(2) AND started >= toDateTime('2020-10-17T20:51:46.110774') AND started < toDateTime('2021-01-15T20:51:47.110825') AND project_id IN tuple(2) AND project_id IN tuple(2) AND array_stuff IN tuple(tuple(2)) AND tuple_stuff IN tuple(tuple(2)) AND bucketed_started > toDateTime('2020-10-17T20:51:46.110774')"); ($"HAVING min_users > 10"); ($"ORDER BY sessions ASC"); ($"LIMIT 11 BY release"); ($"LIMIT 100"); ($"OFFSET 0"); ($"GRANULARITY 86400"); ($"TOTALS True")]
  ($"sessions") [(($"consistent"), OBool true); (($"debug"), OBool true)] = true.
Proof. vm_compute. reflexivity. Qed.

(* test_legacy.py tests[1], line 62 *)
Example tests_1 : converts
  (ODict [($"selected_columns"); ($"orderby"); ($"offset"); ($"limit"); ($"limitby"); ($"project"); ($"organization"); ($"dataset"); ($"from_date"); ($"to_date"); ($"groupby"); ($"conditions"); ($"having"); ($"aggregations"); ($"consistent"); ($"sample")] [(OList [(OStr ($"project_id")); (OStr ($"release"))]); (OList [(OStr ($"sessions")); (OStr ($"-project_id"))]); (OInt (0)); (OInt (100)); (OList [(OInt (11)); (OStr ($"release"))]); (OList [(OInt (2))]); (OTuple [(OInt (2))]); (OStr ($"sessions")); (OStr ($"2020-10-17T20:51:46.110774")); (OStr ($"2021-01-15T20:51:47.110825")); (OList [(OStr ($"release")); (OStr ($"project_id"))]); (OList [(OList [(OStr ($"project_id")); (OStr ($"IN")); (OList [(OInt (2))])]); (OList [(OStr ($"array_stuff")); (OStr ($"IN")); (OList [(OList [(OInt (2))])])]); (OList [(OStr ($"tuple_stuff")); (OStr ($"IN")); (OTuple [(OTuple [(OInt (2))])])]); (OList [(OStr ($"bucketed_started")); (OStr ($">")); (OStr ($"2020-10-17T20:51:46.110774"))])]); (OList [(OList [(OStr ($"min_users")); (OStr ($">")); (OInt (10))])]); (OList [(OList [(OStr ($"min")); (OList [(OList [(OStr ($"max")); (OList [(OStr ($"users"))]); (OStr ($"max_users"))])]); (OStr ($"min_users"))])]); (OBool true); (OInt (1000))])
  ($"sessions")
  [($"MATCH (sessions SAMPLE 1000.0)"); ($"SELECT min(max(users) AS `max_users`) AS `min_users`, project_id, release"); ($"BY release, project_id"); ($"WHERE org_id IN tuple(2) AND started >= toDateTime('2020-10-17T20:51:46.110774') AND started < toDateTime('2021-01-15T20:51:47.110825') AND project_id IN tuple(2) AND project_id IN tuple(2) AND array_stuff IN tuple(tuple(2)) AND tuple_stuff IN tuple(tuple(2)) AND bucketed_started > toDateTime('2020-10-17T20:51:46.110774')"); ($"HAVING min_users > 10"); ($"ORDER BY sessions ASC, project_id DESC"); ($"LIMIT 11 BY release"); ($"LIMIT 100"); ($"OFFSET 0")]
  ($"sessions") [(($"consistent"), OBool true)] = true.
Proof. vm_compute. reflexivity. Qed.

(* test_legacy.py tests[2], line 110 *)
Example tests_2 : converts
  (ODict [($"selected_columns"); ($"orderby"); ($"offset"); ($"limit"); ($"limitby"); ($"project"); ($"organization"); ($"dataset"); ($"from_date"); ($"to_date"); ($"groupby"); ($"conditions"); ($"having"); ($"aggregations"); ($"consistent"); ($"turbo")] [(OList [(OStr ($"project_id")); (OStr ($"release"))]); (OList [(OList [(OStr ($"divide")); (OList [(OStr ($"sessions_crashed")); (OStr ($"sessions"))])])]); (OInt (0)); (OInt (100)); (OList [(OInt (11)); (OStr ($"release"))]); (OList [(OInt (2))]); (OTuple [(OInt (2))]); (OStr ($"sessions")); (OStr ($"2020-10-17T20:51:46.110774")); (OStr ($"2021-01-15T20:51:47.110825")); (OList [(OStr ($"release")); (OStr ($"project_id"))]); (OList [(OList [(OStr ($"project_id")); (OStr ($"IN")); (OList [(OInt (2))])]); (OList [(OStr ($"array_stuff")); (OStr ($"IN")); (OList [(OList [(OInt (2))])])]); (OList [(OStr ($"tuple_stuff")); (OStr ($"IN")); (OTuple [(OTuple [(OInt (2))])])]); (OList [(OStr ($"bucketed_started")); (OStr ($">")); (OStr ($"2020-10-17T20:51:46.110774"))])]); (OList [(OList [(OStr ($"min_users")); (OStr ($">")); (OInt (10))])]); (OList [(OList [(OStr ($"min")); (OList [(OList [(OStr ($"max")); (OList [(OStr ($"users"))]); (OStr ($"max_users"))])]); (OStr ($"min_users"))])]); (OBool false); (OBool true)])
  ($"sessions")
  [($"MATCH (sessions)"); ($"SELECT min(max(users) AS `max_users`) AS `min_users`, project_id, release"); ($"BY release, project_id"); ($"WHERE org_id IN tuple(2) AND started >= toDateTime('2020-10-17T20:51:46.110774') AND started < toDateTime('2021-01-15T20:51:47.110825') AND project_id IN tuple(2) AND project_id IN tuple(2) AND array_stuff IN tuple(tuple(2)) AND tuple_stuff IN tuple(tuple(2)) AND bucketed_started > toDateTime('2020-10-17T20:51:46.110774')"); ($"HAVING min_users > 10"); ($"ORDER BY divide(sessions_crashed, sessions) ASC"); ($"LIMIT 11 BY release"); ($"LIMIT 100"); ($"OFFSET 0")]
  ($"sessions") [(($"turbo"), OBool true)] = true.
Proof. vm_compute. reflexivity. Qed.

(* test_legacy.py tests[3], line 158 *)
Example tests_3 : converts
  (ODict [($"selected_columns"); ($"orderby"); ($"offset"); ($"limit"); ($"limitby"); ($"project"); ($"organization"); ($"dataset"); ($"from_date"); ($"to_date"); ($"conditions"); ($"having"); ($"aggregations"); ($"consistent"); ($"arrayjoin")] [(OList [(OStr ($"project_id")); (OStr ($"release")); (OStr ($"array_stuff"))]); (OList [(OStr ($"sessions")); (OStr ($"-project_id"))]); (OInt (0)); (OInt (100)); (OList [(OInt (11)); (OStr ($"release"))]); (OList [(OInt (2))]); (OTuple [(OInt (2))]); (OStr ($"sessions")); (OStr ($"2020-10-17T20:51:46.110774")); (OStr ($"2021-01-15T20:51:47.110825")); (OList [(OList [(OStr ($"project_id")); (OStr ($"IN")); (OList [(OInt (2))])]); (OList [(OStr ($"array_stuff")); (OStr ($"IN")); (OList [(OList [(OInt (2))])])]); (OList [(OStr ($"tuple_stuff")); (OStr ($"IN")); (OTuple [(OTuple [(OInt (2))])])]); (OList [(OStr ($"bucketed_started")); (OStr ($">")); (OStr ($"2020-10-17T20:51:46.110774"))])]); (OList [(OList [(OStr ($"min_users")); (OStr ($">")); (OInt (10))])]); (OList []); (OBool false); (OStr ($"array_stuff"))])
  ($"sessions")
  [($"MATCH (sessions)"); ($"SELECT project_id, release, array_stuff"); ($"ARRAY JOIN array_stuff"); ($"WHERE org_id IN tuple(2) AND started >= toDateTime('2020-10-17T20:51:46.110774') AND started < toDateTime('2021-01-15T20:51:47.110825') AND project_id IN tuple(2) AND project_id IN tuple(2) AND array_stuff IN tuple(tuple(2)) AND tuple_stuff IN tuple(tuple(2)) AND bucketed_started > toDateTime('2020-10-17T20:51:46.110774')"); ($"HAVING min_users > 10"); ($"ORDER BY sessions ASC, project_id DESC"); ($"LIMIT 11 BY release"); ($"LIMIT 100"); ($"OFFSET 0")]
  ($"sessions") [] = true.
Proof. vm_compute. reflexivity. Qed.

(* test_legacy.py tests[4], line 204 *)
Example tests_4 : converts
  (ODict [($"groupby"); ($"orderby"); ($"offset"); ($"limit"); ($"limitby"); ($"project"); ($"organization"); ($"dataset"); ($"from_date"); ($"to_date"); ($"conditions"); ($"having"); ($"aggregations"); ($"consistent")] [(OList [(OStr ($"project_id")); (OStr ($"release"))]); (OList [(OStr ($"sessions")); (OStr ($"-project_id"))]); (OInt (0)); (OInt (100)); (OList [(OInt (11)); (OStr ($"release"))]); (OList [(OInt (2))]); (OTuple [(OInt (2))]); (OStr ($"sessions")); (OStr ($"2020-10-17T20:51:46.110774")); (OStr ($"2021-01-15T20:51:47.110825")); (OList [(OList [(OStr ($"project_id")); (OStr ($"IN")); (OList [(OInt (2))])]); (OList [(OStr ($"array_stuff")); (OStr ($"IN")); (OList [(OList [(OInt (2))])])]); (OList [(OStr ($"tuple_stuff")); (OStr ($"IN")); (OTuple [(OTuple [(OInt (2))])])]); (OList [(OStr ($"bucketed_started")); (OStr ($">")); (OStr ($"2020-10-17T20:51:46.110774"))])]); (OList [(OList [(OStr ($"min_users")); (OStr ($">")); (OInt (10))])]); (OList [(OList [(OStr ($"apdex(duration, 300)")); ONone; (OStr ($"apdex"))]); (OList [(OStr ($"uniqIf(user, greater(duration, 1200))")); ONone; (OStr ($"misery"))]); (OList [(OStr ($"quantile(0.75)")); (OStr ($"duration")); (OStr ($"p75"))]); (OList [(OStr ($"divide(count(), divide(120, 60))")); ONone; (OStr ($"epm"))])]); (OBool false)])
  ($"sessions")
  [($"MATCH (sessions)"); ($"SELECT apdex(duration, 300) AS `apdex`, uniqIf(user, greater(duration, 1200)) AS `misery`, quantile(0.75)(duration) AS `p75`, divide(count(), divide(120, 60)) AS `epm`"); ($"BY project_id, release"); ($"WHERE org_id IN tuple(2) AND started >= toDateTime('2020-10-17T20:51:46.110774') AND started < toDateTime('2021-01-15T20:51:47.110825') AND project_id IN tuple(2) AND project_id IN tuple(2) AND array_stuff IN tuple(tuple(2)) AND tuple_stuff IN tuple(tuple(2)) AND bucketed_started > toDateTime('2020-10-17T20:51:46.110774')"); ($"HAVING min_users > 10"); ($"ORDER BY sessions ASC, project_id DESC"); ($"LIMIT 11 BY release"); ($"LIMIT 100"); ($"OFFSET 0")]
  ($"sessions") [] = true.
Proof. vm_compute. reflexivity. Qed.

(* test_legacy.py tests[5], line 254 *)
Example tests_5 : converts
  (ODict [($"selected_columns"); ($"project"); ($"organization"); ($"dataset"); ($"from_date"); ($"to_date"); ($"groupby"); ($"conditions"); ($"aggregations"); ($"granularity"); ($"consistent")] [(OList [(OStr ($"bucketed_started")); (OStr ($"sessions_crashed")); (OStr ($"sessions_abnormal")); (OStr ($"sessions")); (OStr ($"sessions_errored"))]); (OList [(OInt (2))]); (OInt (1)); (OStr ($"sessions")); (OStr ($"2021-04-07T17:00:00")); (OStr ($"2021-04-21T16:49:00")); (OList [(OStr ($"bucketed_started"))]); (OList [(OList [(OStr ($"release")); (OStr ($"=")); (OStr ($"1.1.4"))]); (OList [(OList [(OStr ($"environment")); (OStr ($"=")); (OStr ($"production"))])]); (OList [(OStr ($"project_id")); (OStr ($"IN")); (OList [(OInt (2))])])]); (OList []); (OInt (3600)); (OBool false)])
  ($"sessions")
  [($"MATCH (sessions)"); ($"SELECT bucketed_started, sessions_crashed, sessions_abnormal, sessions, sessions_errored"); ($"BY bucketed_started"); ($"WHERE org_id = 1 AND started >= toDateTime('2021-04-07T17:00:00') AND started < toDateTime('2021-04-21T16:49:00') AND project_id IN tuple(2) AND release = '1.1.4' AND environment = 'production' AND project_id IN tuple(2)"); ($"GRANULARITY 3600")]
  ($"sessions") [] = true.
Proof. vm_compute. reflexivity. Qed.

(* test_legacy.py sentry_tests[0], line 338 *)
Example sentry_tests_0 : converts
  (ODict [($"selected_columns"); ($"project"); ($"organization"); ($"dataset"); ($"from_date"); ($"to_date"); ($"groupby"); ($"conditions"); ($"aggregations"); ($"consistent")] [(OList [(OStr ($"release")); (OStr ($"project_id")); (OStr ($"users")); (OStr ($"sessions"))]); (OList [(OInt (2))]); (OInt (2)); (OStr ($"sessions")); (OStr ($"2020-10-17T20:51:46.110774")); (OStr ($"2021-01-15T20:51:47.110825")); (OList [(OStr ($"release")); (OStr ($"project_id"))]); (OList [(OList [(OStr ($"release")); (OStr ($"IN")); (OList [(OStr ($"foo@1.0.0")); (OStr ($"foo@2.0.0"))])]); (OList [(OStr ($"project_id")); (OStr ($"IN")); (OList [(OInt (2))])])]); (OList []); (OBool false)])
  ($"sessions")
  [($"MATCH (sessions)"); ($"SELECT release, project_id, users, sessions"); ($"BY release, project_id"); ($"WHERE org_id = 2 AND started >= toDateTime('2020-10-17T20:51:46.110774') AND started < toDateTime('2021-01-15T20:51:47.110825') AND project_id IN tuple(2) AND release IN tuple('foo@1.0.0', 'foo@2.0.0') AND project_id IN tuple(2)")]
  ($"sessions") [] = true.
Proof. vm_compute. reflexivity. Qed.

(* test_legacy.py sentry_tests[1], line 370 *)
Example sentry_tests_1 : converts
  (ODict [($"selected_columns"); ($"project"); ($"organization"); ($"dataset"); ($"from_date"); ($"to_date"); ($"groupby"); ($"conditions"); ($"aggregations"); ($"granularity"); ($"consistent")] [(OList [(OStr ($"release")); (OStr ($"project_id")); (OStr ($"bucketed_started")); (OStr ($"sessions"))]); (OList [(OInt (2))]); (OInt (2)); (OStr ($"sessions")); (OStr ($"2020-10-17T20:51:46.110774")); (OStr ($"2021-01-15T20:51:47.110825")); (OList [(OStr ($"release")); (OStr ($"project_id")); (OStr ($"bucketed_started"))]); (OList [(OList [(OStr ($"release")); (OStr ($"IN")); (OList [(OStr ($"foo@1.0.0")); (OStr ($"foo@2.0.0"))])]); (OList [(OStr ($"project_id")); (OStr ($"IN")); (OList [(OInt (2))])]); (OList [(OStr ($"project_id")); (OStr ($"IN")); (OList [(OInt (2))])])]); (OList []); (OInt (3600)); (OBool false)])
  ($"sessions")
  [($"MATCH (sessions)"); ($"SELECT release, project_id, bucketed_started, sessions"); ($"BY release, project_id, bucketed_started"); ($"WHERE org_id = 2 AND started >= toDateTime('2020-10-17T20:51:46.110774') AND started < toDateTime('2021-01-15T20:51:47.110825') AND project_id IN tuple(2) AND release IN tuple('foo@1.0.0', 'foo@2.0.0') AND project_id IN tuple(2) AND project_id IN tuple(2)"); ($"GRANULARITY 3600")]
  ($"sessions") [] = true.
Proof. vm_compute. reflexivity. Qed.

(* test_legacy.py sentry_tests[2], line 411 *)
Example sentry_tests_2 : converts
  (ODict [($"selected_columns"); ($"project"); ($"organization"); ($"dataset"); ($"from_date"); ($"to_date"); ($"groupby"); ($"conditions"); ($"aggregations"); ($"granularity"); ($"consistent")] [(OList [(OStr ($"release")); (OStr ($"project_id")); (OStr ($"bucketed_started")); (OStr ($"users"))]); (OList [(OInt (2))]); (OInt (2)); (OStr ($"sessions")); (OStr ($"2020-10-17T20:51:46.110774")); (OStr ($"2021-01-15T20:51:47.110825")); (OList [(OStr ($"release")); (OStr ($"project_id")); (OStr ($"bucketed_started"))]); (OList [(OList [(OStr ($"release")); (OStr ($"IN")); (OList [(OStr ($"foo@1.0.0")); (OStr ($"foo@2.0.0"))])]); (OList [(OStr ($"project_id")); (OStr ($"IN")); (OList [(OInt (2))])]); (OList [(OStr ($"project_id")); (OStr ($"IN")); (OList [(OInt (2))])])]); (OList []); (OInt (3600)); (OBool false)])
  ($"sessions")
  [($"MATCH (sessions)"); ($"SELECT release, project_id, bucketed_started, users"); ($"BY release, project_id, bucketed_started"); ($"WHERE org_id = 2 AND started >= toDateTime('2020-10-17T20:51:46.110774') AND started < toDateTime('2021-01-15T20:51:47.110825') AND project_id IN tuple(2) AND release IN tuple('foo@1.0.0', 'foo@2.0.0') AND project_id IN tuple(2) AND project_id IN tuple(2)"); ($"GRANULARITY 3600")]
  ($"sessions") [] = true.
Proof. vm_compute. reflexivity. Qed.

(* test_legacy.py sentry_tests[3], line 447 *)
Example sentry_tests_3 : converts
  (ODict [($"selected_columns"); ($"project"); ($"organization"); ($"dataset"); ($"from_date"); ($"to_date"); ($"groupby"); ($"conditions"); ($"aggregations"); ($"consistent")] [(OList [(OStr ($"release")); (OStr ($"project_id"))]); (OList [(OInt (2))]); (OInt (2)); (OStr ($"sessions")); (OStr ($"2020-10-17T20:51:46.110774")); (OStr ($"2021-01-15T20:51:47.110825")); (OList [(OStr ($"release")); (OStr ($"project_id"))]); (OList [(OList [(OStr ($"release")); (OStr ($"IN")); (OList [(OStr ($"foo@1.0.0")); (OStr ($"dummy-release"))])]); (OList [(OStr ($"project_id")); (OStr ($"IN")); (OList [(OInt (2))])])]); (OList []); (OBool false)])
  ($"sessions")
  [($"MATCH (sessions)"); ($"SELECT release, project_id"); ($"BY release, project_id"); ($"WHERE org_id = 2 AND started >= toDateTime('2020-10-17T20:51:46.110774') AND started < toDateTime('2021-01-15T20:51:47.110825') AND project_id IN tuple(2) AND release IN tuple('foo@1.0.0', 'dummy-release') AND project_id IN tuple(2)")]
  ($"sessions") [] = true.
Proof. vm_compute. reflexivity. Qed.

(* test_legacy.py sentry_tests[4], line 479 *)
Example sentry_tests_4 : converts
  (ODict [($"selected_columns"); ($"project"); ($"organization"); ($"dataset"); ($"from_date"); ($"to_date"); ($"groupby"); ($"conditions"); ($"aggregations"); ($"consistent")] [(OList [(OList [(OStr ($"min")); (OList [(OStr ($"started"))]); (OStr ($"oldest"))]); (OStr ($"project_id")); (OStr ($"release"))]); (OList [(OInt (2))]); (OInt (2)); (OStr ($"sessions")); (OStr ($"2020-10-17T20:51:46.110774")); (OStr ($"2021-01-15T20:51:47.110825")); (OList [(OStr ($"release")); (OStr ($"project_id"))]); (OList [(OList [(OStr ($"release")); (OStr ($"IN")); (OList [(OStr ($"foo@1.0.0"))])]); (OList [(OStr ($"project_id")); (OStr ($"IN")); (OList [(OInt (2))])])]); (OList []); (OBool false)])
  ($"sessions")
  [($"MATCH (sessions)"); ($"SELECT min(started) AS `oldest`, project_id, release"); ($"BY release, project_id"); ($"WHERE org_id = 2 AND started >= toDateTime('2020-10-17T20:51:46.110774') AND started < toDateTime('2021-01-15T20:51:47.110825') AND project_id IN tuple(2) AND release IN tuple('foo@1.0.0') AND project_id IN tuple(2)")]
  ($"sessions") [] = true.
Proof. vm_compute. reflexivity. Qed.

(* test_legacy.py sentry_tests[5], line 512 *)
Example sentry_tests_5 : converts
  (ODict [($"selected_columns"); ($"project"); ($"organization"); ($"dataset"); ($"from_date"); ($"to_date"); ($"groupby"); ($"conditions"); ($"aggregations"); ($"consistent")] [(OList [(OStr ($"release")); (OStr ($"project_id")); (OStr ($"users")); (OStr ($"sessions"))]); (OInt (2)); (OInt (2)); (OStr ($"sessions")); (OStr ($"2020-10-17T20:51:46.110774")); (OStr ($"2021-01-15T20:51:47.110825")); (OList [(OStr ($"release")); (OStr ($"project_id"))]); (OList [(OList [(OStr ($"release")); (OStr ($"IN")); (OList [(OStr ($"foo@1.0.0")); (OStr ($"foo@2.0.0")); (OStr ($"dummy-release"))])]); (OList [(OStr ($"project_id")); (OStr ($"IN")); (OList [(OInt (2))])])]); (OList []); (OBool false)])
  ($"sessions")
  [($"MATCH (sessions)"); ($"SELECT release, project_id, users, sessions"); ($"BY release, project_id"); ($"WHERE org_id = 2 AND started >= toDateTime('2020-10-17T20:51:46.110774') AND started < toDateTime('2021-01-15T20:51:47.110825') AND project_id IN tuple(2) AND release IN tuple('foo@1.0.0', 'foo@2.0.0', 'dummy-release') AND project_id IN tuple(2)")]
  ($"sessions") [] = true.
Proof. vm_compute. reflexivity. Qed.

(* test_legacy.py sentry_tests[6], line 544 *)
Example sentry_tests_6 : converts
  (ODict [($"selected_columns"); ($"project"); ($"organization"); ($"dataset"); ($"from_date"); ($"to_date"); ($"groupby"); ($"conditions"); ($"aggregations"); ($"consistent")] [(OList [(OStr ($"release")); (OStr ($"project_id")); (OStr ($"duration_quantiles")); (OStr ($"sessions")); (OStr ($"sessions_errored")); (OStr ($"sessions_crashed")); (OStr ($"sessions_abnormal")); (OStr ($"users")); (OStr ($"users_crashed"))]); (OList [(OInt (2))]); (OInt (2)); (OStr ($"sessions")); (OStr ($"2020-10-17T20:51:46.110774")); (OStr ($"2021-01-15T20:51:47.110825")); (OList [(OStr ($"release")); (OStr ($"project_id"))]); (OList [(OList [(OStr ($"release")); (OStr ($"IN")); (OList [(OStr ($"foo@1.0.0")); (OStr ($"foo@2.0.0"))])]); (OList [(OStr ($"project_id")); (OStr ($"IN")); (OList [(OInt (2))])])]); (OList []); (OBool false)])
  ($"sessions")
  [($"MATCH (sessions)"); ($"SELECT release, project_id, duration_quantiles, sessions, sessions_errored, sessions_crashed, sessions_abnormal, users, users_crashed"); ($"BY release, project_id"); ($"WHERE org_id = 2 AND started >= toDateTime('2020-10-17T20:51:46.110774') AND started < toDateTime('2021-01-15T20:51:47.110825') AND project_id IN tuple(2) AND release IN tuple('foo@1.0.0', 'foo@2.0.0') AND project_id IN tuple(2)")]
  ($"sessions") [] = true.
Proof. vm_compute. reflexivity. Qed.

(* test_legacy.py sentry_tests[7], line 586 *)
Example sentry_tests_7 : converts
  (ODict [($"selected_columns"); ($"orderby"); ($"offset"); ($"limit"); ($"project"); ($"organization"); ($"dataset"); ($"from_date"); ($"to_date"); ($"groupby"); ($"conditions"); ($"aggregations"); ($"consistent")] [(OList [(OStr ($"project_id")); (OStr ($"release"))]); (OList [(OStr ($"-users"))]); (OInt (0)); (OInt (100)); (OList [(OInt (2))]); (OInt (2)); (OStr ($"sessions")); (OStr ($"2020-10-17T20:51:46.110774")); (OStr ($"2021-01-15T20:51:47.110825")); (OList [(OStr ($"release")); (OStr ($"project_id"))]); (OList [(OList [(OStr ($"project_id")); (OStr ($"IN")); (OList [(OInt (2))])])]); (OList []); (OBool false)])
  ($"sessions")
  [($"MATCH (sessions)"); ($"SELECT project_id, release"); ($"BY release, project_id"); ($"WHERE org_id = 2 AND started >= toDateTime('2020-10-17T20:51:46.110774') AND started < toDateTime('2021-01-15T20:51:47.110825') AND project_id IN tuple(2) AND project_id IN tuple(2)"); ($"ORDER BY users DESC"); ($"LIMIT 100"); ($"OFFSET 0")]
  ($"sessions") [] = true.
Proof. vm_compute. reflexivity. Qed.

(* test_legacy.py sentry_tests[8], line 620 *)
Example sentry_tests_8 : converts
  (ODict [($"selected_columns"); ($"project"); ($"organization"); ($"dataset"); ($"from_date"); ($"to_date"); ($"groupby"); ($"conditions"); ($"aggregations"); ($"consistent")] [(OList [(OStr ($"project_id")); (OStr ($"users"))]); (OList [(OInt (2))]); (OInt (2)); (OStr ($"sessions")); (OStr ($"2020-10-17T20:51:46.110774")); (OStr ($"2021-01-15T20:51:47.110825")); (OList [(OStr ($"project_id"))]); (OList [(OList [(OStr ($"project_id")); (OStr ($"IN")); (OList [(OInt (2))])])]); (OList []); (OBool false)])
  ($"sessions")
  [($"MATCH (sessions)"); ($"SELECT project_id, users"); ($"BY project_id"); ($"WHERE org_id = 2 AND started >= toDateTime('2020-10-17T20:51:46.110774') AND started < toDateTime('2021-01-15T20:51:47.110825') AND project_id IN tuple(2) AND project_id IN tuple(2)")]
  ($"sessions") [] = true.
Proof. vm_compute. reflexivity. Qed.

(* test_legacy.py sentry_tests[9], line 648 *)
Example sentry_tests_9 : converts
  (ODict [($"selected_columns"); ($"project"); ($"organization"); ($"dataset"); ($"from_date"); ($"to_date"); ($"groupby"); ($"conditions"); ($"aggregations"); ($"consistent")] [(OList [(OStr ($"release")); (OStr ($"project_id")); (OStr ($"users")); (OStr ($"sessions"))]); (OList [(OInt (2))]); (OInt (2)); (OStr ($"sessions")); (OStr ($"2020-10-17T20:51:46.110774")); (OStr ($"2021-01-15T20:51:47.110825")); (OList [(OStr ($"release")); (OStr ($"project_id"))]); (OList [(OList [(OStr ($"release")); (OStr ($"IN")); (OList [(OStr ($"foo@1.0.0")); (OStr ($"foo@2.0.0")); (OStr ($"dummy-release"))])]); (OList [(OStr ($"project_id")); (OStr ($"IN")); (OList [(OInt (2))])])]); (OList []); (OBool false)])
  ($"sessions")
  [($"MATCH (sessions)"); ($"SELECT release, project_id, users, sessions"); ($"BY release, project_id"); ($"WHERE org_id = 2 AND started >= toDateTime('2020-10-17T20:51:46.110774') AND started < toDateTime('2021-01-15T20:51:47.110825') AND project_id IN tuple(2) AND release IN tuple('foo@1.0.0', 'foo@2.0.0', 'dummy-release') AND project_id IN tuple(2)")]
  ($"sessions") [] = true.
Proof. vm_compute. reflexivity. Qed.

(* test_legacy.py sentry_tests[10], line 680 *)
Example sentry_tests_10 : converts
  (ODict [($"selected_columns"); ($"orderby"); ($"offset"); ($"limit"); ($"project"); ($"organization"); ($"dataset"); ($"from_date"); ($"to_date"); ($"groupby"); ($"conditions"); ($"aggregations"); ($"consistent")] [(OList [(OStr ($"project_id")); (OStr ($"release"))]); (OList [(OStr ($"-sessions"))]); (OInt (0)); (OInt (100)); (OList [(OInt (2))]); (OInt (2)); (OStr ($"sessions")); (OStr ($"2020-10-17T20:51:46.110774")); (OStr ($"2021-01-15T20:51:47.110825")); (OList [(OStr ($"release")); (OStr ($"project_id"))]); (OList [(OList [(OStr ($"project_id")); (OStr ($"IN")); (OList [(OInt (2))])])]); (OList []); (OBool false)])
  ($"sessions")
  [($"MATCH (sessions)"); ($"SELECT project_id, release"); ($"BY release, project_id"); ($"WHERE org_id = 2 AND started >= toDateTime('2020-10-17T20:51:46.110774') AND started < toDateTime('2021-01-15T20:51:47.110825') AND project_id IN tuple(2) AND project_id IN tuple(2)"); ($"ORDER BY sessions DESC"); ($"LIMIT 100"); ($"OFFSET 0")]
  ($"sessions") [] = true.
Proof. vm_compute. reflexivity. Qed.

(* test_legacy_api.py discover_tests[0], line 9 *)
Example discover_tests_0 : converts
  (ODict [($"dataset"); ($"project"); ($"selected_columns"); ($"aggregations"); ($"groupby"); ($"debug"); ($"conditions"); ($"limit"); ($"from_date"); ($"to_date")] [(OStr ($"discover")); (OInt (2)); (OList [(OList [(OStr ($"arrayJoin")); (OList [(OStr ($"exception_stacks.type"))]); (OStr ($"exception_stacks.type"))])]); (OList [(OList [(OStr ($"count")); ONone; (OStr ($"count"))])]); (OStr ($"exception_stacks.type")); (OBool true); (OList [(OList [(OList [(OStr ($"or")); (OList [(OList [(OStr ($"equals")); (OList [(OStr ($"exception_stacks.type")); (OStr ($"'ArithmeticException'"))])]); (OList [(OStr ($"equals")); (OList [(OStr ($"exception_stacks.type")); (OStr ($"'RuntimeException'"))])])])]); (OStr ($"=")); (OInt (1))])]); (OInt (1000)); (OStr ($"2021-03-03T11:22:00+00:00")); (OStr ($"2021-03-03T17:22:00+00:00"))])
  ($"discover_events")
  [($"MATCH (discover_events)"); ($"SELECT count() AS `count`, arrayJoin(exception_stacks.type) AS `exception_stacks.type`"); ($"BY exception_stacks.type"); ($"WHERE timestamp >= toDateTime('2021-03-03T11:22:00') AND timestamp < toDateTime('2021-03-03T17:22:00') AND project_id IN tuple(2) AND or(equals(exception_stacks.type, 'ArithmeticException'), equals(exception_stacks.type, 'RuntimeException')) = 1"); ($"LIMIT 1000")]
  ($"discover") [(($"debug"), OBool true)] = true.
Proof. vm_compute. reflexivity. Qed.

(* test_legacy_api.py discover_tests[1], line 56 *)
Example discover_tests_1 : converts
  (ODict [($"dataset"); ($"project"); ($"selected_columns"); ($"aggregations"); ($"conditions"); ($"orderby"); ($"having"); ($"groupby"); ($"limit"); ($"from_date"); ($"to_date")] [(OStr ($"discover")); (OInt (2)); (OList [(OList [(OStr ($"arrayJoin")); (OList [(OStr ($"measurements.key"))]); (OStr ($"array_join_measurements_key"))]); (OList [(OStr ($"plus")); (OList [(OList [(OStr ($"multiply")); (OList [(OList [(OStr ($"floor")); (OList [(OList [(OStr ($"divide")); (OList [(OList [(OStr ($"minus")); (OList [(OList [(OStr ($"multiply")); (OList [(OList [(OStr ($"arrayJoin")); (OList [(OStr ($"measurements.value"))])]); (OFloat (FFin false 100%N (0)))])]); (OFloat (FFin false 0%N (0)))])]); (OFloat (FFin false 1%N (0)))])])])]); (OFloat (FFin false 1%N (0)))])]); (OFloat (FFin false 0%N (0)))]); (OStr ($"measurements_histogram_1_0_100"))])]); (OList [(OList [(OStr ($"count")); ONone; (OStr ($"count"))])]); (OList [(OList [(OStr ($"type")); (OStr ($"=")); (OStr ($"transaction"))]); (OList [(OStr ($"transaction_op")); (OStr ($"=")); (OStr ($"pageload"))]); (OList [(OStr ($"transaction")); (OStr ($"=")); (OStr ($"/organizations/:orgId/issues/"))]); (OList [(OStr ($"array_join_measurements_key")); (OStr ($"IN")); (OList [(OStr ($"cls"))])]); (OList [(OStr ($"measurements_histogram_1_0_100")); (OStr ($">=")); (OInt (0))]); (OList [(OStr ($"project_id")); (OStr ($"IN")); (OList [(OInt (1))])])]); (OList [(OStr ($"measurements_histogram_1_0_100")); (OStr ($"array_join_measurements_key"))]); (OList []); (OList [(OStr ($"array_join_measurements_key")); (OStr ($"measurements_histogram_1_0_100"))]); (OInt (1)); (OStr ($"2021-03-03T11:22:00+00:00")); (OStr ($"2021-03-03T17:22:00+00:00"))])
  ($"discover_transactions")
  [($"MATCH (discover_transactions)"); ($"SELECT count() AS `count`, arrayJoin(measurements.key) AS `array_join_measurements_key`, plus(multiply(floor(divide(minus(multiply(arrayJoin(measurements.value), 100.0), 0.0), 1.0)), 1.0), 0.0) AS `measurements_histogram_1_0_100`"); ($"BY array_join_measurements_key, measurements_histogram_1_0_100"); ($"WHERE finish_ts >= toDateTime('2021-03-03T11:22:00') AND finish_ts < toDateTime('2021-03-03T17:22:00') AND project_id IN tuple(2) AND type = 'transaction' AND transaction_op = 'pageload' AND transaction = '/organizations/:orgId/issues/' AND array_join_measurements_key IN tuple('cls') AND measurements_histogram_1_0_100 >= 0 AND project_id IN tuple(1)"); ($"ORDER BY measurements_histogram_1_0_100 ASC, array_join_measurements_key ASC"); ($"LIMIT 1")]
  ($"discover") [] = true.
Proof. vm_compute. reflexivity. Qed.

(* test_legacy_api.py discover_tests[2], line 149 *)
Example discover_tests_2 : converts
  (ODict [($"project"); ($"dataset"); ($"groupby"); ($"aggregations"); ($"from_date"); ($"to_date")] [(OInt (2)); (OStr ($"events")); (OList [(OStr ($"project_id"))]); (OList [(OList [(OStr ($"count")); (OStr ($"platform")); (OStr ($"platforms"))]); (OList [(OStr ($"uniq")); (OStr ($"platform")); (OStr ($"uniq_platforms"))]); (OList [(OStr ($"topK(1)")); (OStr ($"platform")); (OStr ($"top_platforms"))])]); (OStr ($"2020-10-17T20:51:46.110774")); (OStr ($"2021-01-15T20:51:47.110825"))])
  ($"events")
  [($"MATCH (events)"); ($"SELECT count(platform) AS `platforms`, uniq(platform) AS `uniq_platforms`, topK(1)(platform) AS `top_platforms`"); ($"BY project_id"); ($"WHERE timestamp >= toDateTime('2020-10-17T20:51:46.110774') AND timestamp < toDateTime('2021-01-15T20:51:47.110825') AND project_id IN tuple(2)")]
  ($"events") [] = true.
Proof. vm_compute. reflexivity. Qed.

(* test_legacy_api.py discover_tests[3], line 176 *)
Example discover_tests_3 : converts
  (ODict [($"project"); ($"dataset"); ($"selected_columns"); ($"orderby"); ($"debug"); ($"from_date"); ($"to_date")] [(OInt (2)); (OStr ($"events")); (OList [(OStr ($"environment")); (OStr ($"time"))]); (OList [(OList [(OStr ($"-substringUTF8")); (OList [(OStr ($"environment")); (OInt (1)); (OInt (3))])]); (OStr ($"time"))]); (OBool true); (OStr ($"2020-10-17T20:51:46.110774")); (OStr ($"2021-01-15T20:51:47.110825"))])
  ($"events")
  [($"MATCH (events)"); ($"SELECT environment, time"); ($"WHERE timestamp >= toDateTime('2020-10-17T20:51:46.110774') AND timestamp < toDateTime('2021-01-15T20:51:47.110825') AND project_id IN tuple(2)"); ($"ORDER BY substringUTF8(environment, 1, 3) DESC, time ASC")]
  ($"events") [(($"debug"), OBool true)] = true.
Proof. vm_compute. reflexivity. Qed.

(* test_legacy_api.py discover_tests[4], line 201 *)
Example discover_tests_4 : converts
  (ODict [($"dataset"); ($"project"); ($"selected_columns"); ($"conditions"); ($"limit"); ($"orderby"); ($"from_date"); ($"to_date")] [(OStr ($"events")); (OInt (2)); (OList [(OStr ($"event_id"))]); (OList [(OList [(OStr ($"event_id")); (OStr ($"LIKE")); (OStr ($"stuff \"" ' \' stuff\"))])]); (OInt (4)); (OList [(OStr ($"event_id"))]); (OStr ($"2020-10-17T20:51:46.110774")); (OStr ($"2021-01-15T20:51:47.110825"))])
  ($"events")
  [($"MATCH (events)"); ($"SELECT event_id"); ($"WHERE timestamp >= toDateTime('2020-10-17T20:51:46.110774') AND timestamp < toDateTime('2021-01-15T20:51:47.110825') AND project_id IN tuple(2) AND event_id LIKE 'stuff \\"" \' \\\' stuff\\'"); ($"ORDER BY event_id ASC"); ($"LIMIT 4")]
  ($"events") [] = true.
Proof. vm_compute. reflexivity. Qed.

(* test_legacy_api.py discover_tests[5], line 228 *)
Example discover_tests_5 : converts
  (ODict [($"dataset"); ($"turbo"); ($"consistent"); ($"aggregations"); ($"conditions"); ($"groupby"); ($"orderby"); ($"having"); ($"project"); ($"limit"); ($"from_date"); ($"to_date")] [(OStr ($"discover")); (OBool false); (OBool false); (OList [(OList [(OStr ($"count")); ONone; (OStr ($"count"))])]); (OList [(OList [(OList [(OStr ($"or")); (OList [(OList [(OStr ($"equals")); (OList [(OList [(OStr ($"ifNull")); (OList [(OStr ($"tags[foo]")); (OStr ($"''"))])]); (OStr ($"'baz'"))])]); (OList [(OStr ($"equals")); (OList [(OList [(OStr ($"ifNull")); (OList [(OStr ($"tags[foo.bar]")); (OStr ($"''"))])]); (OStr ($"'qux'"))])])])]); (OStr ($"=")); (OInt (1))]); (OList [(OStr ($"project_id")); (OStr ($"IN")); (OList [(OInt (2))])])]); (OStr ($"tags_key")); (OList [(OStr ($"-count")); (OStr ($"tags_key"))]); (OList [(OList [(OStr ($"tags_key")); (OStr ($"NOT IN")); (OList [(OStr ($"trace")); (OStr ($"trace.ctx")); (OStr ($"trace.span")); (OStr ($"project"))])])]); (OList [(OInt (2))]); (OInt (10)); (OStr ($"2020-10-17T20:51:46.110774")); (OStr ($"2021-01-15T20:51:47.110825"))])
  ($"discover")
  [($"MATCH (discover)"); ($"SELECT count() AS `count`"); ($"BY tags_key"); ($"WHERE timestamp >= toDateTime('2020-10-17T20:51:46.110774') AND timestamp < toDateTime('2021-01-15T20:51:47.110825') AND project_id IN tuple(2) AND or(equals(ifNull(tags[foo], ''), 'baz'), equals(ifNull(tags[foo.bar], ''), 'qux')) = 1 AND project_id IN tuple(2)"); ($"HAVING tags_key NOT IN tuple('trace', 'trace.ctx', 'trace.span', 'project')"); ($"ORDER BY count DESC, tags_key ASC"); ($"LIMIT 10")]
  ($"discover") [] = true.
Proof. vm_compute. reflexivity. Qed.

(* test_legacy_api.py discover_tests[6], line 277 *)
Example discover_tests_6 : converts
  (ODict [($"dataset"); ($"aggregations"); ($"having"); ($"project"); ($"selected_columns"); ($"granularity"); ($"totals"); ($"conditions"); ($"groupby"); ($"from_date"); ($"to_date")] [(OStr ($"discover")); (OList [(OList [(OStr ($"divide(count(), divide(86400, 60))")); ONone; (OStr ($"tpm"))])]); (OList []); (OList [(OInt (2))]); (OList [(OStr ($"transaction"))]); (OInt (3600)); (OBool false); (OList [(OList [(OStr ($"event_id")); (OStr ($"=")); (OStr ($"5897895a14504192"))]); (OList [(OStr ($"type")); (OStr ($"=")); (OStr ($"transaction"))])]); (OList [(OStr ($"transaction"))]); (OStr ($"2020-10-17T20:51:46.110774")); (OStr ($"2021-01-15T20:51:47.110825"))])
  ($"discover_transactions")
  [($"MATCH (discover_transactions)"); ($"SELECT divide(count(), divide(86400, 60)) AS `tpm`, transaction"); ($"BY transaction"); ($"WHERE finish_ts >= toDateTime('2020-10-17T20:51:46.110774') AND finish_ts < toDateTime('2021-01-15T20:51:47.110825') AND project_id IN tuple(2) AND event_id = '5897895a14504192' AND type = 'transaction'"); ($"GRANULARITY 3600"); ($"TOTALS False")]
  ($"discover") [] = true.
Proof. vm_compute. reflexivity. Qed.

(* test_legacy_api.py discover_tests[7], line 312 *)
Example discover_tests_7 : converts
  (ODict [($"dataset"); ($"project"); ($"selected_columns"); ($"aggregations"); ($"conditions"); ($"orderby"); ($"having"); ($"groupby"); ($"limit"); ($"from_date"); ($"to_date")] [(OStr ($"discover")); (OInt (2)); (OList [(OList [(OStr ($"arrayJoin")); (OList [(OStr ($"measurements.key"))]); (OStr ($"array_join_measurements_key"))]); (OList [(OStr ($"plus")); (OList [(OList [(OStr ($"multiply")); (OList [(OList [(OStr ($"floor")); (OList [(OList [(OStr ($"divide")); (OList [(OList [(OStr ($"minus")); (OList [(OList [(OStr ($"multiply")); (OList [(OList [(OStr ($"arrayJoin")); (OList [(OStr ($"measurements.value"))])]); (OFloat (FFin false 100%N (0)))])]); (OFloat (FFin false 0%N (0)))])]); (OFloat (FFin false 1%N (0)))])])])]); (OFloat (FFin false 1%N (0)))])]); (OFloat (FFin false 0%N (0)))]); (OStr ($"measurements_histogram_1_0_100"))])]); (OList [(OList [(OStr ($"count")); ONone; (OStr ($"count"))])]); (OList [(OList [(OStr ($"type")); (OStr ($"=")); (OStr ($"transaction"))]); (OList [(OStr ($"transaction_op")); (OStr ($"=")); (OStr ($"pageload"))]); (OList [(OStr ($"transaction")); (OStr ($"=")); (OStr ($"/organizations/:orgId/issues/"))]); (OList [(OStr ($"array_join_measurements_key")); (OStr ($"IN")); (OList [(OStr ($"cls"))])]); (OList [(OStr ($"measurements_histogram_1_0_100")); (OStr ($">=")); (OInt (0))]); (OList [(OStr ($"project_id")); (OStr ($"IN")); (OList [(OInt (2))])])]); (OList [(OStr ($"measurements_histogram_1_0_100")); (OStr ($"array_join_measurements_key"))]); (OList []); (OList [(OStr ($"array_join_measurements_key")); (OStr ($"measurements_histogram_1_0_100"))]); (OInt (1)); (OStr ($"2020-10-17T20:51:46.110774")); (OStr ($"2021-01-15T20:51:47.110825"))])
  ($"discover_transactions")
  [($"MATCH (discover_transactions)"); ($"SELECT count() AS `count`, arrayJoin(measurements.key) AS `array_join_measurements_key`, plus(multiply(floor(divide(minus(multiply(arrayJoin(measurements.value), 100.0), 0.0), 1.0)), 1.0), 0.0) AS `measurements_histogram_1_0_100`"); ($"BY array_join_measurements_key, measurements_histogram_1_0_100"); ($"WHERE finish_ts >= toDateTime('2020-10-17T20:51:46.110774') AND finish_ts < toDateTime('2021-01-15T20:51:47.110825') AND project_id IN tuple(2) AND type = 'transaction' AND transaction_op = 'pageload' AND transaction = '/organizations/:orgId/issues/' AND array_join_measurements_key IN tuple('cls') AND measurements_histogram_1_0_100 >= 0 AND project_id IN tuple(2)"); ($"ORDER BY measurements_histogram_1_0_100 ASC, array_join_measurements_key ASC"); ($"LIMIT 1")]
  ($"discover") [] = true.
Proof. vm_compute. reflexivity. Qed.

(* test_legacy_api.py discover_tests[8], line 405 *)
Example discover_tests_8 : converts
  (ODict [($"dataset"); ($"project"); ($"aggregations"); ($"groupby"); ($"conditions"); ($"orderby"); ($"limit"); ($"from_date"); ($"to_date")] [(OStr ($"discover")); (OInt (2)); (OList [(OList [(OStr ($"apdex(duration, 300)")); ONone; (OStr ($"apdex_duration_300"))])]); (OList [(OStr ($"project_id")); (OStr ($"tags[foo]"))]); (OList []); (OStr ($"apdex_duration_300")); (OInt (1000)); (OStr ($"2020-10-17T20:51:46.110774")); (OStr ($"2021-01-15T20:51:47.110825"))])
  ($"discover_transactions")
  [($"MATCH (discover_transactions)"); ($"SELECT apdex(duration, 300) AS `apdex_duration_300`"); ($"BY project_id, tags[foo]"); ($"WHERE finish_ts >= toDateTime('2020-10-17T20:51:46.110774') AND finish_ts < toDateTime('2021-01-15T20:51:47.110825') AND project_id IN tuple(2)"); ($"ORDER BY apdex_duration_300 ASC"); ($"LIMIT 1000")]
  ($"discover") [] = true.
Proof. vm_compute. reflexivity. Qed.

(* test_legacy_api.py discover_tests[9], line 433 *)
Example discover_tests_9 : converts
  (ODict [($"dataset"); ($"project"); ($"selected_columns"); ($"aggregations"); ($"groupby"); ($"debug"); ($"conditions"); ($"limit"); ($"from_date"); ($"to_date")] [(OStr ($"discover")); (OInt (2)); (OList [(OList [(OStr ($"arrayJoin")); (OList [(OStr ($"exception_stacks.type"))]); (OStr ($"exception_stacks.type"))])]); (OList [(OList [(OStr ($"count")); ONone; (OStr ($"count"))])]); (OStr ($"exception_stacks.type")); (OBool true); (OList [(OList [(OList [(OStr ($"or")); (OList [(OList [(OStr ($"equals")); (OList [(OStr ($"exception_stacks.type")); (OStr ($"'ArithmeticException'"))])]); (OList [(OStr ($"equals")); (OList [(OStr ($"exception_stacks.type")); (OStr ($"'RuntimeException'"))])])])]); (OStr ($"=")); (OInt (1))])]); (OInt (1000)); (OStr ($"2020-10-17T20:51:46.110774")); (OStr ($"2021-01-15T20:51:47.110825"))])
  ($"discover_events")
  [($"MATCH (discover_events)"); ($"SELECT count() AS `count`, arrayJoin(exception_stacks.type) AS `exception_stacks.type`"); ($"BY exception_stacks.type"); ($"WHERE timestamp >= toDateTime('2020-10-17T20:51:46.110774') AND timestamp < toDateTime('2021-01-15T20:51:47.110825') AND project_id IN tuple(2) AND or(equals(exception_stacks.type, 'ArithmeticException'), equals(exception_stacks.type, 'RuntimeException')) = 1"); ($"LIMIT 1000")]
  ($"discover") [(($"debug"), OBool true)] = true.
Proof. vm_compute. reflexivity. Qed.

(* test_legacy_api.py discover_tests[10], line 483 *)
Example discover_tests_10 : converts
  (ODict [($"dataset"); ($"project"); ($"selected_columns"); ($"conditions"); ($"orderby"); ($"limit"); ($"from_date"); ($"to_date"); ($"dry_run")] [(OStr ($"discover")); (OInt (2)); (OList [(OStr ($"type")); (OStr ($"tags[custom_tag]")); (OStr ($"release"))]); (OList [(OList [(OStr ($"type")); (OStr ($"!=")); (OStr ($"transaction"))])]); (OStr ($"timestamp")); (OInt (1000)); (OStr ($"2020-10-17T20:51:46.110774")); (OStr ($"2021-01-15T20:51:47.110825")); (OBool true)])
  ($"discover_events")
  [($"MATCH (discover_events)"); ($"SELECT type, tags[custom_tag], release"); ($"WHERE timestamp >= toDateTime('2020-10-17T20:51:46.110774') AND timestamp < toDateTime('2021-01-15T20:51:47.110825') AND project_id IN tuple(2) AND type != 'transaction'"); ($"ORDER BY timestamp ASC"); ($"LIMIT 1000")]
  ($"discover") [(($"dry_run"), OBool true)] = true.
Proof. vm_compute. reflexivity. Qed.

(* test_legacy_api.py discover_tests[11], line 512 *)
Example discover_tests_11 : converts
  (ODict [($"selected_columns"); ($"project"); ($"organization"); ($"dataset"); ($"from_date"); ($"to_date"); ($"groupby"); ($"conditions"); ($"aggregations"); ($"consistent")] [(OList [(OStr ($"first_session_started")); (OStr ($"last_session_started"))]); (OList [(OInt (2))]); (OInt (1)); (OStr ($"sessions")); (OStr ($"2021-01-12T20:04:37.175368")); (OStr ($"2021-04-12T20:04:38.173543")); (OList []); (OList [(OList [(OStr ($"release")); (OStr ($"=")); (OStr ($"stuff-2"))]); (OList [(OStr ($"project_id")); (OStr ($"IN")); (OList [(OInt (2))])]); (OList [(OStr ($"org_id")); (OStr ($"IN")); (OList [(OInt (1))])])]); (OList [(OList [(OStr ($"min(started)")); ONone; (OStr ($"first_session_started"))]); (OList [(OStr ($"max(started)")); ONone; (OStr ($"last_session_started"))])]); (OBool false)])
  ($"sessions")
  [($"MATCH (sessions)"); ($"SELECT min(started) AS `first_session_started`, max(started) AS `last_session_started`, first_session_started, last_session_started"); ($"WHERE org_id = 1 AND started >= toDateTime('2021-01-12T20:04:37.175368') AND started < toDateTime('2021-04-12T20:04:38.173543') AND project_id IN tuple(2) AND release = 'stuff-2' AND project_id IN tuple(2) AND org_id IN tuple(1)")]
  ($"sessions") [] = true.
Proof. vm_compute. reflexivity. Qed.

(* discover_tests[12], line 549: not translated: ValueError *)
(* test_legacy_api.py discover_tests[13], line 588 *)
Example discover_tests_13 : converts
  (ODict [($"selected_columns"); ($"orderby"); ($"limit"); ($"project"); ($"dataset"); ($"from_date"); ($"to_date"); ($"groupby"); ($"conditions"); ($"aggregations"); ($"consistent")] [(OList []); (OStr ($"-last_seen")); (OInt (1000)); (OList [(OInt (2))]); (OStr ($"events")); (OStr ($"2021-04-01T20:08:40")); (OStr ($"2021-04-15T20:08:40")); (OList [(OStr ($"tags[_userEmail]"))]); (OList [(OList [(OStr ($"tags[_userEmail]")); (OStr ($"LIKE")); (OStr ($"%%b%%"))]); (OList [(OStr ($"type")); (OStr ($"!=")); (OStr ($"transaction"))]); (OList [(OStr ($"project_id")); (OStr ($"IN")); (OList [(OInt (2))])])]); (OList [(OList [(OStr ($"count()")); (OStr ($"")); (OStr ($"times_seen"))]); (OList [(OStr ($"min")); (OStr ($"timestamp")); (OStr ($"first_seen"))]); (OList [(OStr ($"max")); (OStr ($"timestamp")); (OStr ($"last_seen"))])]); (OBool false)])
  ($"events")
  [($"MATCH (events)"); ($"SELECT count() AS `times_seen`, min(timestamp) AS `first_seen`, max(timestamp) AS `last_seen`"); ($"BY tags[_userEmail]"); ($"WHERE timestamp >= toDateTime('2021-04-01T20:08:40') AND timestamp < toDateTime('2021-04-15T20:08:40') AND project_id IN tuple(2) AND tags[_userEmail] LIKE '%%b%%' AND type != 'transaction' AND project_id IN tuple(2)"); ($"ORDER BY last_seen DESC"); ($"LIMIT 1000")]
  ($"events") [] = true.
Proof. vm_compute. reflexivity. Qed.

(* test_legacy_api.py discover_tests[14], line 629 *)
Example discover_tests_14 : converts
  (ODict [($"selected_columns"); ($"orderby"); ($"limit"); ($"arrayjoin"); ($"project"); ($"dataset"); ($"from_date"); ($"to_date"); ($"groupby"); ($"conditions"); ($"aggregations"); ($"consistent")] [(OList []); (OStr ($"-last_seen")); (OInt (1000)); (OStr ($"exception_frames")); (OList [(OInt (2))]); (OStr ($"events")); (OStr ($"2021-04-01T20:05:27")); (OStr ($"2021-04-15T20:05:27")); (OList [(OStr ($"exception_frames.filename"))]); (OList [(OList [(OStr ($"exception_frames.filename")); (OStr ($"LIKE")); (OStr ($"%/stuff/things/%"))]); (OList [(OStr ($"project_id")); (OStr ($"IN")); (OList [(OInt (2))])])]); (OList [(OList [(OStr ($"count()")); (OStr ($"")); (OStr ($"times_seen"))]); (OList [(OStr ($"min")); (OStr ($"timestamp")); (OStr ($"first_seen"))]); (OList [(OStr ($"max")); (OStr ($"timestamp")); (OStr ($"last_seen"))])]); (OBool false)])
  ($"events")
  [($"MATCH (events)"); ($"SELECT count() AS `times_seen`, min(timestamp) AS `first_seen`, max(timestamp) AS `last_seen`"); ($"BY exception_frames.filename"); ($"ARRAY JOIN exception_frames"); ($"WHERE timestamp >= toDateTime('2021-04-01T20:05:27') AND timestamp < toDateTime('2021-04-15T20:05:27') AND project_id IN tuple(2) AND exception_frames.filename LIKE '%/stuff/things/%' AND project_id IN tuple(2)"); ($"ORDER BY last_seen DESC"); ($"LIMIT 1000")]
  ($"events") [] = true.
Proof. vm_compute. reflexivity. Qed.

(* test_legacy_api.py discover_tests[15], line 670 *)
Example discover_tests_15 : converts
  (ODict [($"selected_columns"); ($"having"); ($"orderby"); ($"limit"); ($"offset"); ($"project"); ($"dataset"); ($"from_date"); ($"to_date"); ($"groupby"); ($"conditions"); ($"aggregations"); ($"consistent")] [(OList [(OStr ($"transaction")); (OStr ($"project_id")); (OList [(OStr ($"transform")); (OList [(OList [(OStr ($"toString")); (OList [(OStr ($"project_id"))])]); (OList [(OStr ($"array")); (OList [(OStr ($"'2'"))])]); (OList [(OStr ($"array")); (OList [(OStr ($"'project_mc_projectpants'"))])]); (OStr ($"''"))]); (OStr ($"project"))])]); (OList [(OList [(OStr ($"tpm")); (OStr ($">")); (OFloat (FFin false 5764607523034235%N (-59)))]); (OList [(OStr ($"count_percentage")); (OStr ($">")); (OFloat (FFin false 1%N (-2)))]); (OList [(OStr ($"count_percentage")); (OStr ($"<")); (OFloat (FFin false 4%N (0)))]); (OList [(OStr ($"trend_percentage")); (OStr ($"<")); (OFloat (FFin false 1%N (0)))]); (OList [(OStr ($"t_test")); (OStr ($">")); (OFloat (FFin false 6%N (0)))])]); (OList [(OStr ($"trend_percentage"))]); (OInt (6)); (OInt (0)); (OList [(OInt (2))]); (OStr ($"discover")); (OStr ($"2021-04-22T19:37:49")); (OStr ($"2021-04-23T19:37:49")); (OList [(OStr ($"transaction")); (OStr ($"project_id"))]); (OList [(OList [(OStr ($"duration")); (OStr ($">")); (OFloat (FFin false 0%N (0)))]); (OList [(OStr ($"duration")); (OStr ($"<")); (OFloat (FFin false 900000%N (0)))]); (OList [(OStr ($"type")); (OStr ($"=")); (OStr ($"transaction"))]); (OList [(OStr ($"project_id")); (OStr ($"IN")); (OList [(OInt (2))])])]); (OList [(OList [(OStr ($"varSampIf")); (OList [(OStr ($"duration")); (OList [(OStr ($"greater")); (OList [(OList [(OStr ($"toDateTime")); (OList [(OStr ($"'2021-04-23T07:37:49'"))])]); (OStr ($"timestamp"))])])]); (OStr ($"variance_range_1"))]); (OList [(OStr ($"varSampIf")); (OList [(OStr ($"duration")); (OList [(OStr ($"lessOrEquals")); (OList [(OList [(OStr ($"toDateTime")); (OList [(OStr ($"'2021-04-23T07:37:49'"))])]); (OStr ($"timestamp"))])])]); (OStr ($"variance_range_2"))]); (OList [(OStr ($"avgIf")); (OList [(OStr ($"duration")); (OList [(OStr ($"greater")); (OList [(OList [(OStr ($"toDateTime")); (OList [(OStr ($"'2021-04-23T07:37:49'"))])]); (OStr ($"timestamp"))])])]); (OStr ($"avg_range_1"))]); (OList [(OStr ($"avgIf")); (OList [(OStr ($"duration")); (OList [(OStr ($"lessOrEquals")); (OList [(OList [(OStr ($"toDateTime")); (OList [(OStr ($"'2021-04-23T07:37:49'"))])]); (OStr ($"timestamp"))])])]); (OStr ($"avg_range_2"))]); (OList [(OStr ($"divide(minus(avg_range_1,avg_range_2),sqrt(plus(divide(variance_range_1,count_range_1),divide(variance_range_2,count_range_2))))")); ONone; (OStr ($"t_test"))]); (OList [(OStr ($"quantileIf(0.50)")); (OList [(OStr ($"duration")); (OList [(OStr ($"greater")); (OList [(OList [(OStr ($"toDateTime")); (OList [(OStr ($"'2021-04-23T07:37:49'"))])]); (OStr ($"timestamp"))])])]); (OStr ($"aggregate_range_1"))]); (OList [(OStr ($"quantileIf(0.50)")); (OList [(OStr ($"duration")); (OList [(OStr ($"lessOrEquals")); (OList [(OList [(OStr ($"toDateTime")); (OList [(OStr ($"'2021-04-23T07:37:49'"))])]); (OStr ($"timestamp"))])])]); (OStr ($"aggregate_range_2"))]); (OList [(OStr ($"if(greater(aggregate_range_1,0),divide(aggregate_range_2,aggregate_range_1),null)")); ONone; (OStr ($"trend_percentage"))]); (OList [(OStr ($"minus")); (OList [(OStr ($"aggregate_range_2")); (OStr ($"aggregate_range_1"))]); (OStr ($"trend_difference"))]); (OList [(OStr ($"countIf")); (OList [(OList [(OStr ($"greater")); (OList [(OList [(OStr ($"toDateTime")); (OList [(OStr ($"'2021-04-23T07:37:49'"))])]); (OStr ($"timestamp"))])])]); (OStr ($"count_range_1"))]); (OList [(OStr ($"countIf")); (OList [(OList [(OStr ($"lessOrEquals")); (OList [(OList [(OStr ($"toDateTime")); (OList [(OStr ($"'2021-04-23T07:37:49'"))])]); (OStr ($"timestamp"))])])]); (OStr ($"count_range_2"))]); (OList [(OStr ($"if(greater(count_range_1,0),divide(count_range_2,count_range_1),null)")); ONone; (OStr ($"count_percentage"))]); (OList [(OStr ($"divide(count(), divide(86400, 60))")); ONone; (OStr ($"tpm"))])]); (OBool false)])
  ($"discover_transactions")
  [($"MATCH (discover_transactions)"); ($"SELECT varSampIf(duration, greater(toDateTime('2021-04-23T07:37:49'), timestamp)) AS `variance_range_1`, varSampIf(duration, lessOrEquals(toDateTime('2021-04-23T07:37:49'), timestamp)) AS `variance_range_2`, avgIf(duration, greater(toDateTime('2021-04-23T07:37:49'), timestamp)) AS `avg_range_1`, avgIf(duration, lessOrEquals(toDateTime('2021-04-23T07:37:49'), timestamp)) AS `avg_range_2`, divide(minus(avg_range_1,avg_range_2),sqrt(plus(divide(variance_range_1,count_range_1),divide(variance_range_2,count_range_2)))) AS `t_test`, quantileIf(0.50)(duration, greater(toDateTime('2021-04-23T07:37:49'), timestamp)) AS `aggregate_range_1`, quantileIf(0.50)(duration, lessOrEquals(toDateTime('2021-04-23T07:37:49'), timestamp)) AS `aggregate_range_2`, if(greater(aggregate_range_1,0),divide(aggregate_range_2,aggregate_range_1),null) AS `trend_percentage`, minus(aggregate_range_2, aggregate_range_1) AS `trend_difference`, countIf(greater(toDateTime('2021-04-23T07:37:49'), timestamp)) AS `count_range_1`, countIf(lessOrEquals(toDateTime('2021-04-23T07:37:49'), timestamp)) AS `count_range_2`, if(greater(count_range_1,0),divide(count_range_2,count_range_1),null) AS `count_percentage`, divide(count(), divide(86400, 60)) AS `tpm`, transaction, project_id, transform(toString(project_id), array('2'), array('project_mc_projectpants'), '') AS `project`"); ($"BY transaction, project_id"); ($"WHERE finish_ts >= toDateTime('2021-04-22T19:37:49') AND finish_ts < toDateTime('2021-04-23T19:37:49') AND project_id IN tuple(2) AND duration > 0.0 AND duration < 900000.0 AND type = 'transaction' AND project_id IN tuple(2)"); ($"HAVING tpm > 0.01 AND count_percentage > 0.25 AND count_percentage < 4.0 AND trend_percentage < 1.0 AND t_test > 6.0"); ($"ORDER BY trend_percentage ASC"); ($"LIMIT 6"); ($"OFFSET 0")]
  ($"discover") [] = true.
Proof. vm_compute. reflexivity. Qed.

(* test_legacy_api.py discover_tests[16], line 860 *)
Example discover_tests_16 : converts
  (ODict [($"selected_columns"); ($"orderby"); ($"project"); ($"dataset"); ($"from_date"); ($"to_date"); ($"groupby"); ($"conditions"); ($"aggregations"); ($"consistent"); ($"debug")] [(OList []); (OStr ($"-times_seen")); (OList [(OInt (2))]); (OStr ($"events")); (OStr ($"2021-04-01T20:05:27")); (OStr ($"2021-04-15T20:05:27")); (OList [(OStr ($"project_id")); (OStr ($"tags[sentry:release]"))]); (OList [(OList [(OStr ($"tags[sentry:release]")); (OStr ($"IN")); (OList [(OStr ($"2021-04-26T14:57:14"))])]); (OList [(OStr ($"type")); (OStr ($"!=")); (OStr ($"transaction"))]); (OList [(OStr ($"project_id")); (OStr ($"IN")); (OList [(OInt (2))])])]); (OList [(OList [(OStr ($"count()")); (OStr ($"")); (OStr ($"times_seen"))]); (OList [(OStr ($"min")); (OStr ($"timestamp")); (OStr ($"first_seen"))]); (OList [(OStr ($"max")); (OStr ($"timestamp")); (OStr ($"last_seen"))])]); (OBool false); (OBool false)])
  ($"events")
  [($"MATCH (events)"); ($"SELECT count() AS `times_seen`, min(timestamp) AS `first_seen`, max(timestamp) AS `last_seen`"); ($"BY project_id, tags[sentry:release]"); ($"WHERE timestamp >= toDateTime('2021-04-01T20:05:27') AND timestamp < toDateTime('2021-04-15T20:05:27') AND project_id IN tuple(2) AND tags[sentry:release] IN tuple('2021-04-26T14:57:14') AND type != 'transaction' AND project_id IN tuple(2)"); ($"ORDER BY times_seen DESC")]
  ($"events") [] = true.
Proof. vm_compute. reflexivity. Qed.

(* test_legacy_api.py discover_tests[17], line 900 *)
Example discover_tests_17 : converts
  (ODict [($"selected_columns"); ($"limit"); ($"organization"); ($"dataset"); ($"from_date"); ($"to_date"); ($"groupby"); ($"conditions"); ($"aggregations"); ($"granularity"); ($"consistent")] [(OTuple [(OStr ($"time")); (OStr ($"outcome")); (OStr ($"category")); (OStr ($"quantity")); (OTuple [(OStr ($"toString")); (OTuple [(OStr ($"category"))])])]); (OInt (10000)); (OInt (1)); (OStr ($"outcomes_raw")); (OStr ($"2021-04-01T20:05:27")); (OStr ($"2021-04-15T20:05:27")); (OList [(OStr ($"time")); (OStr ($"outcome")); (OStr ($"category")); (OTuple [(OStr ($"toString")); (OTuple [(OStr ($"category"))])])]); (OList [(OTuple [(OStr ($"project_id")); (OStr ($"IN")); (OList [(OInt (2)); (OInt (3)); (OInt (4)); (OInt (5)); (OInt (6))])])]); (OList [(OTuple [(OStr ($"sum")); (OStr ($"quantity")); (OStr ($"quantity"))])]); (OInt (60)); (OBool false)])
  ($"outcomes_raw")
  [($"MATCH (outcomes_raw)"); ($"SELECT sum(quantity) AS `quantity`, time, outcome, category, quantity, toString(tuple('category'))"); ($"BY time, outcome, category, toString(tuple('category'))"); ($"WHERE org_id = 1 AND timestamp >= toDateTime('2021-04-01T20:05:27') AND timestamp < toDateTime('2021-04-15T20:05:27') AND project_id IN tuple(2, 3, 4, 5, 6)"); ($"LIMIT 10000"); ($"GRANULARITY 60")]
  ($"outcomes_raw") [] = true.
Proof. vm_compute. reflexivity. Qed.

(* test_legacy_api.py discover_tests[18], line 937 *)
Example discover_tests_18 : converts
  (ODict [($"aggregations"); ($"conditions"); ($"granularity"); ($"groupby"); ($"having"); ($"limit"); ($"offset"); ($"orderby"); ($"project"); ($"selected_columns"); ($"from_date"); ($"to_date"); ($"totals")] [(OList []); (OList [(OList [(OList [(OStr ($"coalesce")); (OList [(OStr ($"email")); (OStr ($"username")); (OStr ($"ip_address"))])]); (OStr ($"=")); (OStr ($"8.8.8.8"))]); (OList [(OStr ($"project_id")); (OStr ($"IN")); (OList [(OInt (1))])]); (OList [(OStr ($"group_id")); (OStr ($"IN")); (OList [(OInt (33))])])]); (OInt (3600)); (OList []); (OList []); (OInt (51)); (OInt (0)); (OList [(OStr ($"-timestamp.to_hour"))]); (OList [(OInt (1))]); (OList [(OList [(OStr ($"coalesce")); (OList [(OStr ($"email")); (OStr ($"username")); (OStr ($"ip_address"))]); (OStr ($"user.display"))]); (OStr ($"release")); (OList [(OStr ($"toStartOfHour")); (OList [(OStr ($"timestamp"))]); (OStr ($"timestamp.to_hour"))]); (OStr ($"event_id")); (OStr ($"project_id")); (OList [(OStr ($"transform")); (OList [(OList [(OStr ($"toString")); (OList [(OStr ($"project_id"))])]); (OList [(OStr ($"array")); (OList [(OStr ($"'1'"))])]); (OList [(OStr ($"array")); (OList [(OStr ($"'stuff'"))])]); (OStr ($"''"))]); (OStr ($"project.name"))])]); (OStr ($"2021-04-01T20:05:27")); (OStr ($"2021-04-15T20:05:27")); (OBool false)])
  ($"events")
  [($"MATCH (events)"); ($"SELECT coalesce(email, username, ip_address) AS `user.display`, release, toStartOfHour(timestamp) AS `timestamp.to_hour`, event_id, project_id, transform(toString(project_id), array('1'), array('stuff'), '') AS `project.name`"); ($"WHERE timestamp >= toDateTime('2021-04-01T20:05:27') AND timestamp < toDateTime('2021-04-15T20:05:27') AND project_id IN tuple(1) AND coalesce(email, username, ip_address) = '8.8.8.8' AND project_id IN tuple(1) AND group_id IN tuple(33)"); ($"ORDER BY timestamp.to_hour DESC"); ($"LIMIT 51"); ($"OFFSET 0"); ($"GRANULARITY 3600"); ($"TOTALS False")]
  ($"events") [] = true.
Proof. vm_compute. reflexivity. Qed.

(* test_legacy_api.py discover_tests[19], line 998 *)
Example discover_tests_19 : converts
  (ODict [($"selected_columns"); ($"having"); ($"limit"); ($"offset"); ($"project"); ($"dataset"); ($"from_date"); ($"to_date"); ($"groupby"); ($"conditions"); ($"aggregations"); ($"consistent")] [(OList []); (OList []); (OInt (51)); (OInt (0)); (OList [(OInt (1))]); (OStr ($"discover")); (OStr ($"2021-04-01T20:05:27")); (OStr ($"2021-04-15T20:05:27")); (OList []); (OList [(OList [(OStr ($"type")); (OStr ($"=")); (OStr ($"transaction"))]); (OList [(OStr ($"transaction")); (OStr ($"=")); (OStr ($"GET /some/stuff"))]); (OList [(OStr ($"project_id")); (OStr ($"IN")); (OList [(OInt (1))])])]); (OList [(OList [(OStr ($"apdex(duration, 300)")); ONone; (OStr ($"apdex_300"))]); (OList [(OStr ($"uniqIf")); (OList [(OStr ($"user")); (OList [(OStr ($"greater")); (OList [(OStr ($"duration")); (OFloat (FFin false 1200%N (0)))])])]); (OStr ($"count_miserable_user_300"))]); (OList [(OStr ($"quantile(0.95)")); (OStr ($"duration")); (OStr ($"p95"))]); (OList [(OStr ($"count")); ONone; (OStr ($"count"))]); (OList [(OStr ($"uniq")); (OStr ($"user")); (OStr ($"count_unique_user"))]); (OList [(OStr ($"failure_rate()")); ONone; (OStr ($"failure_rate"))]); (OList [(OStr ($"divide(count(), divide(1.2096e+06, 60))")); ONone; (OStr ($"tpm"))]); (OList [(OStr ($"ifNull(divide(plus(uniqIf(user, greater(duration, 1200)), 5.8875), plus(uniq(user), 117.75)), 0)")); ONone; (OStr ($"user_misery_300"))]); (OList [(OStr ($"quantile(0.75)")); (OStr ($"measurements[fp]")); (OStr ($"percentile_measurements_fp_0_75"))]); (OList [(OStr ($"quantile(0.75)")); (OStr ($"measurements[fcp]")); (OStr ($"percentile_measurements_fcp_0_75"))]); (OList [(OStr ($"quantile(0.75)")); (OStr ($"measurements[lcp]")); (OStr ($"percentile_measurements_lcp_0_75"))]); (OList [(OStr ($"quantile(0.75)")); (OStr ($"measurements[fid]")); (OStr ($"percentile_measurements_fid_0_75"))]); (OList [(OStr ($"quantile(0.75)")); (OStr ($"measurements[cls]")); (OStr ($"percentile_measurements_cls_0_75"))])]); (OBool false)])
  ($"transactions")
  [($"MATCH (transactions)"); ($"SELECT apdex(duration, 300) AS `apdex_300`, uniqIf(user, greater(duration, 1200.0)) AS `count_miserable_user_300`, quantile(0.95)(duration) AS `p95`, count() AS `count`, uniq(user) AS `count_unique_user`, failure_rate() AS `failure_rate`, divide(count(), divide(1.2096e+06, 60)) AS `tpm`, ifNull(divide(plus(uniqIf(user, greater(duration, 1200)), 5.8875), plus(uniq(user), 117.75)), 0) AS `user_misery_300`, quantile(0.75)(measurements[fp]) AS `percentile_measurements_fp_0_75`, quantile(0.75)(measurements[fcp]) AS `percentile_measurements_fcp_0_75`, quantile(0.75)(measurements[lcp]) AS `percentile_measurements_lcp_0_75`, quantile(0.75)(measurements[fid]) AS `percentile_measurements_fid_0_75`, quantile(0.75)(measurements[cls]) AS `percentile_measurements_cls_0_75`"); ($"WHERE finish_ts >= toDateTime('2021-04-01T20:05:27') AND finish_ts < toDateTime('2021-04-15T20:05:27') AND project_id IN tuple(1) AND type = 'transaction' AND transaction = 'GET /some/stuff' AND project_id IN tuple(1)"); ($"LIMIT 51"); ($"OFFSET 0")]
  ($"discover") [] = true.
Proof. vm_compute. reflexivity. Qed.

(* test_legacy_api.py discover_tests[20], line 1090 *)
Example discover_tests_20 : converts
  (ODict [($"selected_columns"); ($"having"); ($"orderby"); ($"limit"); ($"offset"); ($"totals"); ($"turbo"); ($"sample"); ($"project"); ($"dataset"); ($"from_date"); ($"to_date"); ($"groupby"); ($"conditions"); ($"aggregations"); ($"consistent"); ($"debug")] [(OList []); (OList []); (OList [(OStr ($"-last_seen")); (OStr ($"group_id"))]); (OInt (150)); (OInt (0)); (OBool true); (OBool false); (OInt (1)); (OList [(OInt (1))]); (OStr ($"events")); (OStr ($"2021-04-01T20:05:27")); (OStr ($"2021-04-15T20:05:27")); (OList [(OStr ($"group_id"))]); (OList [(OList [(OList [(OStr ($"positionCaseInsensitive")); (OList [(OStr ($"message")); (OStr ($"''''"))])]); (OStr ($"!=")); (OInt (0))]); (OList [(OStr ($"project_id")); (OStr ($"IN")); (OList [(OInt (1))])]); (OList [(OStr ($"environment")); (OStr ($"IN")); (OList [(OStr ($"production"))])]); (OList [(OStr ($"group_id")); (OStr ($"IN")); (OList [(OInt (3))])])]); (OList [(OList [(OStr ($"multiply(toUInt64(max(timestamp)), 1000)")); (OStr ($"")); (OStr ($"last_seen"))]); (OList [(OStr ($"uniq")); (OStr ($"group_id")); (OStr ($"total"))])]); (OBool false); (OBool false)])
  ($"events")
  [($"MATCH (events SAMPLE 1.0)"); ($"SELECT multiply(toUInt64(max(timestamp)), 1000) AS `last_seen`, uniq(group_id) AS `total`"); ($"BY group_id"); ($"WHERE timestamp >= toDateTime('2021-04-01T20:05:27') AND timestamp < toDateTime('2021-04-15T20:05:27') AND project_id IN tuple(1) AND positionCaseInsensitive(message, '\'\'') != 0 AND project_id IN tuple(1) AND environment IN tuple('production') AND group_id IN tuple(3)"); ($"ORDER BY last_seen DESC, group_id ASC"); ($"LIMIT 150"); ($"OFFSET 0"); ($"TOTALS True")]
  ($"events") [] = true.
Proof. vm_compute. reflexivity. Qed.

(* test_legacy_api.py discover_tests[21], line 1140 *)
Example discover_tests_21 : converts
  (ODict [($"selected_columns"); ($"having"); ($"limit"); ($"offset"); ($"project"); ($"dataset"); ($"from_date"); ($"to_date"); ($"groupby"); ($"conditions"); ($"aggregations"); ($"consistent")] [(OList [(OStr ($"timestamp")); (OStr ($"message")); (OStr ($"title")); (OStr ($"event_id")); (OStr ($"project_id")); (OList [(OStr ($"transform")); (OList [(OList [(OStr ($"toString")); (OList [(OStr ($"project_id"))])]); (OList [(OStr ($"array")); (OList [(OStr ($"'1'"))])]); (OList [(OStr ($"array")); (OList [(OStr ($"'proj'"))])]); (OStr ($"''"))]); (OStr ($"`project.name`"))])]); (OList []); (OInt (81)); (OInt (0)); (OList [(OInt (1))]); (OStr ($"discover")); (OStr ($"2021-04-01T20:05:27")); (OStr ($"2021-04-15T20:05:27")); (OList []); (OList [(OList [(OList [(OStr ($"environment")); (OStr ($"=")); (OStr ($"PROD"))])]); (OList [(OStr ($"project_id")); (OStr ($"IN")); (OList [(OInt (1))])])]); (OList []); (OBool false)])
  ($"events")
  [($"MATCH (events)"); ($"SELECT timestamp, message, title, event_id, project_id, transform(toString(project_id), array('1'), array('proj'), '') AS `project.name`"); ($"WHERE timestamp >= toDateTime('2021-04-01T20:05:27') AND timestamp < toDateTime('2021-04-15T20:05:27') AND project_id IN tuple(1) AND environment = 'PROD' AND project_id IN tuple(1)"); ($"LIMIT 81"); ($"OFFSET 0")]
  ($"discover") [] = true.
Proof. vm_compute. reflexivity. Qed.

(* test_legacy_api.py discover_tests[22], line 1188 *)
Example discover_tests_22 : converts
  (ODict [($"project"); ($"dataset"); ($"from_date"); ($"to_date"); ($"groupby"); ($"conditions"); ($"aggregations"); ($"consistent"); ($"debug")] [(OList [(OInt (1))]); (OStr ($"events")); (OStr ($"2021-04-01T20:05:27")); (OStr ($"2021-04-15T20:05:27")); (OList [(OStr ($"group_id"))]); (OList [(OList [(OList [(OStr ($"positionCaseInsensitive")); (OList [(OStr ($"message")); (OStr ($"'Api\'"))])]); (OStr ($"!=")); (OInt (0))]); (OList [(OStr ($"project_id")); (OStr ($"IN")); (OList [(OInt (1))])]); (OList [(OStr ($"group_id")); (OStr ($"IN")); (OList [(OInt (1234567890))])]); (OList [(OStr ($"environment")); (OStr ($"IN")); (OList [(OStr ($"production"))])])]); (OList [(OList [(OStr ($"count()")); (OStr ($"")); (OStr ($"times_seen"))]); (OList [(OStr ($"min")); (OStr ($"timestamp")); (OStr ($"first_seen"))]); (OList [(OStr ($"max")); (OStr ($"timestamp")); (OStr ($"last_seen"))]); (OList [(OStr ($"uniq")); (OStr ($"tags[sentry:user]")); (OStr ($"count"))])]); (OBool false); (OBool false)])
  ($"events")
  [($"MATCH (events)"); ($"SELECT count() AS `times_seen`, min(timestamp) AS `first_seen`, max(timestamp) AS `last_seen`, uniq(tags[sentry:user]) AS `count`"); ($"BY group_id"); ($"WHERE timestamp >= toDateTime('2021-04-01T20:05:27') AND timestamp < toDateTime('2021-04-15T20:05:27') AND project_id IN tuple(1) AND positionCaseInsensitive(message, 'Api\\') != 0 AND project_id IN tuple(1) AND group_id IN tuple(1234567890) AND environment IN tuple('production')")]
  ($"events") [] = true.
Proof. vm_compute. reflexivity. Qed.

(* test_legacy_api.py discover_tests[23], line 1233 *)
Example discover_tests_23 : converts
  (ODict [($"aggregations"); ($"conditions"); ($"dataset"); ($"from_date"); ($"to_date"); ($"granularity"); ($"groupby"); ($"organization"); ($"project"); ($"selected_columns")] [(OList []); (OList [(OList [(OStr ($"release")); (OStr ($"=")); (OStr ($"2021-06-15T13:07:34"))]); (OTuple [(OStr ($"project_id")); (OStr ($"IN")); (OList [(OInt (1))])])]); (OStr ($"sessions")); (OStr ($"2021-04-01T20:05:27")); (OStr ($"2021-04-15T20:05:27")); (OInt (3600)); (OList [(OStr ($"bucketed_started")); (OStr ($"project_id")); (OStr ($"release"))]); (OInt (2)); (OInt (1)); (OList [(OStr ($"bucketed_started")); (OStr ($"sessions")); (OStr ($"users")); (OStr ($"project_id")); (OStr ($"release"))])])
  ($"sessions")
  [($"MATCH (sessions)"); ($"SELECT bucketed_started, sessions, users, project_id, release"); ($"BY bucketed_started, project_id, release"); ($"WHERE org_id = 2 AND started >= toDateTime('2021-04-01T20:05:27') AND started < toDateTime('2021-04-15T20:05:27') AND project_id IN tuple(1) AND release = '2021-06-15T13:07:34' AND project_id IN tuple(1)"); ($"GRANULARITY 3600")]
  ($"sessions") [] = true.
Proof. vm_compute. reflexivity. Qed.

(* test_legacy_api.py discover_tests[24], line 1273 *)
Example discover_tests_24 : converts
  (ODict [($"selected_columns"); ($"having"); ($"orderby"); ($"limit"); ($"offset"); ($"project"); ($"dataset"); ($"from_date"); ($"to_date"); ($"groupby"); ($"conditions"); ($"aggregations"); ($"consistent")] [(OList [(OList [(OStr ($"tuple")); (OList [(OStr ($"'duration'")); (OInt (300))]); (OStr ($"project_threshold_config"))])]); (OList []); (OList [(OStr ($"-tpm"))]); (OInt (2)); (OInt (0)); (OList [(OInt (1))]); (OStr ($"discover")); (OStr ($"2021-04-01T20:05:27")); (OStr ($"2021-04-15T20:05:27")); (OList [(OStr ($"project_threshold_config"))]); (OList [(OList [(OStr ($"duration")); (OStr ($"<")); (OFloat (FFin false 900000%N (0)))]); (OList [(OStr ($"type")); (OStr ($"=")); (OStr ($"transaction"))]); (OList [(OStr ($"project_id")); (OStr ($"IN")); (OList [(OInt (1))])])]); (OList [(OList [(OStr ($"quantile(0.75)")); (OStr ($"duration")); (OStr ($"p75_transaction_duration"))]); (OList [(OStr ($"divide(count(), divide(86400, 60))")); ONone; (OStr ($"tpm"))]); (OList [(OStr ($"failure_rate()")); ONone; (OStr ($"failure_rate"))]); (OList [(OStr ($"apdex(multiIf(equals(tupleElement(project_threshold_config,1),'lcp'),if(has(measurements.key,'lcp'),arrayElement(measurements.value,indexOf(measurements.key,'lcp')),NULL),duration),tupleElement(project_threshold_config,2))")); ONone; (OStr ($"apdex"))])]); (OBool false)])
  ($"discover")
  [($"MATCH (discover)"); ($"SELECT quantile(0.75)(duration) AS `p75_transaction_duration`, divide(count(), divide(86400, 60)) AS `tpm`, failure_rate() AS `failure_rate`, apdex(multiIf(equals(tupleElement(project_threshold_config,1),'lcp'),if(has(measurements.key,'lcp'),arrayElement(measurements.value,indexOf(measurements.key,'lcp')),NULL),duration),tupleElement(project_threshold_config,2)) AS `apdex`, tuple('duration', 300) AS `project_threshold_config`"); ($"BY project_threshold_config"); ($"WHERE timestamp >= toDateTime('2021-04-01T20:05:27') AND timestamp < toDateTime('2021-04-15T20:05:27') AND project_id IN tuple(1) AND duration < 900000.0 AND type = 'transaction' AND project_id IN tuple(1)"); ($"ORDER BY tpm DESC"); ($"LIMIT 2"); ($"OFFSET 0")]
  ($"discover") [] = true.
Proof. vm_compute. reflexivity. Qed.

(* test_legacy_api.py discover_tests[25], line 1330 *)
Example discover_tests_25 : converts
  (ODict [($"conditions"); ($"dataset"); ($"from_date"); ($"to_date"); ($"groupby"); ($"limit"); ($"offset"); ($"orderby"); ($"project"); ($"selected_columns")] [(OList [(OList [(OList [(OStr ($"ifNull")); (OList [(OStr ($"tags[event.timestamp]")); (OStr ($"''"))])]); (OStr ($"=")); (OStr ($"2021-06-06T01:00:00"))]); (OList [(OStr ($"type")); (OStr ($"!=")); (OStr ($"transaction"))]); (OTuple [(OStr ($"project_id")); (OStr ($"IN")); (OList [(OInt (1))])]); (OTuple [(OStr ($"group_id")); (OStr ($"IN")); (OList [(OInt (1234567890))])])]); (OStr ($"events")); (OStr ($"2021-04-01T20:05:27")); (OStr ($"2021-04-15T20:05:27")); (OList []); (OInt (101)); (OInt (0)); (OList [(OStr ($"-timestamp")); (OStr ($"-event_id"))]); (OList [(OStr ($"1818675"))]); (OList [(OStr ($"event_id")); (OStr ($"group_id")); (OStr ($"project_id")); (OStr ($"timestamp"))])])
  ($"events")
  [($"MATCH (events)"); ($"SELECT event_id, group_id, project_id, timestamp"); ($"WHERE timestamp >= toDateTime('2021-04-01T20:05:27') AND timestamp < toDateTime('2021-04-15T20:05:27') AND project_id IN tuple('1818675') AND ifNull(tags[event.timestamp], '') = '2021-06-06T01:00:00' AND type != 'transaction' AND project_id IN tuple(1) AND group_id IN tuple(1234567890)"); ($"ORDER BY timestamp DESC, event_id DESC"); ($"LIMIT 101"); ($"OFFSET 0")]
  ($"events") [] = true.
Proof. vm_compute. reflexivity. Qed.

(* test_legacy_api.py discover_tests[26], line 1372 *)
Example discover_tests_26 : converts
  (ODict [($"selected_columns"); ($"having"); ($"orderby"); ($"limit"); ($"offset"); ($"totals"); ($"turbo"); ($"sample"); ($"project"); ($"dataset"); ($"from_date"); ($"to_date"); ($"groupby"); ($"conditions"); ($"aggregations"); ($"consistent")] [(OList []); (OList []); (OList [(OStr ($"-trend")); (OStr ($"group_id"))]); (OInt (2)); (OInt (0)); (OBool true); (OBool false); (OInt (1)); (OList [(OInt (1))]); (OStr ($"events")); (OStr ($"2021-07-22T18:23:15")); (OStr ($"2021-07-23T18:23:14")); (OList [(OStr ($"group_id"))]); (OList [(OTuple [(OStr ($"project_id")); (OStr ($"IN")); (OList [(OInt (1))])]); (OTuple [(OStr ($"group_id")); (OStr ($"IN")); (OList [(OInt (1)); (OInt (2))])])]); (OList [(OList [(OStr ($"uniq")); (OStr ($"group_id")); (OStr ($"total"))]); (OList [(OStr ($"if(greater(countIf(greater(toDateTime('2021-07-23T06:23:14'), timestamp)), 0), divide(countIf(lessOrEquals(toDateTime('2021-07-23T06:23:14'), timestamp)), countIf(greater(toDateTime('2021-07-23T06:23:14'), timestamp))), 0)")); (OStr ($"")); (OStr ($"trend"))])]); (OBool false)])
  ($"events")
  [($"MATCH (events SAMPLE 1.0)"); ($"SELECT uniq(group_id) AS `total`, if(greater(countIf(greater(toDateTime('2021-07-23T06:23:14'), timestamp)), 0), divide(countIf(lessOrEquals(toDateTime('2021-07-23T06:23:14'), timestamp)), countIf(greater(toDateTime('2021-07-23T06:23:14'), timestamp))), 0) AS `trend`"); ($"BY group_id"); ($"WHERE timestamp >= toDateTime('2021-07-22T18:23:15') AND timestamp < toDateTime('2021-07-23T18:23:14') AND project_id IN tuple(1) AND project_id IN tuple(1) AND group_id IN tuple(1, 2)"); ($"ORDER BY trend DESC, group_id ASC"); ($"LIMIT 2"); ($"OFFSET 0"); ($"TOTALS True")]
  ($"events") [] = true.
Proof. vm_compute. reflexivity. Qed.

(* test_legacy_api.py discover_tests[27], line 1423 *)
Example discover_tests_27 : converts
  (ODict [($"aggregations"); ($"conditions"); ($"dataset"); ($"from_date"); ($"to_date"); ($"granularity"); ($"groupby"); ($"organization"); ($"project"); ($"selected_columns")] [(OList []); (OList [(OList [(OList [(OStr ($"or")); (OList [(OList [(OStr ($"release")); (OStr ($"IN")); (OList [(OStr ($"hash"))])]); (OList [(OStr ($"or")); (OList [(OList [(OStr ($"equals")); (OList [(OStr ($"release")); (OStr ($"deadbeef"))])]); (OList [(OStr ($"or")); (OList [(OList [(OStr ($"equals")); (OList [(OStr ($"release")); (OStr ($"abadcafe"))])]); (OList [(OStr ($"release")); (OStr ($"IN")); (OList [(OStr ($"fullhash"))])])])])])])])]); (OStr ($"=")); (OInt (1))]); (OList [(OStr ($"project_id")); (OStr ($"IN")); (OList [(OStr ($"1"))])])]); (OStr ($"sessions")); (OStr ($"2021-07-22T18:23:15")); (OStr ($"2021-07-23T18:23:14")); (OInt (86400)); (OList [(OStr ($"release")); (OStr ($"project_id"))]); (OInt (2)); (OList [(OInt (1))]); (OList [(OStr ($"sessions_crashed")); (OStr ($"sessions_abnormal")); (OStr ($"sessions_errored")); (OStr ($"sessions")); (OStr ($"project_id")); (OStr ($"release"))])])
  ($"sessions")
  [($"MATCH (sessions)"); ($"SELECT sessions_crashed, sessions_abnormal, sessions_errored, sessions, project_id, release"); ($"BY release, project_id"); ($"WHERE org_id = 2 AND started >= toDateTime('2021-07-22T18:23:15') AND started < toDateTime('2021-07-23T18:23:14') AND project_id IN tuple(1) AND or(in(release, tuple('hash')), or(equals(release, deadbeef), or(equals(release, abadcafe), in(release, tuple('fullhash'))))) = 1 AND project_id IN tuple('1')"); ($"GRANULARITY 86400")]
  ($"sessions") [] = true.
Proof. vm_compute. reflexivity. Qed.
