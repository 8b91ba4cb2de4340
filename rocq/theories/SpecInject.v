(** Specification for C102: two legacy bodies that differ in string values *)
From Verif Require Import PyBase Objects Exprs Query SpecExpr SpecMetricsQuery Request Strptime SpecLegacy SpecBody SpecKeys.

(** In all relations the list holds the pairs of strings that differ, in reading order. *)
Section S.
Context {RT : PyRT} {CV : PyConv}.

(** the value of a condition: strings at any depth, no datetime texts (unless [keep]: the
    values are texts whatever they look like) *)
Inductive operand (keep : Prop) : list (str * str) -> obj -> obj -> Prop :=
| od_same v : operand keep [] v v
| od_text s s' : s <> s' -> keep \/ (parse_datetime s = None /\ parse_datetime s' = None) -> operand keep [(s, s')] (OStr s) (OStr s')
| od_list l a b : operands keep l a b -> operand keep l (OList a) (OList b)
| od_tuple l a b : operands keep l a b -> operand keep l (OTuple a) (OTuple b)
with operands (keep : Prop) : list (str * str) -> list obj -> list obj -> Prop :=
| ods_nil : operands keep [] [] []
| ods_cons l1 l2 x y a b : operand keep l1 x y -> operands keep l2 a b -> operands keep (l1 ++ l2) (x :: a) (y :: b).
(** a left-hand side whose values are texts whatever they look like: tags[...], release *)
Definition text_exp (a : obj) : Prop := forall x, legacy_exp a x -> text_side x.

(** expressions: texts in quotes as arguments of functions, and the values of conditions *)
Definition in_quotes (s : str) : obj := OStr ([39%N] ++ s ++ [39%N]).
Inductive exp_swap : list (str * str) -> obj -> obj -> Prop :=
| es_same v : exp_swap [] v v
| es_quoted s s' : s <> s' -> exp_swap [(s, s')] (in_quotes s) (in_quotes s')
| es_call l n a b rest : exps_swap l a b -> exp_swap l (OList (OStr n :: OList a :: rest)) (OList (OStr n :: OList b :: rest))
| es_cond l1 l2 a a' o r r' : triple (OList [a; OStr o; r]) -> ~ null_test (OStr o) -> exp_swap l1 a a' -> operand (text_exp a) l2 r r' ->
    exp_swap (l1 ++ l2) (OList [a; OStr o; r]) (OList [a'; OStr o; r'])
| es_null l a a' o r : triple (OList [a; OStr o; r]) -> null_test (OStr o) -> exp_swap l a a' ->
    exp_swap l (OList [a; OStr o; r]) (OList [a'; OStr o; r])
with exps_swap : list (str * str) -> list obj -> list obj -> Prop :=
| ess_nil : exps_swap [] [] []
| ess_cons l1 l2 x y a b : exp_swap l1 x y -> exps_swap l2 a b -> exps_swap (l1 ++ l2) (x :: a) (y :: b).

(** conditions; [L] says how the left-hand sides may differ *)
Inductive cond_swap (L : list (str * str) -> obj -> obj -> Prop) : list (str * str) -> obj -> obj -> Prop :=
| cs_value l1 l2 c c' a a' b r r' : list_or_tuple c [a; b; r] -> list_or_tuple c' [a'; b; r'] ->
    ~ null_test b -> L l1 a a' -> operand (text_exp a) l2 r r' -> cond_swap L (l1 ++ l2) c c'
| cs_null l c c' a a' b r : list_or_tuple c [a; b; r] -> list_or_tuple c' [a'; b; r] -> null_test b -> L l a a' -> cond_swap L l c c'.
Inductive conds_swap (L : list (str * str) -> obj -> obj -> Prop) : list (str * str) -> list obj -> list obj -> Prop :=
| css_nil : conds_swap L [] [] []
| css_cons l1 l2 x y a b : cond_swap L l1 x y -> conds_swap L l2 a b -> conds_swap L (l1 ++ l2) (x :: a) (y :: b).
(** an item of conditions or having: a condition, or conditions of which one holds *)
Inductive filter_swap (L : list (str * str) -> obj -> obj -> Prop) : list (str * str) -> obj -> obj -> Prop :=
| fs_same c : filter_swap L [] c c
| fs_one l c c' : triple c -> cond_swap L l c c' -> filter_swap L l c c'
| fs_or l v v' a b : list_or_tuple v a -> list_or_tuple v' b -> conds_swap L l a b -> filter_swap L l v v'.
Inductive filters_swap (L : list (str * str) -> obj -> obj -> Prop) : list (str * str) -> list obj -> list obj -> Prop :=
| fss_nil : filters_swap L [] [] []
| fss_cons l1 l2 x y a b : filter_swap L l1 x y -> filters_swap L l2 a b -> filters_swap L (l1 ++ l2) (x :: a) (y :: b).
Definition same_side (l : list (str * str)) (a a' : obj) : Prop := l = [] /\ a' = a.

(** the value of a key: the same, or lists with items related by [R] *)
Definition value_swap (R : list (str * str) -> list obj -> list obj -> Prop) (l : list (str * str)) (v v' : obj) : Prop :=
  (l = [] /\ v' = v) \/ exists a b, v = OList a /\ v' = OList b /\ R l a b.
(** lists all of whose items are lists *)
Definition lists_swap l a b := exps_swap l a b /\ Forall (fun v => exists x, v = OList x) a.
(** items of orderby: the expressions after the minus signs *)
Inductive order_swap : list (str * str) -> obj -> obj -> Prop :=
| os_same v : readable_order v -> order_swap [] v v
| os_asc l a b : (forall s r, a = OStr s :: r -> no_minus s) -> exp_swap l (OList a) (OList b) -> order_swap l (OList a) (OList b)
| os_desc l s s0 a b : minus_signs s s0 -> exp_swap l (OList (OStr s0 :: a)) (OList (OStr s0 :: b)) ->
    order_swap l (OList (OStr s :: a)) (OList (OStr s :: b)).
Inductive orders_swap : list (str * str) -> list obj -> list obj -> Prop :=
| oss_nil : orders_swap [] [] []
| oss_cons l1 l2 x y a b : order_swap l1 x y -> orders_swap l2 a b -> orders_swap (l1 ++ l2) (x :: a) (y :: b).
(** both bodies have such values, or none, under k *)
Definition swap_at (R : list (str * str) -> list obj -> list obj -> Prop) (l : list (str * str)) (b b' : obj) (k : str) : Prop :=
  (exists v v', dict_entry b k v /\ dict_entry b' k v' /\ value_swap R l v v')
  \/ (l = [] /\ no_key b k /\ no_key b' k).
(** the other keys *)
Definition value_keys : list str :=
  [ $"aggregations"; $"selected_columns"; $"groupby"; $"conditions"; $"having"; $"orderby" ].
(** two bodies that differ in strings: in the arguments of functions, and in the values of
    conditions. [L] says how the left-hand sides of conditions may differ. *)
Inductive body_swap (L : list (str * str) -> obj -> obj -> Prop) : list (str * str) -> obj -> obj -> Prop :=
| bs_body la ls lg lw lh lo b b' :
    is_dict b -> is_dict b' -> (forall k, ~ In k value_keys -> same_at b b' k) ->
    swap_at lists_swap la b b' ($"aggregations") -> swap_at exps_swap ls b b' ($"selected_columns") ->
    swap_at exps_swap lg b b' ($"groupby") -> swap_at (filters_swap L) lw b b' ($"conditions") ->
    swap_at (filters_swap exp_swap) lh b b' ($"having") -> swap_at orders_swap lo b b' ($"orderby") ->
    body_swap L ((la ++ ls) ++ lg ++ lw ++ lh ++ lo) b b'.

(** two requests that are the same but for their queries *)
Definition requests_swap (S : query -> query -> Prop) (r r' : request) : Prop :=
  exists q q', rq_query r = RQuery q
    /\ r' = mkRequest (rq_dataset r) (rq_app r) (RQuery q') (rq_flags r) (rq_parent r) (rq_tenants r) /\ S q q'.
End S.
