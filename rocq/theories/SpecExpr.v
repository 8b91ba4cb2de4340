(** Specification vocabulary for the constructor properties (C01-C11): the languages of
    names and the shapes of arguments, written down without the model's matcher,
    regexes or checking functions. *)
From Verif Require Import PyBase Objects.

Definition ascii_letter (c : N) : Prop := (65 <= c <= 90 \/ 97 <= c <= 122)%N.
Definition ascii_digit (c : N) : Prop := (48 <= c <= 57)%N.
Definition ascii_word (c : N) : Prop := ascii_letter c \/ ascii_digit c \/ c = 95%N.
(** \w: ASCII letters, digits, underscore, and what Unicode calls alphanumeric *)
Definition word_char {RT : PyRT} (c : N) : Prop :=
  ((c < 128)%N /\ ascii_word c) \/ ((128 <= c)%N /\ uni_word c = true).
(** Python's $ also matches just before a final newline *)
Definition opt_newline (s : str) : Prop := s = [] \/ s = [10%N].

(** C01 *)
Definition column_name {RT : PyRT} (n : str) : Prop :=
  exists first body sub nl,
    n = [first] ++ body ++ sub ++ nl
    /\ (ascii_letter first \/ first = 95%N)
    /\ Forall (fun c => word_char c \/ In c ($".:/@")) body
    /\ (sub = [] \/ exists key, sub = $"[" ++ key ++ $"]" /\ ~ In 91%N key /\ ~ In 93%N key)
    /\ opt_newline nl.

(** C04: characters of an alias *)
Definition alias_name (a : str) : Prop :=
  a <> [] /\ exists body nl, a = body ++ nl
    /\ Forall (fun c => ascii_word c \/ In c ($".+*/:-[]()@")) body /\ opt_newline nl.

(** C05 *)
Definition function_name {RT : PyRT} (n : str) : Prop :=
  exists first body nl, n = [first] ++ body ++ nl /\ ascii_letter first /\ body <> []
    /\ Forall (fun c => word_char c \/ In c ($"().,+':- []") \/ c = 34%N) body /\ opt_newline nl.

(** C06 *)
Definition identifier_name (n : str) : Prop :=
  exists first body nl, n = [first] ++ body ++ nl /\ (ascii_letter first \/ first = 95%N)
    /\ Forall ascii_word body /\ opt_newline nl.
Definition entity_name (n : str) : Prop :=
  exists body nl, n = body ++ nl /\ body <> []
    /\ Forall (fun c => ascii_letter c \/ c = 95%N) body /\ opt_newline nl.

(** literal values *)
Inductive literal : obj -> Prop :=
| lit_none : literal ONone
| lit_bool b : literal (OBool b)
| lit_int z : literal (OInt z)
| lit_float f : literal (OFloat f)
| lit_str s : literal (OStr s)
| lit_bytes b : literal (OBytes b)
| lit_date d : literal (ODate d)
| lit_datetime t : literal (ODateTime t).

(** instances of the SDK's Expression classes *)
Inductive expression : obj -> Prop :=
| ex_column c : expression (OColumn c)
| ex_aliased c a : expression (OAliased c a)
| ex_func f n ik il pk pl a : expression (OFunc f n ik il pk pl a)
| ex_ident n : expression (OIdent n)
| ex_lambda k i b : expression (OLambda k i b)
| ex_entity e : expression (OEntity e)
| ex_storage s : expression (OStorage s)
| ex_rel r : expression (ORel r)
| ex_join k l : expression (OJoin k l)
| ex_cond l o r : expression (OCond l o r)
| ex_boolc c o k l : expression (OBoolC c o k l)
| ex_orderby e d : expression (OOrderBy e d)
| ex_limitby k l n : expression (OLimitBy k l n)
| ex_limit n : expression (OLimit n)
| ex_offset n : expression (OOffset n)
| ex_granularity n : expression (OGranularity n)
| ex_totals b : expression (OTotals b)
| ex_extrapolate b : expression (OExtrapolate b).

(** scalars: literals, and lists/tuples of scalars and expressions, nested to any depth *)
Inductive scalar : obj -> Prop :=
| sc_literal o : literal o -> scalar o
| sc_list l : Forall (fun v => scalar v \/ expression v) l -> scalar (OList l)
| sc_tuple l : Forall (fun v => scalar v \/ expression v) l -> scalar (OTuple l).

Inductive list_or_tuple : obj -> list obj -> Prop :=
| lt_list l : list_or_tuple (OList l) l
| lt_tuple l : list_or_tuple (OTuple l) l.
(** Python Sequences with their items: also str and bytes *)
Inductive sequence : obj -> list obj -> Prop :=
| sq_list l : sequence (OList l) l
| sq_tuple l : sequence (OTuple l) l
| sq_str s : sequence (OStr s) (map (fun c => OStr [c]) s)
| sq_bytes b : sequence (OBytes b) (map (fun n => OInt (Z.of_N n)) b).

Inductive a_column : obj -> Prop := is_a_column c : a_column (OColumn c).
Inductive a_function : obj -> Prop :=
  is_a_function f n ik il pk pl a : a_function (OFunc f n ik il pk pl a).
Inductive a_param_expr : obj -> Prop :=
| pe_column o : a_column o -> a_param_expr o
| pe_function o : a_function o -> a_param_expr o
| pe_ident n : a_param_expr (OIdent n)
| pe_lambda k i b : a_param_expr (OLambda k i b).
Inductive a_condition : obj -> Prop :=
| ac_cond l o r : a_condition (OCond l o r)
| ac_bool c o k l : a_condition (OBoolC c o k l).

Definition opt_alias (a : obj) : Prop := a = ONone \/ exists s, a = OStr s /\ alias_name s.

(** an int (or bool, which Python counts as an int) and its value *)
Inductive int_value : obj -> Z -> Prop :=
| iv_int z : int_value (OInt z) z
| iv_true : int_value (OBool true) 1
| iv_false : int_value (OBool false) 0.

(** reading an alias back: after [AS `] up to the next back-quote *)
Fixpoint read_until_backquote (s : str) : option (str * str) :=
  match s with
  | [] => None
  | c :: s' => if N.eqb c 96 then Some ([], s')
               else match read_until_backquote s' with
                    | Some (a, rest) => Some (c :: a, rest)
                    | None => None
                    end
  end.

(** C01: the entity argument of Column *)
Definition column_entity_ok (n : str) (ent : obj) : Prop :=
  ent = ONone \/
  exists e a, ent = OEntity e /\ e_alias e = Some a /\ a <> [] /\
    forall d, e_dm e = Some d -> In n (map sc_name (dm_columns d)).

Definition no_brackets (s : str) : Prop := ~ In 91%N s /\ ~ In 93%N s.
(** what C02 promises of a column *)
Definition decomposed (c : column) : Prop :=
  (c_sub c = None /\ c_key c = None /\ ~ In 91%N (c_name c))
  \/ exists s k, c_sub c = Some s /\ c_key c = Some k
       /\ c_name c = s ++ $"[" ++ k ++ $"]" /\ no_brackets s /\ no_brackets k.

(** C03: an aliased entity whose schema has the base column *)
Definition schema_has (e : entity) (n : str) : Prop :=
  exists d, e_dm e = Some d /\ In n (map sc_name (dm_columns d)).
Definition sub_name (base key : str) : str := base ++ $"[" ++ key ++ $"]".

(** the alias stored in a printable object *)
Definition alias_of (o : obj) : option str :=
  match o with OAliased _ a => a | OFunc _ _ _ _ _ _ a => a | _ => None end.

(** C05 *)
Definition inits_ok (i : obj) : Prop :=
  i = ONone \/ exists l, sequence i l /\ Forall (fun x => a_column x \/ literal x) l.

Definition param_ok (o : obj) : Prop := a_param_expr o \/ scalar o.

Definition params_ok (p : obj) : Prop :=
  p = ONone \/ exists l, sequence p l /\ Forall param_ok l.

(** C06/C16: a sample must not be <= 0 (nan compares false with everything) *)
Definition not_le_zero (f : flt) : Prop :=
  match f with
  | FNan => True
  | FInf neg => neg = false
  | FFin neg m _ => neg = false /\ m <> 0%N
  end.
Definition sample_arg_ok (s : obj) : Prop :=
  s = ONone \/ exists f, s = OFloat f /\ not_le_zero f.
Definition dm_arg_ok (d : obj) : Prop := d = ONone \/ exists m, d = ODataModel m.

Definition entity_alias_ok (a : obj) : Prop := a = ONone \/ exists s, a = OStr s /\ s <> [].

(** C08 *)
Definition condition_ok (lhs p rhs : obj) : Prop :=
  (a_column lhs \/ a_function lhs)
  /\ exists o, p = OOp o
     /\ ((o = IS_NULL \/ o = IS_NOT_NULL) -> rhs = ONone)
     /\ (a_column rhs \/ a_function rhs \/ scalar rhs).
