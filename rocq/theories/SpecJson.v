(** JSON as RFC 8259 defines it (C61), written without the encoder: which texts are JSON
    and which value each denotes. *)
From Verif Require Import PyBase DateTime Objects SpecText.
Require Import Permutation.

(** A number is [m * 10 ^ e]; a string is a sequence of UTF-16 code units (section 7); an
    object is a collection of name/value pairs. *)
Inductive jval :=
| JNull
| JBool (b : bool)
| JNum (m e : Z)
| JStr (units : list N)
| JArr (items : list jval)
| JObj (members : list (list N * jval)).

(** ** Section 2: white space is space, tab, line feed and carriage return *)
Definition blank (w : str) : Prop := Forall (fun c => In c [32; 9; 10; 13]%N) w.

(** ** Section 6: numbers *)
Definition all_digits (s : str) : Prop := Forall (fun c => 48 <= c <= 57)%N s.
Definition minus_sign (neg : bool) : str := if neg then $"-" else [].
(** zero, or digits not beginning with zero *)
Definition int_part (s : str) : Prop :=
  s = $"0" \/ exists c s', s = c :: s' /\ (49 <= c <= 57)%N /\ all_digits s'.
Inductive fraction : str -> str -> Prop :=
| fr_none : fraction [] []
| fr_some d : d <> [] -> all_digits d -> fraction ($"." ++ d) d.
Inductive exponent : str -> Z -> Prop :=
| ex_none : exponent [] 0
| ex_some e sign neg d : e = $"e" \/ e = $"E" -> d <> [] -> all_digits d ->
    sign = minus_sign neg \/ (neg = false /\ sign = $"+") ->
    exponent (e ++ sign ++ d) (if neg then - Z.of_N (digits_value d) else Z.of_N (digits_value d)).
Inductive number : str -> Z -> Z -> Prop :=
| a_number neg ip ft fd et ex : int_part ip -> fraction ft fd -> exponent et ex ->
    number (minus_sign neg ++ ip ++ ft ++ et)
      (if neg then - Z.of_N (digits_value (ip ++ fd)) else Z.of_N (digits_value (ip ++ fd)))
      (ex - Z.of_nat (List.length fd)).

(** ** Section 7: strings *)
(** the code units of a character *)
Definition units (c : N) : list N :=
  if (c <? 65536)%N then [c] else [55296 + (c - 65536) / 1024; 56320 + (c - 65536) mod 1024]%N.
Definition utf16 (s : str) : list N := flat_map units s.
Inductive hex : N -> N -> Prop :=
| hx_digit c : (48 <= c <= 57)%N -> hex c (c - 48)
| hx_lower c : (97 <= c <= 102)%N -> hex c (c - 87)
| hx_upper c : (65 <= c <= 70)%N -> hex c (c - 55).
(** what may stand after a backslash, and the character meant *)
Definition escapes : list (N * N) :=
  [(34, 34); (92, 92); (47, 47); (98, 8); (102, 12); (110, 10); (114, 13); (116, 9)]%N.
Inductive chars : str -> list N -> Prop :=
| ch_end : chars [] []
| ch_plain c t u : (32 <= c)%N -> c <> 34%N -> c <> 92%N -> chars t u -> chars (c :: t) (units c ++ u)
| ch_escape e c t u : In (e, c) escapes -> chars t u -> chars (92%N :: e :: t) (c :: u)
| ch_unicode a b c d a' b' c' d' t u : hex a a' -> hex b b' -> hex c c' -> hex d d' -> chars t u ->
    chars (92%N :: 117%N :: a :: b :: c :: d :: t) (4096 * a' + 256 * b' + 16 * c' + d' :: u)%N.
Inductive string_text : str -> list N -> Prop :=
| a_string t u : chars t u -> string_text ([34%N] ++ t ++ [34%N]) u.

(** ** Sections 3-5: values, arrays, objects *)
Inductive value : str -> jval -> Prop :=
| v_null : value ($"null") JNull
| v_true : value ($"true") (JBool true)
| v_false : value ($"false") (JBool false)
| v_number t m e : number t m e -> value t (JNum m e)
| v_string t u : string_text t u -> value t (JStr u)
| v_empty_array w : blank w -> value ($"[" ++ w ++ $"]") (JArr [])
| v_array t vs : items t vs -> value ($"[" ++ t ++ $"]") (JArr vs)
| v_empty_object w : blank w -> value ($"{" ++ w ++ $"}") (JObj [])
| v_object t ms : members t ms -> value ($"{" ++ t ++ $"}") (JObj ms)
with items : str -> list jval -> Prop :=
| i_one w1 t v w2 : blank w1 -> value t v -> blank w2 -> items (w1 ++ t ++ w2) [v]
| i_more w1 t v w2 t' vs : blank w1 -> value t v -> blank w2 -> items t' vs ->
    items (w1 ++ t ++ w2 ++ $"," ++ t') (v :: vs)
with members : str -> list (list N * jval) -> Prop :=
| m_one w1 k n w2 w3 t v w4 : blank w1 -> string_text k n -> blank w2 -> blank w3 -> value t v -> blank w4 ->
    members (w1 ++ k ++ w2 ++ $":" ++ w3 ++ t ++ w4) [(n, v)]
| m_more w1 k n w2 w3 t v w4 t' ms :
    blank w1 -> string_text k n -> blank w2 -> blank w3 -> value t v -> blank w4 -> members t' ms ->
    members (w1 ++ k ++ w2 ++ $":" ++ w3 ++ t ++ w4 ++ $"," ++ t') ((n, v) :: ms).
Definition json_text (s : str) (v : jval) : Prop :=
  exists w1 t w2, s = w1 ++ t ++ w2 /\ blank w1 /\ value t v /\ blank w2.

(** ** Which JSON value a Python value is: lists and tuples are arrays, dictionaries are
    objects (with their entries in any order), a float is the number that repr() shows *)
Section Spec.
Context {RT : PyRT}.
Inductive is_json : obj -> jval -> Prop :=
| ij_none : is_json ONone JNull
| ij_bool b : is_json (OBool b) (JBool b)
| ij_int z : is_json (OInt z) (JNum z 0)
| ij_float f m e : number (float_repr f) m e -> is_json (OFloat f) (JNum m e)
| ij_str s : is_json (OStr s) (JStr (utf16 s))
| ij_list l vs : Forall2 is_json l vs -> is_json (OList l) (JArr vs)
| ij_tuple l vs : Forall2 is_json l vs -> is_json (OTuple l) (JArr vs)
| ij_dict ks vs js ms : List.length ks = List.length vs -> Forall2 is_json vs js ->
    Permutation ms (combine (map utf16 ks) js) -> is_json (ODict ks vs) (JObj ms).

(** ** What can be sent: None, booleans, numbers, strings and containers of those *)
Inductive sendable : obj -> Prop :=
| se_none : sendable ONone
| se_bool b : sendable (OBool b)
| se_int z : sendable (OInt z)
| se_float f : sendable (OFloat f)
| se_str s : sendable (OStr s)
| se_list l : Forall sendable l -> sendable (OList l)
| se_tuple l : Forall sendable l -> sendable (OTuple l)
| se_dict ks vs : Forall sendable vs -> sendable (ODict ks vs).

(** ** Well-formed values: dictionaries have as many values as keys, floats are numbers (no
    NaN, no infinity) that repr() writes as decimal numbers, strings consist of code points *)
Definition code_points (s : str) : Prop := Forall (fun c => c < 1114112)%N s.
Inductive ordinary : obj -> Prop :=
| or_none : ordinary ONone
| or_bool b : ordinary (OBool b)
| or_int z : ordinary (OInt z)
| or_float n m e x y : number (float_repr (FFin n m e)) x y -> ordinary (OFloat (FFin n m e))
| or_str s : code_points s -> ordinary (OStr s)
| or_list l : Forall ordinary l -> ordinary (OList l)
| or_tuple l : Forall ordinary l -> ordinary (OTuple l)
| or_dict ks vs : List.length ks = List.length vs -> Forall code_points ks -> Forall ordinary vs ->
    ordinary (ODict ks vs).
End Spec.

(** ** Text without halves of surrogate pairs *)
Definition scalar_value (c : N) : Prop := (c < 55296 \/ 57344 <= c < 1114112)%N.
