(** Python literals (The Python Language Reference, 2.4 and 6.2; C104), written without repr():
    which texts are literals and which value each denotes. Not included are octal and named
    escapes, other quotes and prefixes, trailing commas, underscores in numbers, and comments. *)
From Verif Require Import PyBase DateTime Objects SpecText SpecJson.

(** what may stand after a backslash, and the character meant *)
Definition py_escapes : list (N * N) :=
  [(92, 92); (39, 39); (34, 34); (97, 7); (98, 8); (102, 12); (110, 10); (114, 13); (116, 9); (118, 11)]%N.
(** the letters of hexadecimal escapes and the number of digits after them *)
Definition hex_escapes : list (N * nat) := [(120%N, 2); (117%N, 4); (85%N, 8)].
Definition hex_value (ds : list N) : N := fold_left (fun a d => 16 * a + d)%N ds 0%N.
(** the text between quotes q and the characters it stands for *)
Inductive py_chars (q : N) : str -> str -> Prop :=
| pc_end : py_chars q [] []
| pc_plain c t s : c <> q -> ~ In c [92; 10; 13]%N -> py_chars q t s -> py_chars q (c :: t) (c :: s)
| pc_escape e c t s : In (e, c) py_escapes -> py_chars q t s -> py_chars q (92%N :: e :: t) (c :: s)
| pc_hex e n hs ds t s : In (e, n) hex_escapes -> List.length hs = n -> Forall2 hex hs ds -> py_chars q t s ->
    py_chars q (92%N :: e :: hs ++ t) (hex_value ds :: s).
Inductive py_string : str -> str -> Prop :=
| a_py_string q t s : q = 39%N \/ q = 34%N -> py_chars q t s -> py_string ([q] ++ t ++ [q]) s.

Inductive py_literal : str -> obj -> Prop :=
| pl_none : py_literal ($"None") ONone
| pl_true : py_literal ($"True") (OBool true)
| pl_false : py_literal ($"False") (OBool false)
| pl_int neg ip : int_part ip ->
    py_literal (minus_sign neg ++ ip) (OInt (if neg then - Z.of_N (digits_value ip) else Z.of_N (digits_value ip)))
| pl_str t s : py_string t s -> py_literal t (OStr s)
| pl_empty_list w : blank w -> py_literal ($"[" ++ w ++ $"]") (OList [])
| pl_list t vs : py_items t vs -> py_literal ($"[" ++ t ++ $"]") (OList vs)
| pl_empty_tuple w : blank w -> py_literal ($"(" ++ w ++ $")") (OTuple [])
| pl_one_tuple w1 t v w2 w3 : blank w1 -> py_literal t v -> blank w2 -> blank w3 ->
    py_literal ($"(" ++ w1 ++ t ++ w2 ++ $"," ++ w3 ++ $")") (OTuple [v])
| pl_tuple t v1 v2 vs : py_items t (v1 :: v2 :: vs) -> py_literal ($"(" ++ t ++ $")") (OTuple (v1 :: v2 :: vs))
| pl_empty_dict w : blank w -> py_literal ($"{" ++ w ++ $"}") (ODict [] [])
| pl_dict t ks vs : py_entries t ks vs -> NoDup ks -> py_literal ($"{" ++ t ++ $"}") (ODict ks vs)
with py_items : str -> list obj -> Prop :=
| pi_one w1 t v w2 : blank w1 -> py_literal t v -> blank w2 -> py_items (w1 ++ t ++ w2) [v]
| pi_more w1 t v w2 t' vs : blank w1 -> py_literal t v -> blank w2 -> py_items t' vs ->
    py_items (w1 ++ t ++ w2 ++ $"," ++ t') (v :: vs)
with py_entries : str -> list str -> list obj -> Prop :=
| pe_one w1 k n w2 w3 t v w4 : blank w1 -> py_string k n -> blank w2 -> blank w3 -> py_literal t v -> blank w4 ->
    py_entries (w1 ++ k ++ w2 ++ $":" ++ w3 ++ t ++ w4) [n] [v]
| pe_more w1 k n w2 w3 t v w4 t' ks vs :
    blank w1 -> py_string k n -> blank w2 -> blank w3 -> py_literal t v -> blank w4 -> py_entries t' ks vs ->
    py_entries (w1 ++ k ++ w2 ++ $":" ++ w3 ++ t ++ w4 ++ $"," ++ t') (n :: ks) (v :: vs).

(** Values of the types that DeleteQuery documents, at any depth: None, booleans, integers and
    strings, in lists, tuples and dictionaries *)
Inductive documented : obj -> Prop :=
| do_none : documented ONone
| do_bool b : documented (OBool b)
| do_int z : documented (OInt z)
| do_str s : code_points s -> documented (OStr s)
| do_list l : Forall documented l -> documented (OList l)
| do_tuple l : Forall documented l -> documented (OTuple l)
| do_dict ks vs : List.length ks = List.length vs -> NoDup ks -> Forall code_points ks -> Forall documented vs -> documented (ODict ks vs).

(** no control characters, line breaks among them *)
Definition no_controls (s : str) : Prop := Forall (fun c => 32 <= c /\ c <> 127)%N s.
