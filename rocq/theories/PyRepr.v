(** repr(): delete_query.py:49-51, entity.py:41-44, storage.py:35-37 *)
From Verif Require Import PyBase DateTime Objects Exprs Json Request.

(** What the model leaves open: str.isprintable() of a character >= 128, and repr() of values that
    are no None, bool, int, float, str, list, tuple or dict *)
Class PyRepr := {
  uni_printable : N -> bool;
  repr_other : obj -> str;
}.

Section Repr.
Context {RT : PyRT} {RE : PyRepr}.

(** the last n hexadecimal digits, in lower case *)
Fixpoint hexs (n : nat) (c : N) : str :=
  match n with O => [] | S n' => hexs n' (c / 16) ++ [hex_digit (c mod 16)] end.
Definition has_char (c : N) (s : str) : bool := existsb (N.eqb c) s.
(** repr(str), Objects/unicodeobject.c unicode_repr: in single quotes, unless there are single
    quotes and no double quotes in the text; not printable characters as hexadecimal escapes *)
Definition repr_quote (s : str) : N := if has_char SQ s && negb (has_char DQ s) then DQ else SQ.
Definition repr_char (q c : N) : str :=
  if N.eqb c q || N.eqb c BSL then [BSL; c]
  else if N.eqb c 9 then [BSL; 116%N] else if N.eqb c 10 then [BSL; 110%N] else if N.eqb c 13 then [BSL; 114%N]
  else if in_range 32 126 c || (128 <=? c)%N && uni_printable c then [c]
  else if (c <? 256)%N then [BSL; 120%N] ++ hexs 2 c
  else if (c <? 65536)%N then [BSL; 117%N] ++ hexs 4 c
  else [BSL; 85%N] ++ hexs 8 c.
Definition repr_str (s : str) : str :=
  let q := repr_quote s in [q] ++ flat_map (repr_char q) s ++ [q].

(** repr(o); a tuple of one item has a comma after it *)
Fixpoint py_repr (o : obj) : str :=
  match o with
  | ONone => $"None"
  | OBool b => if b then $"True" else $"False"
  | OInt z => dec_of_Z z
  | OFloat f => float_repr f
  | OStr s => repr_str s
  | OList l => $"[" ++ join ($", ") (map py_repr l) ++ $"]"
  | OTuple l => $"(" ++ join ($", ") (map py_repr l) ++ (match l with [_] => $"," | _ => [] end) ++ $")"
  | ODict ks vs => $"{" ++ join ($", ") (map (fun kv => repr_str (fst kv) ++ $": " ++ snd kv) (combine ks (map py_repr vs))) ++ $"}"
  | _ => repr_other o
  end.

(** DeleteQuery.print(), repr(DeleteQuery), delete_query.py:49-51: not validated *)
Definition delete_print (q : delete_query) : str :=
  $"DeleteQuery(storage_name=" ++ py_repr (dq_storage q) ++ $", columnsConditions=" ++ py_repr (dq_columns q) ++ $")".
(** repr(Entity), entity.py:41-44: name and alias between quotes as they are *)
Definition entity_repr (e : entity) : str :=
  $"Entity('" ++ e_name e ++ $"'"
  ++ (match e_alias e with Some a => $", alias='" ++ a ++ $"'" | None => [] end)
  ++ (match e_sample e with Some f => $", sample=" ++ float_repr f | None => [] end) ++ $")".
(** repr(Storage), storage.py:35-37 *)
Definition storage_repr (s : storage) : str :=
  $"STORAGE('" ++ st_name s ++ $"'"
  ++ (match st_sample s with Some f => $", sample=" ++ float_repr f | None => [] end) ++ $")".
End Repr.
