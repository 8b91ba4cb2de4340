(** The spelling of operators and directions in SnQL, one by one. *)
From Verif Require Import PyBase Objects.

Definition op_text (o : op) : str :=
  match o with
  | EQ => $"=" | NEQ => $"!=" | GT => $">" | GTE => $">=" | LT => $"<" | LTE => $"<="
  | IN => $"IN" | NOT_IN => $"NOT IN" | LIKE => $"LIKE" | NOT_LIKE => $"NOT LIKE"
  | IS_NULL => $"IS NULL" | IS_NOT_NULL => $"IS NOT NULL" | NOT => $"!"
  end.
Definition boolop_text (o : boolop) : str := match o with AND => $"AND" | OR => $"OR" end.
Definition direction_text (d : direction) : str :=
  match d with ASC => $"ASC" | DESC => $"DESC" end.
