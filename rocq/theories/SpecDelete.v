(** Specification for C110: the rows a delete request deletes. The documentation of DeleteQuery
    says that {"id": [1, 2, 3], "status": ["failed"]} means id IN (1, 2, 3) AND status = 'failed'. *)
From Verif Require Import PyBase Objects Exprs MetricsQuery SpecMetricsQuery Request SpecJson SpecSame SpecServer.

(** a row of the table: what each column holds *)
Inductive cell := CNull | CInt (z : Z) | CText (s : str).
Definition table_row := str -> cell.
Definition texts_fine (r : table_row) : Prop := forall c s, r c = CText s -> Forall scalar_value s.

(** what was asked for, with Python values *)
Inductive cell_is : obj -> cell -> Prop :=
| ci_int z : cell_is (OInt z) (CInt z)
| ci_str s : cell_is (OStr s) (CText s).
Definition documented_value (v : obj) : Prop := (exists z, v = OInt z) \/ (exists s, v = OStr s).
(** Dict[str, List[Union[str, int]]] *)
Definition documented_columns (o : obj) : Prop := exists ks vs, o = ODict ks vs /\ NoDup ks
  /\ Forall (fun v => exists l, v = OList l /\ Forall documented_value l) vs.
Definition asks_to_delete (columns : obj) (r : table_row) : Prop :=
  forall c l, dict_entry columns c (OList l) -> exists v, In v l /\ cell_is v (r c).

(** what is deleted, according to the JSON that arrives *)
Inductive json_cell : jval -> cell -> Prop :=
| jc_int z : json_cell (JNum z 0) (CInt z)
| jc_text s : json_cell (JStr (utf16 s)) (CText s).
Definition deletes (s : str) (r : table_row) : Prop := exists cols,
  received s ($"query") (JObj [(utf16 ($"columns"), JObj cols)])
  /\ forall c j, Forall scalar_value c -> In (utf16 c, j) cols -> exists us u, j = JArr us /\ In u us /\ json_cell u (r c).
