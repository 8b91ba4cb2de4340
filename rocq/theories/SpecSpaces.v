(** Specification vocabulary for C85: MQL texts that differ in their white space only. *)
From Verif Require Import PyBase Objects Metrics SpecMql.

Section Spec.
Context {RT : PyRT}.

(** the same text but for the gaps: each piece of white space may be replaced by another one
    that is not empty either *)
Inductive same_words : str -> str -> Prop :=
| sw_nil : same_words [] []
| sw_char c x y : ~ space_char c -> same_words x y -> same_words (c :: x) (c :: y)
| sw_gap w w' x y : white w -> white w' -> w <> [] -> w' <> [] -> same_words x y ->
    same_words (w ++ x) (w' ++ y).
(** parentheses, braces, brackets and the comma *)
Definition bracket (c : N) : Prop := In c ($"(){}[],").
(** a stretch of text between brackets, commas, double quotes and backticks *)
Definition stretch (x : str) : Prop := Forall (fun c => ~ bracket c /\ c <> 34%N /\ c <> 96%N) x.
(** two texts with the same brackets and commas, the same texts in double quotes and the same
    texts in backticks, whose stretches in between are related by [same]. All double quotes and
    backticks are closed, and the text in backticks has no white space, comma, bracket, brace,
    parenthesis, double quote or star. *)
Inductive alike_by (same : str -> str -> Prop) : str -> str -> Prop :=
| al_end x y : stretch x -> stretch y -> same x y -> alike_by same x y
| al_bracket x y c s t : stretch x -> stretch y -> same x y -> bracket c -> alike_by same s t ->
    alike_by same (x ++ c :: s) (y ++ c :: t)
| al_quoted x y q v s t : stretch x -> stretch y -> same x y -> quoted_said q v -> alike_by same s t ->
    alike_by same (x ++ q ++ s) (y ++ q ++ t)
| al_ticks x y m s t : stretch x -> stretch y -> same x y -> Forall pattern_char m -> ~ In 96%N m ->
    alike_by same s t ->
    alike_by same (x ++ $"`" ++ m ++ $"`" ++ s) (y ++ $"`" ++ m ++ $"`" ++ t).
(** white space may differ everywhere outside double quotes and backticks *)
Definition reformatted : str -> str -> Prop := alike_by same_words.
(** the same, but a stretch with an at sign, which an unquoted metric identifier has, is kept
    as it is *)
Definition reformatted_around_mris : str -> str -> Prop :=
  alike_by (fun x y => same_words x y /\ (In 64%N x -> x = y)).
End Spec.
