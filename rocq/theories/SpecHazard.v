(** Specification for C33: the only values that can make printing fail. *)
From Verif Require Import PyBase Utf8 DateTime Objects SpecText SpecTime.

Inductive hazard : exn -> obj -> Prop :=
| hz_bytes b : (forall s, forallb scalar_value s = true -> b <> utf8_encode s) ->
    hazard UnicodeDecodeError (OBytes b)
| hz_datetime t : real_datetime t ->
    (forall u i, real_datetime u -> dt_tz u = None -> instant t i -> ~ instant u i) ->
    hazard OverflowError (ODateTime t)
| hz_extrapolate b : hazard AssertionError (OExtrapolate b).
