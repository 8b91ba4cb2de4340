(** Specification for C108: the key of the mql_context that shows a field of a MetricsQuery. *)
From Verif Require Import PyBase Objects MetricsQuery.

Definition context_key (f : mfield) : option str :=
  match f with
  | FQuery => None
  | FStart => Some ($"start") | FEnd => Some ($"end") | FRollup => Some ($"rollup") | FScope => Some ($"scope")
  | FLimit => Some ($"limit") | FOffset => Some ($"offset") | FExtrapolate => Some ($"extrapolate") | FIndexer => Some ($"indexer_mappings")
  end.
