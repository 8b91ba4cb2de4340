(** Specification for C80 and C81: legacy bodies as a JSON decoder delivers them, and the
    datetimes that are written in their texts. *)
From Verif Require Import PyBase DateTime SpecTime Objects SpecJson Exprs SpecLogic Query SpecMetricsQuery Request SpecRequest Strptime SpecLegacy SpecBody.

Section Spec.
Context {RT : PyRT} {CV : PyConv}.

(** what json.loads returns, or the same with tuples in the place of lists *)
Inductive decoded : obj -> Prop :=
| de_none : decoded ONone
| de_bool b : decoded (OBool b)
| de_int z : decoded (OInt z)
| de_float f : decoded (OFloat f)
| de_str s : code_points s -> decoded (OStr s)
| de_list l : Forall decoded l -> decoded (OList l)
| de_tuple l : Forall decoded l -> decoded (OTuple l)
| de_dict ks vs : Forall code_points ks -> Forall decoded vs -> decoded (ODict ks vs).

(** the texts of a value, at every depth; keys are texts too *)
Inductive text_in (s : str) : obj -> Prop :=
| ti_self : text_in s (OStr s)
| ti_list v l : In v l -> text_in s v -> text_in s (OList l)
| ti_tuple v l : In v l -> text_in s v -> text_in s (OTuple l)
| ti_key ks vs : In s ks -> text_in s (ODict ks vs)
| ti_value ks vs v : In v vs -> text_in s v -> text_in s (ODict ks vs).
(** a datetime that stands in a text of the value, alone or with other characters around it *)
Definition written (body : obj) (t : datetime) : Prop :=
  exists a s b, text_in (a ++ s ++ b) body /\ lenient_text t s.
(** a datetime that no datetime in UTC equals: its UTC lies before year 1 or after year 9999 *)
Definition out_of_range (t : datetime) : Prop :=
  real_datetime t /\ forall u i, real_datetime u -> dt_tz u = None -> instant t i -> ~ instant u i.

(** totals without anything to group by *)
Definition totals_alone (body : obj) : Prop :=
  dict_entry body ($"totals") (OBool true) /\ grouped body [].

(** the settings of the request, as they come from the body or by default *)
Definition request_settings (body entity : obj) : Prop :=
  (forall v, value_or body ($"dataset") entity v -> safe_name v)
  /\ (forall v, value_or body ($"app_id") (OStr ($"legacy")) v -> safe_name v)
  /\ (forall v, given body ($"tenant_ids") v -> exists ks vs, v = ODict ks vs)
  /\ (forall k v, In k [$"consistent"; $"turbo"; $"debug"; $"dry_run"] -> given body k v -> v = OBool true).
End Spec.
