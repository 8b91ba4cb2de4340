(** Specification of the calendar and of instants (C15), independent of the day-number
    arithmetic of the model: a date is reached by counting days from 0001-01-01. *)
From Verif Require Import PyBase DateTime.
Local Open Scope Z_scope.

(** Gregorian calendar *)
Definition leap_year (y : Z) : Prop := (4 | y) /\ (~ (100 | y) \/ (400 | y)).
Inductive month_length : Z -> Z -> Z -> Prop :=   (* year, month, number of days *)
| ml_31 y m : In m [1; 3; 5; 7; 8; 10; 12] -> month_length y m 31
| ml_30 y m : In m [4; 6; 9; 11] -> month_length y m 30
| ml_29 y : leap_year y -> month_length y 2 29
| ml_28 y : ~ leap_year y -> month_length y 2 28.
Inductive next_day : date -> date -> Prop :=
| nd_day y m d n : month_length y m n -> d < n -> next_day (mkDate y m d) (mkDate y m (d + 1))
| nd_month y m n : month_length y m n -> m < 12 -> next_day (mkDate y m n) (mkDate y (m + 1) 1)
| nd_year y : next_day (mkDate y 12 31) (mkDate (y + 1) 1 1).
(** [day_number d n]: [d] is the n-th day, 0001-01-01 being day 1 *)
Inductive day_number : date -> Z -> Prop :=
| dn_first : day_number (mkDate 1 1 1) 1
| dn_next d d' n : day_number d n -> next_day d d' -> day_number d' (n + 1).

(** a real date / datetime as Python's constructors allow *)
Definition real_date (d : date) : Prop :=
  1 <= d_year d <= 9999 /\ 1 <= d_month d <= 12 /\
  exists n, month_length (d_year d) (d_month d) n /\ 1 <= d_day d <= n.
Definition real_datetime (t : datetime) : Prop :=
  real_date (dt_date t) /\ 0 <= dt_hour t < 24 /\ 0 <= dt_min t < 60 /\
  0 <= dt_sec t < 60 /\ 0 <= dt_us t < 1000000 /\
  match dt_tz t with Some o => Z.abs o < 24 * 3600 * 1000000 | None => True end.

(** microseconds since 0000-12-31T00:00 UTC; a naive datetime counts as UTC *)
Definition instant (t : datetime) (i : Z) : Prop :=
  exists n, day_number (dt_date t) n /\
    i = (((n * 24 + dt_hour t) * 60 + dt_min t) * 60 + dt_sec t) * 1000000 + dt_us t
        - match dt_tz t with Some o => o | None => 0 end.

(** ISO 8601 text of a naive datetime *)
Definition numeral (w : nat) (z : Z) (s : str) : Prop :=
  List.length s = w /\ Forall (fun c => (48 <= c <= 57)%N) s
  /\ fold_left (fun a c => 10 * a + (Z.of_N c - 48)) s 0 = z.
Definition iso_text (t : datetime) (s : str) : Prop :=
  exists y mo d h mi se frac,
    s = y ++ $"-" ++ mo ++ $"-" ++ d ++ $"T" ++ h ++ $":" ++ mi ++ $":" ++ se ++ frac
    /\ numeral 4 (d_year (dt_date t)) y /\ numeral 2 (d_month (dt_date t)) mo
    /\ numeral 2 (d_day (dt_date t)) d /\ numeral 2 (dt_hour t) h /\ numeral 2 (dt_min t) mi
    /\ numeral 2 (dt_sec t) se
    /\ (dt_us t = 0 /\ frac = [] \/ dt_us t <> 0 /\ exists u, frac = $"." ++ u /\ numeral 6 (dt_us t) u).
Definition iso_date_text (d : date) (s : str) : Prop :=
  exists y mo dd, s = y ++ $"-" ++ mo ++ $"-" ++ dd
    /\ numeral 4 (d_year d) y /\ numeral 2 (d_month d) mo /\ numeral 2 (d_day d) dd.
