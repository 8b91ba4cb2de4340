(** Python [datetime.date] / [datetime.datetime] as far as the SDK uses them:
    [utcoffset], subtraction of the offset, [replace(tzinfo=None)], [isoformat].
    Call sites: visitors.py:166-175, mql_visitor.py:119-129.
    The arithmetic follows CPython's datetime (_ymd2ord, _ord2ymd, __add__). *)
From Verif Require Import PyBase.
Local Open Scope Z_scope.

Record date := mkDate { d_year : Z; d_month : Z; d_day : Z }.

(** [dt_tz]: None for a naive datetime, otherwise the value of utcoffset() in
    microseconds. Simplification: tzinfo objects whose utcoffset() is None are not
    represented (the code asserts they do not occur, visitors.py:170). *)
Record datetime := mkDT {
  dt_date : date; dt_hour : Z; dt_min : Z; dt_sec : Z; dt_us : Z; dt_tz : option Z }.

Definition is_leap (y : Z) : bool :=
  (y mod 4 =? 0) && (negb (y mod 100 =? 0) || (y mod 400 =? 0)).

Definition days_in_month (leap : bool) (m : Z) : Z :=
  match m with
  | 1 => 31 | 2 => if leap then 29 else 28 | 3 => 31 | 4 => 30 | 5 => 31 | 6 => 30
  | 7 => 31 | 8 => 31 | 9 => 30 | 10 => 31 | 11 => 30 | 12 => 31 | _ => 0
  end.

Definition days_before_month (leap : bool) (m : Z) : Z :=
  match m with
  | 1 => 0 | 2 => 31 | 3 => 59 | 4 => 90 | 5 => 120 | 6 => 151
  | 7 => 181 | 8 => 212 | 9 => 243 | 10 => 273 | 11 => 304 | 12 => 334 | _ => 0
  end + (if (m >? 2) && leap then 1 else 0).

Definition days_before_year (y : Z) : Z :=
  let p := y - 1 in p * 365 + p / 4 - p / 100 + p / 400.

(** datetime._ymd2ord *)
Definition ymd2ord (d : date) : Z :=
  days_before_year (d_year d) + days_before_month (is_leap (d_year d)) (d_month d) + d_day d.

(** the month/day part of datetime._ord2ymd: day-of-year n (from 0) to (month, day) *)
Definition month_day (leap : bool) (n : Z) : Z * Z :=
  let month := (n + 50) / 32 in
  let preceding := days_before_month leap month in
  if preceding >? n
  then (month - 1, n - (preceding - days_in_month leap (month - 1)) + 1)
  else (month, n - preceding + 1).

(** datetime._ord2ymd *)
Definition ord2ymd (n : Z) : date :=
  let n := n - 1 in
  let n400 := n / 146097 in let n := n mod 146097 in
  let n100 := n / 36524 in let n := n mod 36524 in
  let n4 := n / 1461 in let n := n mod 1461 in
  let n1 := n / 365 in let n := n mod 365 in
  let year := n400 * 400 + 1 + n100 * 100 + n4 * 4 + n1 in
  if (n1 =? 4) || (n100 =? 4) then mkDate (year - 1) 12 31
  else
    let leap := (n1 =? 3) && (negb (n4 =? 24) || (n100 =? 3)) in
    let (m, d) := month_day leap n in mkDate year m d.

Definition MAXORDINAL : Z := 3652059.
Definition US_PER_DAY : Z := 86400000000.

Definition valid_date (d : date) : Prop :=
  1 <= d_year d <= 9999 /\ 1 <= d_month d <= 12 /\
  1 <= d_day d <= days_in_month (is_leap (d_year d)) (d_month d).

Definition valid_datetime (t : datetime) : Prop :=
  valid_date (dt_date t) /\ 0 <= dt_hour t < 24 /\ 0 <= dt_min t < 60 /\
  0 <= dt_sec t < 60 /\ 0 <= dt_us t < 1000000 /\
  match dt_tz t with Some o => - US_PER_DAY < o < US_PER_DAY | None => True end.

(** Microseconds within the day. *)
Definition day_us (t : datetime) : Z :=
  ((dt_hour t * 60 + dt_min t) * 60 + dt_sec t) * 1000000 + dt_us t.

(** value - delta, then replace(tzinfo=None); visitors.py:168-172.
    datetime.__sub__ raises OverflowError outside years 1..9999. *)
Definition sub_offset (t : datetime) (delta : Z) : result datetime :=
  let total := ymd2ord (dt_date t) * US_PER_DAY + day_us t - delta in
  let days := total / US_PER_DAY in
  let us := total mod US_PER_DAY in
  if (0 <? days) && (days <=? MAXORDINAL) then
    Ok (mkDT (ord2ymd days) (us / 3600000000) (us / 60000000 mod 60) (us / 1000000 mod 60)
          (us mod 1000000) None)
  else Raise OverflowError.

(** The naive UTC datetime the printer uses. *)
Definition to_naive_utc (t : datetime) : result datetime :=
  match dt_tz t with None => Ok t | Some delta => sub_offset t delta end.

Definition pad2 (z : Z) : str := pad_left 2 (dec_of_Z z).

(** date.isoformat() *)
Definition date_iso (d : date) : str :=
  pad_left 4 (dec_of_Z (d_year d)) ++ $"-" ++ pad2 (d_month d) ++ $"-" ++ pad2 (d_day d).

(** UTC offset part of datetime.isoformat(): [+HH:MM[:SS[.ffffff]]] *)
Definition tz_iso (o : option Z) : str :=
  match o with
  | None => []
  | Some off =>
      let sign := if off <? 0 then $"-" else $"+" in
      let a := Z.abs off in
      let us := a mod 1000000 in let s := a / 1000000 in
      sign ++ pad2 (s / 3600) ++ $":" ++ pad2 (s / 60 mod 60)
      ++ (if (s mod 60 =? 0) && (us =? 0) then []
          else $":" ++ pad2 (s mod 60)
               ++ (if us =? 0 then [] else $"." ++ pad_left 6 (dec_of_Z us)))
  end.

(** datetime.isoformat() *)
Definition datetime_iso (t : datetime) : str :=
  date_iso (dt_date t) ++ $"T" ++ pad2 (dt_hour t) ++ $":" ++ pad2 (dt_min t) ++ $":"
  ++ pad2 (dt_sec t)
  ++ (if dt_us t =? 0 then [] else $"." ++ pad_left 6 (dec_of_Z (dt_us t)))
  ++ tz_iso (dt_tz t).

(** datetime == datetime: naive ones by fields, aware ones by instant, mixed never equal. *)
Definition date_eqb (a b : date) : bool :=
  (d_year a =? d_year b) && (d_month a =? d_month b) && (d_day a =? d_day b).
Definition instant_us (t : datetime) : Z :=
  ymd2ord (dt_date t) * US_PER_DAY + day_us t - match dt_tz t with Some o => o | None => 0 end.
Definition datetime_eqb (a b : datetime) : bool :=
  match dt_tz a, dt_tz b with
  | None, None | Some _, Some _ => instant_us a =? instant_us b
  | _, _ => false
  end.

Example iso_ex : datetime_iso (mkDT (mkDate 2021 3 7) 4 5 6 70 (Some (-19800000000)))
  = $"2021-03-07T04:05:06.000070-05:30".
Proof. vm_compute. reflexivity. Qed.
Example utc_ex : to_naive_utc (mkDT (mkDate 2021 1 1) 4 5 6 0 (Some 19800000000))
  = Ok (mkDT (mkDate 2020 12 31) 22 35 6 0 None).
Proof. vm_compute. reflexivity. Qed.
