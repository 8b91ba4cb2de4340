(** datetime.strptime for the three formats of legacy.py:55, and parse_datetime.

    CPython's _strptime.py turns a format into a regular expression (IGNORECASE), takes its
    first match (alternatives in order, repetitions longest first) and demands that the
    match ends where the string ends. A parser here returns all ways to match, in the
    order in which the regular expression engine tries them. *)
From Verif Require Import PyBase DateTime Objects.
Local Open Scope Z_scope.

(** What Python decides and this model does not compute: the value of a decimal digit
    that is not ASCII, float(x) for anything but a float, int(x) for anything but an int. *)
Class PyConv := {
  uni_decimal : N -> Z;
  to_float : obj -> result flt;
  to_int : obj -> result Z }.

Definition parser (A : Type) : Type := str -> list (A * str).
Definition p_ret {A} (a : A) : parser A := fun s => [(a, s)].
Definition p_bind {A B} (p : parser A) (f : A -> parser B) : parser B :=
  fun s => flat_map (fun r => f (fst r) (snd r)) (p s).
Definition p_alt {A} (p q : parser A) : parser A := fun s => p s ++ q s.
Definition p_digit (f : N -> option Z) : parser Z :=
  fun s => match s with
           | c :: s' => match f c with Some d => [(d, s')] | None => [] end
           | [] => []
           end.
Definition p_char (f : N -> bool) : parser unit :=
  fun s => match s with c :: s' => if f c then [(tt, s')] else [] | [] => [] end.
(** an ASCII digit in a range of code points *)
Definition digit_in (lo hi : N) (c : N) : option Z :=
  if in_range lo hi c then Some (Z.of_N (c - 48)) else None.
(** int() of two digits *)
Definition p_two (f g : N -> option Z) : parser Z :=
  p_bind (p_digit f) (fun a => p_bind (p_digit g) (fun b => p_ret (10 * a + b))).
(** between one and n + 1 digits, longest first: the digits *)
Fixpoint p_digits (n : nat) (f : N -> option Z) : parser (list Z) :=
  p_bind (p_digit f) (fun a =>
    match n with
    | O => p_ret [a]
    | S n' => p_alt (p_bind (p_digits n' f) (fun r => p_ret (a :: r))) (p_ret [a])
    end).
(** int(digits padded with zeros to six) *)
Definition micros (ds : list Z) : Z :=
  fold_left (fun a d => 10 * a + d) (ds ++ repeat 0 (6 - List.length ds)) 0.

Section Strptime.
Context {RT : PyRT} {CV : PyConv}.

(** \d *)
Definition any_digit (c : N) : option Z :=
  if (c <? 128)%N then digit_in 48 57 c else if uni_digit c then Some (uni_decimal c) else None.

(** the fields, _strptime.py TimeRE.__init__ *)
Definition f_year : parser Z :=
  p_bind (p_two any_digit any_digit) (fun a =>
  p_bind (p_two any_digit any_digit) (fun b => p_ret (100 * a + b))).
Definition f_month : parser Z :=
  p_alt (p_two (digit_in 49 49) (digit_in 48 50))
  (p_alt (p_two (digit_in 48 48) (digit_in 49 57)) (p_digit (digit_in 49 57))).
Definition f_day : parser Z :=
  p_alt (p_two (digit_in 51 51) (digit_in 48 49))
  (p_alt (p_two (digit_in 49 50) any_digit)
  (p_alt (p_two (digit_in 48 48) (digit_in 49 57))
  (p_alt (p_digit (digit_in 49 57))
         (p_bind (p_char (N.eqb 32)) (fun _ => p_digit (digit_in 49 57)))))).
Definition f_hour : parser Z :=
  p_alt (p_two (digit_in 50 50) (digit_in 48 51))
  (p_alt (p_two (digit_in 48 49) any_digit) (p_digit any_digit)).
Definition f_minute : parser Z := p_alt (p_two (digit_in 48 53) any_digit) (p_digit any_digit).
Definition f_second : parser Z :=
  p_alt (p_two (digit_in 54 54) (digit_in 48 49))
  (p_alt (p_two (digit_in 48 53) any_digit) (p_digit any_digit)).
Definition f_micro : parser Z :=
  p_bind (p_digits 5 (digit_in 48 57)) (fun ds => p_ret (micros ds)).

(** an optional colon, longest first *)
Definition p_colon : parser bool :=
  p_alt (p_bind (p_char (N.eqb 58)) (fun _ => p_ret true)) (p_ret false).
(** the offset: None if the use of colons is refused after the match. Whether the part
    after the minutes has a colon and the seconds and their fraction, or nothing.
    [z[3] == ':'] asks for a colon before the seconds too; without it a colon before the
    seconds makes int(":1") fail. *)
Definition p_offset_rest : parser (option (bool * Z * Z)) :=
  p_alt (p_bind p_colon (fun c => p_bind (p_two (digit_in 48 53) any_digit) (fun s =>
           p_bind (p_alt (p_bind (p_char (N.eqb 46)) (fun _ =>
                            p_bind (p_digits 5 any_digit) (fun ds => p_ret (micros ds))))
                         (p_ret 0))
             (fun us => p_ret (Some (c, s, us))))))
        (p_ret None).
Definition p_offset : parser (option Z) :=
  p_alt
    (p_bind (p_alt (p_bind (p_char (N.eqb 43)) (fun _ => p_ret 1))
                   (p_bind (p_char (N.eqb 45)) (fun _ => p_ret (-1)))) (fun sign =>
     p_bind (p_two any_digit any_digit) (fun h =>
     p_bind p_colon (fun c =>
     p_bind (p_two (digit_in 48 53) any_digit) (fun m =>
     p_bind p_offset_rest (fun r => p_ret
       (match r with
        | None => Some (sign * ((h * 60 + m) * 60 * 1000000))
        | Some (c', s, us) =>
            if Bool.eqb c c' then Some (sign * (((h * 60 + m) * 60 + s) * 1000000 + us)) else None
        end)))))))
    (p_bind (p_char (N.eqb 90)) (fun _ => p_ret (Some 0))).

(** the constructors: datetime(year, ...) and timezone(delta) raise ValueError *)
Definition make_datetime (y mo d h mi s us : Z) (tz : option Z) : option datetime :=
  if (1 <=? y) && (y <=? 9999) && (1 <=? mo) && (mo <=? 12) && (1 <=? d)
     && (d <=? days_in_month (is_leap y) mo) && (s <? 60)
     && match tz with Some o => (- US_PER_DAY <? o) && (o <? US_PER_DAY) | None => true end
  then Some (mkDT (mkDate y mo d) h mi s us tz) else None.

(** "%Y-%m-%dT%H:%M:%S" followed by a field of the given kind *)
Definition p_stamp {A} (k : parser A) : parser ((Z * Z * Z) * (Z * Z * Z) * A) :=
  p_bind f_year (fun y => p_bind (p_char (N.eqb 45)) (fun _ =>
  p_bind f_month (fun mo => p_bind (p_char (N.eqb 45)) (fun _ =>
  p_bind f_day (fun d => p_bind (p_char (fun c => N.eqb c 84 || N.eqb c 116)) (fun _ =>
  p_bind f_hour (fun h => p_bind (p_char (N.eqb 58)) (fun _ =>
  p_bind f_minute (fun mi => p_bind (p_char (N.eqb 58)) (fun _ =>
  p_bind f_second (fun s => p_bind k (fun a => p_ret ((y, mo, d), (h, mi, s), a))))))))))))).
(** the first match, if it ends at the end of the string *)
Definition first_match {A} (p : parser A) (s : str) : option A :=
  match p s with (a, []) :: _ => Some a | _ => None end.

(** datetime.strptime(s, f) for the three formats, None for ValueError *)
Definition strptime_micro (s : str) : option datetime :=
  match first_match (p_stamp (p_bind (p_char (N.eqb 46)) (fun _ => f_micro))) s with
  | Some ((y, mo, d), (h, mi, sec), us) => make_datetime y mo d h mi sec us None
  | None => None
  end.
Definition strptime_tz (s : str) : option datetime :=
  match first_match (p_stamp p_offset) s with
  | Some ((y, mo, d), (h, mi, sec), Some o) => make_datetime y mo d h mi sec 0 (Some o)
  | _ => None
  end.
Definition strptime_plain (s : str) : option datetime :=
  match first_match (p_stamp (p_ret tt)) s with
  | Some ((y, mo, d), (h, mi, sec), _) => make_datetime y mo d h mi sec 0 None
  | None => None
  end.

(** legacy.py:50-53: colons are removed after the first plus sign *)
Definition strip_tz_colons (s : str) : str :=
  match split_once 43 s with
  | Some (a, b) => a ++ 43%N :: replace [58%N] [] b
  | None => s
  end.
(** parse_datetime on a str, legacy.py:37-62; None is ValueError *)
Definition parse_datetime (s : str) : option datetime :=
  let s := strip_tz_colons s in
  match strptime_micro s with
  | Some t => Some t
  | None => match strptime_tz s with
            | Some t => Some t
            | None => strptime_plain s
            end
  end.
End Strptime.
