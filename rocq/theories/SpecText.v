(** Specification vocabulary for printed SnQL/MQL text (C12-C17, C40): readers, written
    without reference to the printer. *)
From Verif Require Import PyBase Objects.

(** ** C12/C40: reading a quoted string.
    [read_body q s]: [s] is the text after the opening quote [q]. Backslash pairs are
    undone (\\ \q \n), a raw newline is not allowed, the closing quote ends the string. *)
Fixpoint read_body (q : N) (s : str) : option (str * str) :=
  match s with
  | [] => None
  | c :: s' =>
      if N.eqb c q then Some ([], s')
      else if N.eqb c 92 then
        match s' with
        | [] => None
        | e :: s'' =>
            match (if N.eqb e 92 then Some 92%N
                   else if N.eqb e q then Some q
                   else if N.eqb e 110 then Some 10%N else None),
                  read_body q s'' with
            | Some d, Some (a, rest) => Some (d :: a, rest)
            | _, _ => None
            end
        end
      else if N.eqb c 10 then None
      else match read_body q s' with Some (a, rest) => Some (c :: a, rest) | None => None end
  end.
Definition read_quoted (q : N) (s : str) : option (str * str) :=
  match s with
  | c :: s' => if N.eqb c q then read_body q s' else None
  | [] => None
  end.

(** ** C13: values whose text identifies them *)
Inductive plain_value : obj -> Prop :=
| pv_none : plain_value ONone
| pv_bool b : plain_value (OBool b)
| pv_int z : plain_value (OInt z)
| pv_str s : plain_value (OStr s)
| pv_list l : Forall plain_value l -> plain_value (OList l)
| pv_tuple l : Forall plain_value l -> plain_value (OTuple l).
(** what may follow a printed value: nothing, or a character that is no digit *)
Definition ends_number (rest : str) : Prop :=
  match rest with [] => True | c :: _ => ~ (48 <= c <= 57)%N end.

(** ** C16: decimal numbers. [decimal_text s num p]: [s] is digits, a point and [p] digits,
    and denotes num / 10^p. *)
Definition digits_value (s : str) : N := fold_left (fun a c => 10 * a + (c - 48))%N s 0%N.
Definition decimal_text (s : str) (num : N) (p : nat) : Prop :=
  exists ip fp, s = ip ++ $"." ++ fp /\ ip <> [] /\ List.length fp = p
    /\ Forall (fun c => 48 <= c <= 57)%N (ip ++ fp) /\ digits_value (ip ++ fp) = num.
(** num / 10^p is a decimal fraction with p places nearest to m * 2^e:
    |num / 10^p - m * 2^e| <= 1/2 * 10^-p, multiplied out *)
Definition nearest (num : N) (p : nat) (m : N) (e : Z) : Prop :=
  let up := (2 ^ Z.max 0 e)%Z in let down := (2 ^ Z.max 0 (- e))%Z in
  (2 * Z.abs (Z.of_N num * down - Z.of_N m * up * 10 ^ Z.of_nat p) <= down)%Z.
(** m * 2^e > 0.0000005 *)
Definition not_tiny (m : N) (e : Z) : Prop :=
  (2 ^ Z.max 0 (- e) < 2000000 * Z.of_N m * 2 ^ Z.max 0 e)%Z.

(** ** C14: the UTF-8 encoding of a code point / string, and Unicode scalar values (code
    points below 0x110000 that are not surrogates) *)
Local Open Scope N_scope.
Definition utf8_encode1 (c : N) : list N :=
  if c <? 128 then [c]
  else if c <? 2048 then [192 + c / 64; 128 + c mod 64]
  else if c <? 65536 then [224 + c / 4096; 128 + c / 64 mod 64; 128 + c mod 64]
  else [240 + c / 262144; 128 + c / 4096 mod 64; 128 + c / 64 mod 64; 128 + c mod 64].
Definition utf8_encode (s : str) : list N := flat_map utf8_encode1 s.

Definition scalar_value (c : N) : bool := (c <? 1114112) && negb (in_range 55296 57343 c).
