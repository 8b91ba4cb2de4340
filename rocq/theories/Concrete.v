(** A concrete runtime, used only in [Example]s (non-vacuity checks and transcribed
    repository tests): no non-ASCII character is a word character, space or digit, floats
    are written with the fewest decimals that read back. No theorem depends on it. *)
From Verif Require Import PyBase Objects Translate.

(** float(text) of digits, optionally a point and digits: correctly rounded (half to even)
    to 53 bits; exponent range not limited *)
Definition scaled_div (num den : N) (e : Z) : N * N * N :=
  let n := if (e <? 0)%Z then (num * 2 ^ Z.to_N (- e))%N else num in
  let d := if (e <? 0)%Z then den else (den * 2 ^ Z.to_N e)%N in
  (N.div n d, N.modulo n d, d).
Definition nearest_flt (num den : N) : flt :=
  match num with
  | 0%N => FFin false 0 0
  | _ =>
      let e0 := (Z.of_N (N.log2 num) - Z.of_N (N.log2 den) - 52)%Z in
      let '(q0, _, _) := scaled_div num den e0 in
      let e := if (q0 <? 2 ^ 52)%N then (e0 - 1)%Z else e0 in
      let '(q, r, d) := scaled_div num den e in
      let up := (d <? 2 * r)%N || ((d =? 2 * r)%N && N.odd q) in
      FFin false (if up then q + 1 else q)%N e
  end.
Definition digits_N (t : str) : N := fold_left (fun a c => 10 * a + (c - 48))%N t 0%N.
Definition demo_float_of_text (t : str) : flt :=
  match split_once 46 t with
  | Some (a, b) => nearest_flt (digits_N (a ++ b)) (10 ^ N.of_nat (List.length b))
  | None => nearest_flt (digits_N t) 1
  end.

(** the fewest decimals (at most 18) that read back as the same float *)
Fixpoint shortest (fuel : nat) (p : N) (f : flt) : str :=
  let t := fmt_fixed p f in
  match fuel with
  | O => t
  | S k => if flt_eqb (demo_float_of_text t) f then t else shortest k (p + 1)%N f
  end.
Definition demo_float_repr (f : flt) : str :=
  match f with
  | FNan => $"nan"
  | FInf neg => if neg then $"-inf" else $"inf"
  | FFin neg m e => (if neg then $"-" else []) ++ shortest 17 1 (FFin false m e)
  end.

Definition demoRT : PyRT := {|
  uni_word := fun _ => false;
  uni_space := fun _ => false;
  uni_digit := fun _ => false;
  uni_upper := fun c => [c];
  float_repr := demo_float_repr;
  float_of_text := demo_float_of_text |}.
