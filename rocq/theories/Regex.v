(** Regular expressions as data and a backtracking matcher with the priorities of
    Python's [re] (leftmost alternative first, greedy repetition).
    Models [re.compile(p).match(s)] for the patterns used in /repo/snuba_sdk
    (character classes, sequence, alternation, greedy repetition, and the anchor [$],
    which in Python also matches just before a final newline). [^] at the start of the
    patterns is implied by [re.match]. *)
From Verif Require Import PyBase.

Inductive re :=
| RClass (f : N -> bool)
| REps
| RSeq (a b : re)
| RAlt (a b : re)
| RStar (a : re)
| REnd.

Definition RChar (c : N) : re := RClass (N.eqb c).
Definition RPlus (a : re) : re := RSeq a (RStar a).
Definition ROpt (a : re) : re := RAlt a REps.

(** [mtch r s k]: try to match [r] at the start of [s]; [k] is called with the rest of
    the text and may refuse, which makes the matcher backtrack. The result is the text
    remaining after a successful match. An iteration of a repetition must consume
    something, so [length s] bounds the number of iterations. *)
Fixpoint mtch (r : re) (s : str) (k : str -> option str) {struct r} : option str :=
  match r with
  | RClass f => match s with c :: s' => if f c then k s' else None | [] => None end
  | REps => k s
  | RSeq a b => mtch a s (fun s' => mtch b s' k)
  | RAlt a b => match mtch a s k with Some x => Some x | None => mtch b s k end
  | RStar a =>
      (fix loop (n : nat) (s : str) {struct n} : option str :=
         match n with
         | O => k s
         | S n' =>
             match mtch a s (fun s' => if Nat.ltb (List.length s') (List.length s)
                                       then loop n' s' else None) with
             | Some x => Some x
             | None => k s
             end
         end) (List.length s) s
  | REnd => match s with
            | [] => k s
            | [c] => if N.eqb c NL then k s else None
            | _ => None
            end
  end.

(** pattern.match(s): the text left over after the match, if there is one. *)
Definition re_match (r : re) (s : str) : option str := mtch r s Some.
Definition re_matches (r : re) (s : str) : bool :=
  match re_match r s with Some _ => true | None => false end.
