(** Python base layer: strings, exceptions, the few [str] methods the SDK calls.

    Everything here models Python built-ins (not files of /repo); the call sites are
    cited at the definitions of the other files that use them. *)
From Coq Require Export List Bool NArith ZArith Lia String Ascii.
From Coq Require DecimalString DecimalN DecimalFacts DecimalPos Decimal.
Export ListNotations.
Open Scope list_scope.

(** A Python [str] is a sequence of code points. *)
Definition str := list N.

(** Source literals: [$"abc"] is the list of code points of the ASCII text abc. *)
Definition lit (s : string) : str := map N_of_ascii (list_ascii_of_string s).
Notation "'$' s" := (lit s%string) (at level 0, s at level 0, only parsing).

Definition NL : N := 10%N.        (* "\n" *)
Definition BSL : N := 92%N.       (* backslash *)
Definition SQ : N := 39%N.        (* single quote *)
Definition DQ : N := 34%N.        (* double quote *)
Definition BQ : N := 96%N.        (* back quote *)
Definition LBR : N := 91%N.       (* [ *)
Definition RBR : N := 93%N.       (* ] *)

Fixpoint str_eqb (a b : str) : bool :=
  match a, b with
  | [], [] => true
  | x :: a', y :: b' => N.eqb x y && str_eqb a' b'
  | _, _ => false
  end.

Fixpoint prefixb (p s : str) : bool :=
  match p, s with
  | [], _ => true
  | x :: p', y :: s' => N.eqb x y && prefixb p' s'
  | _, _ => false
  end.

(** s.startswith(p), s.endswith(p) *)
Definition startswith (p s : str) : bool := prefixb p s.
Definition endswith (p s : str) : bool := prefixb (rev p) (rev s).

(** [p in s] for strings *)
Fixpoint containsb (p s : str) : bool :=
  prefixb p s || match s with [] => false | _ :: s' => containsb p s' end.

Definition mem_char (c : N) (s : str) : bool := existsb (N.eqb c) s.
Definition mem_str (x : str) (l : list str) : bool := existsb (str_eqb x) l.

(** sep.join(parts) *)
Fixpoint join (sep : str) (parts : list str) : str :=
  match parts with
  | [] => []
  | [x] => x
  | x :: rest => x ++ sep ++ join sep rest
  end.

(** s.replace(pat, rep), pat non-empty: leftmost, non-overlapping. [skip] counts the
    remaining characters of an occurrence already replaced. *)
Fixpoint repl (pat rep : str) (skip : nat) (s : str) : str :=
  match s with
  | [] => []
  | c :: s' =>
      match skip with
      | S k => repl pat rep k s'
      | O => if prefixb pat s then rep ++ repl pat rep (List.length pat - 1) s'
             else c :: repl pat rep O s'
      end
  end.
Definition replace (pat rep s : str) : str := repl pat rep O s.

(** s.split(c, 1) when c occurs: text before and after the first occurrence. *)
Fixpoint split_once (c : N) (s : str) : option (str * str) :=
  match s with
  | [] => None
  | x :: s' => if N.eqb x c then Some ([], s')
               else match split_once c s' with
                    | Some (a, b) => Some (x :: a, b)
                    | None => None
                    end
  end.

(** s.lstrip / s.rstrip / s.strip of characters satisfying f *)
Fixpoint lstrip (f : N -> bool) (s : str) : str :=
  match s with
  | [] => []
  | c :: s' => if f c then lstrip f s' else s
  end.
Definition rstrip (f : N -> bool) (s : str) : str := rev (lstrip f (rev s)).
Definition strip (f : N -> bool) (s : str) : str := lstrip f (rstrip f s).

(** s[1:-1] *)
Definition slice_1_m1 (s : str) : str := removelast (tl s).

(** Decimal numerals: str(n) and f"{n:d}" for Python integers. *)
Definition dec_of_N (n : N) : str := lit (DecimalString.NilEmpty.string_of_uint (N.to_uint n)).
Definition dec_of_Z (z : Z) : str :=
  match z with
  | Z0 => $"0"
  | Zpos p => dec_of_N (Npos p)
  | Zneg p => $"-" ++ dec_of_N (Npos p)
  end.

(** Zero padding to a width, as in isoformat() and {:02d}. *)
Definition pad_left (w : nat) (s : str) : str :=
  repeat 48%N (w - List.length s) ++ s.

(** * Exceptions *)

Inductive exn :=
| InvalidExpressionError | InvalidColumnError | InvalidFunctionError | InvalidLambdaError
| InvalidConditionError | InvalidEntityError | InvalidStorageError | InvalidQueryError
| InvalidMatchError | RequiredColumnError | InvalidTimeseriesError | InvalidFormulaError
| InvalidMetricsQueryError | InvalidMQLQueryError | InvalidMQLContextError
| InvalidRequestError | InvalidFlagError | InvalidDeleteQueryError
| AssertionError | AttributeError | TypeError | ValueError | KeyError | IndexError
| UnicodeDecodeError | OverflowError | UnboundLocalError.

(** Subclasses of InvalidExpressionError: expressions.py:10, column.py:10, function.py:19,121,
    conditions.py:17, formula.py:14-19. *)
Definition is_invalid_expression (e : exn) : bool :=
  match e with
  | InvalidExpressionError | InvalidColumnError | InvalidFunctionError | InvalidLambdaError
  | InvalidConditionError | InvalidFormulaError => true
  | _ => false
  end.

Inductive result (A : Type) := Ok (a : A) | Raise (e : exn).
Arguments Ok {A} _. Arguments Raise {A} _.

Definition bind {A B} (r : result A) (f : A -> result B) : result B :=
  match r with Ok a => f a | Raise e => Raise e end.
Notation "'let!' x := r 'in' k" := (bind r (fun x => k))
  (at level 200, x pattern, right associativity, only parsing).
Notation "r ;! k" := (bind r (fun _ => k)) (at level 61, right associativity, only parsing).

Definition assert_ (b : bool) (e : exn) : result unit := if b then Ok tt else Raise e.

Fixpoint mapM {A B} (f : A -> result B) (l : list A) : result (list B) :=
  match l with
  | [] => Ok []
  | x :: l' => let! y := f x in let! ys := mapM f l' in Ok (y :: ys)
  end.

Definition is_ok {A} (r : result A) : bool := match r with Ok _ => true | Raise _ => false end.

Definition option_eqb {A} (f : A -> A -> bool) (x y : option A) : bool :=
  match x, y with
  | None, None => true
  | Some a, Some b => f a b
  | _, _ => false
  end.

(** * Character classes (ASCII part) *)
Definition in_range (lo hi c : N) : bool := (lo <=? c)%N && (c <=? hi)%N.
Definition is_lower (c : N) : bool := in_range 97 122 c.
Definition is_upper (c : N) : bool := in_range 65 90 c.
Definition is_alpha (c : N) : bool := is_lower c || is_upper c.
Definition is_digit (c : N) : bool := in_range 48 57 c.
Definition is_alnum_ (c : N) : bool := is_alpha c || is_digit c || N.eqb c 95.
(** [c] is one of the characters of the given source literal. *)
Definition one_of (chars : string) (c : N) : bool := mem_char c (lit chars).
