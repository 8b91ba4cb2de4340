(** json.dumps as request.py:113-127 and metrics_query.py:89-96 use it (CPython's
    json.encoder with the default settings: ensure_ascii, allow_nan). *)
From Verif Require Import PyBase DateTime Objects.

(** four lower-case hexadecimal digits: '\\u{0:04x}'.format(n) *)
Definition hex_digit (n : N) : N := if (n <? 10)%N then (48 + n)%N else (87 + n)%N.
Definition hex4 (n : N) : str :=
  [hex_digit (n / 4096 mod 16); hex_digit (n / 256 mod 16); hex_digit (n / 16 mod 16); hex_digit (n mod 16)]%N.
Definition u_escape (n : N) : str := BSL :: 117%N :: hex4 n.
(** py_encode_basestring_ascii, json/encoder.py: the backslash, the double quote and
    everything outside the range from space to tilde are escaped *)
Definition json_char (c : N) : str :=
  if N.eqb c DQ then [BSL; DQ]
  else if N.eqb c BSL then [BSL; BSL]
  else if N.eqb c 10 then [BSL; 110]%N
  else if N.eqb c 13 then [BSL; 114]%N
  else if N.eqb c 9 then [BSL; 116]%N
  else if N.eqb c 12 then [BSL; 102]%N
  else if N.eqb c 8 then [BSL; 98]%N
  else if in_range 32 126 c then [c]
  else if (c <? 65536)%N then u_escape c
  else let n := (c - 65536)%N in u_escape (55296 + n / 1024) ++ u_escape (56320 + n mod 1024).
Definition json_str (s : str) : str := DQ :: flat_map json_char s ++ [DQ].

Section Json.
Context {RT : PyRT}.

(** floatstr, json/encoder.py: NaN, Infinity, -Infinity or float.__repr__ *)
Definition json_float (f : flt) : str :=
  match f with
  | FNan => $"NaN"
  | FInf neg => if neg then $"-Infinity" else $"Infinity"
  | FFin _ _ _ => float_repr f
  end.

(** json.dumps(o), with a space after comma and colon. Keys are strings. Values of
    other types make the default() method raise TypeError. Simplification: circular
    structures do not exist in the model; sub-classes of str, int, list... (Enum members
    that are also strings) are not represented. *)
Fixpoint json_dumps (o : obj) : result str :=
  let all := fix all (l : list obj) : result (list str) :=
    match l with
    | [] => Ok []
    | x :: l' => let! s := json_dumps x in let! r := all l' in Ok (s :: r)
    end in
  match o with
  | ONone => Ok ($"null")
  | OBool b => Ok (if b then $"true" else $"false")
  | OInt z => Ok (dec_of_Z z)
  | OFloat f => Ok (json_float f)
  | OStr s => Ok (json_str s)
  | OList l | OTuple l => let! ss := all l in Ok ($"[" ++ join ($", ") ss ++ $"]")
  | ODict ks vs =>
      let! ss := all vs in
      Ok ($"{" ++ join ($", ") (map (fun kv => json_str (fst kv) ++ $": " ++ snd kv) (combine ks ss)) ++ $"}")
  | _ => Raise TypeError
  end.
(** json.dumps(o, sort_keys=sort, indent=4), json/encoder.py _make_iterencode: a line per
    item, indented by four spaces per level; no space after the comma; empty containers on
    one line. sorted(dct.items()) compares the keys, which are distinct strings. *)
Definition new_line (level : nat) : str := 10%N :: repeat 32%N (4 * level).
Fixpoint str_leb (a b : str) : bool :=
  match a, b with
  | [], _ => true
  | _ :: _, [] => false
  | x :: a', y :: b' => (x <? y)%N || ((x =? y)%N && str_leb a' b')
  end.
Fixpoint insert_key (p : str * str) (l : list (str * str)) : list (str * str) :=
  match l with
  | [] => [p]
  | q :: l' => if str_leb (fst p) (fst q) then p :: l else q :: insert_key p l'
  end.
Definition sort_keys (l : list (str * str)) : list (str * str) := fold_right insert_key [] l.
Definition indented (open close : str) (level : nat) (items : list str) : str :=
  match items with
  | [] => open ++ close
  | _ => open ++ new_line (S level) ++ join (44%N :: new_line (S level)) items ++ new_line level ++ close
  end.
Fixpoint json_pretty (sort : bool) (level : nat) (o : obj) : result str :=
  let all := fix all (l : list obj) : result (list str) :=
    match l with
    | [] => Ok []
    | x :: l' => let! s := json_pretty sort (S level) x in let! r := all l' in Ok (s :: r)
    end in
  match o with
  | ONone => Ok ($"null")
  | OBool b => Ok (if b then $"true" else $"false")
  | OInt z => Ok (dec_of_Z z)
  | OFloat f => Ok (json_float f)
  | OStr s => Ok (json_str s)
  | OList l | OTuple l => let! ss := all l in Ok (indented ($"[") ($"]") level ss)
  | ODict ks vs =>
      let! ss := all vs in
      Ok (indented ($"{") ($"}") level
           (map (fun kv => json_str (fst kv) ++ $": " ++ snd kv)
                ((if sort then sort_keys else id) (combine ks ss))))
  | _ => Raise TypeError
  end.
End Json.

Example json_str_ex : json_str ($"a""b\c" ++ [10; 233; 128512]%N)
  = $"""a\""b\\c\n\u00e9\ud83d\ude00""".
Proof. vm_compute. reflexivity. Qed.
