(** Programs whose metrics queries, Timeseries, Formulas, scopes, delete queries and requests
    share parts: a heap of mutable objects. The lists of a SnQL Query are in History.v. *)
From Verif Require Import PyBase Objects Exprs Query Optimizer Metrics MetricsQuery Request.
From Verif Require History.

(** * Objects *)

(** the attributes of a Request that are no Flags, request.py:46-53 *)
Inductive rfield := RDataset | RApp | RQueryF | RParent | RTenants.
(** the attributes of a Timeseries, timeseries.py:77-82, and of a MetricsScope, timeseries.py:229-231 *)
Inductive tfield := TMetric | TAggregate | TParams | TFilters | TGroupby.
Inductive sfield := SOrgs | SProjects | SUseCase.

(** What an attribute or an item holds: an immutable value (or one that nobody else has a
    reference to), a SnQL Query (immutable), a reference to an object, or an object that
    serialize() made. Simplified: the program does not get a reference to such an object by
    reading the attribute and change the object. *)
Inductive slot := Imm (v : mval) | Snql (q : query) | Ref (a : nat) | Own (k : cell)
(** The objects. Timeseries (timeseries.py:69), MetricsScope (timeseries.py:217), MetricsQuery
    (metrics_query.py:18) and Request (request.py:46) are dataclasses that are not frozen;
    Formula (formula.py:39) and DeleteQuery (delete_query.py:11) are frozen, but their lists and
    dictionaries are not. Metric, Rollup and conditions are frozen and written as values; lists
    inside conditions are not represented. A Flags object is a part of its request. *)
with cell :=
| KList (l : list slot)
| KDict (ks : list str) (vs : list slot)
| KTimeseries (metric aggregate params filters groupby : slot)
| KFormula (name params aggp filters groupby : slot)
| KScope (orgs projects usecase : slot)
| KMetrics (f : mfield -> slot)
| KDelete (storage columns : slot)
| KRequest (r : rfield -> slot) (fl : rflags).
Definition heap := list cell.

Definition mfields : list mfield :=
  [FQuery; FStart; FEnd; FRollup; FScope; FLimit; FOffset; FExtrapolate; FIndexer].
Definition rfields : list rfield := [RDataset; RApp; RQueryF; RParent; RTenants].
Definition mfield_eqb (x y : mfield) : bool :=
  match x, y with
  | FQuery, FQuery | FStart, FStart | FEnd, FEnd | FRollup, FRollup | FScope, FScope | FLimit, FLimit
  | FOffset, FOffset | FExtrapolate, FExtrapolate | FIndexer, FIndexer => true
  | _, _ => false
  end.
Definition rfield_eqb (x y : rfield) : bool :=
  match x, y with
  | RDataset, RDataset | RApp, RApp | RQueryF, RQueryF | RParent, RParent | RTenants, RTenants => true
  | _, _ => false
  end.

(** * Calls *)

Inductive call :=
(* constructors *)
| NewList (l : list slot)
| NewDict (ks : list str) (vs : list slot)
| NewTimeseries (metric aggregate params filters groupby : slot)
| NewFormula (name params aggp filters groupby : slot)
| NewScope (orgs projects usecase : slot)
| NewMetrics (f : mfield -> slot)
| NewDelete (storage columns : slot)
| NewRequest (r : rfield -> slot) (fl : rflags)
(* setters: a.set_metric(v), a.set_filters(v), a.set_groupby(v), a.set_aggregate(v, p), ... *)
| SetMetric (a : nat) (v : slot)
| SetAggregate (a : nat) (v p : slot)
| SetFilters (a : nat) (v : slot)
| SetGroupby (a : nat) (v : slot)
| SetParameters (a : nat) (v : slot)
| SetUseCase (a : nat) (v : slot)
| SetField (a : nat) (f : mfield) (v : slot)
(* questions: a.validate(), a.serialize(), a.print(), str(a), a.to_dict() *)
| Ask (a : nat) (m : History.method)
(* changes made by the caller: a.append(v), a[k] = v, a.filters = v, ... *)
| Append (a : nat) (v : slot)
| PutItem (a : nat) (k : str) (v : slot)
| AssignTimeseries (a : nat) (x : tfield) (v : slot)
| AssignScope (a : nat) (x : sfield) (v : slot)
| AssignMetrics (a : nat) (f : mfield) (v : slot)
| AssignRequest (a : nat) (x : rfield) (v : slot)
| AssignFlags (a : nat) (fl : rflags).

(** What the caller gets. [ADict o d]: a new dictionary which is now equal to o and has the
    entries d. [ABad]: not a call a program can make, or one on an object with attributes of a
    type that this model does not represent, such as a Timeseries whose aggregate was assigned
    a number. *)
Inductive answer :=
| ANew (a : nat) | ARaise (e : exn) | ANone | AText (s : str) | AMql (p : str * obj)
| ADict (o : obj) (d : list (str * slot)) | ABad.

Section Sharing.
Context {RT : PyRT} {ST : PyStr}.
(** how deep objects can be nested before Python gives up; everything is stated for every depth *)
Variable N : nat.

(** * Reading *)

Definition cell_of (h : heap) (s : slot) : option cell :=
  match s with Ref a => nth_error h a | Own k => Some k | Imm _ | Snql _ => None end.
Fixpoint collect {A} (l : list (option A)) : option (list A) :=
  match l with
  | [] => Some []
  | Some x :: l' => match collect l' with Some r => Some (x :: r) | None => None end
  | None :: _ => None
  end.
Definition as_o (x : option mval) : option obj := match x with Some (VObj o) => Some o | _ => None end.
Definition as_opt_l (x : option mval) : option (option (list obj)) :=
  match x with Some (VObj ONone) => Some None | Some (VObj (OList l)) => Some (Some l) | _ => None end.
Definition as_il (x : option mval) : option (list pyint) :=
  match x with Some (VObj (OList l)) => all_ints l | _ => None end.
Definition as_os (x : option mval) : option (option str) :=
  match x with Some (VObj ONone) => Some None | Some (VObj (OStr s)) => Some (Some s) | _ => None end.
(** the parameters of a Formula: None, or a list with its items; [r] reads an item *)
Definition params_of (r : slot -> option mval) (h : heap) (p : slot) : option (seqk * list mval) :=
  match p with
  | Imm (VObj ONone) => Some (Objects.KNone, [])
  | _ => match cell_of h p with
         | Some (KList l) => match collect (map r l) with Some vs => Some (Objects.KList, vs) | None => None end
         | _ => None
         end
  end.
(** the value that a slot has now, None if it is not represented *)
Fixpoint read (n : nat) (h : heap) (s : slot) : option mval :=
  match s with
  | Imm v => Some v
  | _ =>
      match n with
      | O => None
      | S n' =>
          let r := read n' h in
          match cell_of h s with
          | Some (KList l) =>
              match collect (map (fun x => as_o (r x)) l) with Some os => Some (VObj (OList os)) | None => None end
          | Some (KDict ks vs) =>
              match collect (map (fun x => as_o (r x)) vs) with Some os => Some (VObj (ODict ks os)) | None => None end
          | Some (KTimeseries m a p f g) =>
              match r m, r a, as_opt_l (r p), as_opt_l (r f), as_opt_l (r g) with
              | Some (VMetric m), Some (VObj (OStr a)), Some p, Some f, Some g => Some (VTS (mkTS m a p f g))
              | _, _, _, _, _ => None
              end
          | Some (KFormula x p a f g) =>
              match as_o (r x), params_of r h p, as_o (r a), as_o (r f), as_o (r g) with
              | Some x, Some (k, ps), Some a, Some f, Some g => Some (VFormula x (Some k) ps a f g)
              | _, _, _, _, _ => None
              end
          | Some (KScope o p u) =>
              match as_il (r o), as_il (r p), as_os (r u) with
              | Some o, Some p, Some u => Some (VScope (mkScope o p u))
              | _, _, _ => None
              end
          | _ => None
          end
      end
  end.
Definition get (h : heap) (s : slot) : option mval := read N h s.
Definition get_o (h : heap) (s : slot) : option obj := as_o (get h s).
Definition get_query (h : heap) (f : mfield -> slot) : option mquery :=
  match get h (f FQuery), get h (f FStart), get h (f FEnd), get h (f FRollup), get h (f FScope),
        get h (f FLimit), get h (f FOffset), get h (f FExtrapolate), get h (f FIndexer) with
  | Some a, Some b, Some c, Some d, Some e, Some g, Some i, Some j, Some k => Some (mkMQ a b c d e g i j k)
  | _, _, _, _, _, _, _, _, _ => None
  end.
Definition get_rquery (h : heap) (s : slot) : option rquery :=
  match s with
  | Snql q => Some (RQuery q)
  | Imm (VObj o) => Some (ROther o)
  | _ => match cell_of h s with
         | Some (KMetrics f) => match get_query h f with Some q => Some (RMetrics q) | None => None end
         | Some (KDelete st c) => match get_o h st, get_o h c with
                                  | Some x, Some y => Some (RDelete (mkDelete x y))
                                  | _, _ => None
                                  end
         | _ => None
         end
  end.
Definition get_request (h : heap) (r : rfield -> slot) (fl : rflags) : option request :=
  match get_o h (r RDataset), get_o h (r RApp), get_rquery h (r RQueryF), get_o h (r RParent), get_o h (r RTenants) with
  | Some d, Some a, Some q, Some p, Some t => Some (mkRequest d a q fl p t)
  | _, _, _, _, _ => None
  end.

(** * serialize() *)

(** MetricsQuery._optimize, metrics_query.py:104-111: replace() makes a new Timeseries or Formula
    with the new filters; it has the other lists of the old one *)
Definition new_filters (h : heap) (f : slot) : option (list obj) :=
  match as_o (read (pred N) h f) with
  | Some o => match iter o with
              | Ok fs => match optimize fs with Ok r => r | Raise _ => None end
              | Raise _ => None
              end
  | None => None
  end.
Definition optimized (h : heap) (s : slot) : slot :=
  match s with
  | Imm v => match optimize_mval v with Ok v' => Imm v' | Raise _ => s end
  | _ => match cell_of h s with
         | Some (KTimeseries m a p f g) =>
             match new_filters h f with Some fs => Own (KTimeseries m a p (Imm (VObj (OList fs))) g) | None => s end
         | Some (KFormula x p a f g) =>
             match new_filters h f with Some fs => Own (KFormula x p a (Imm (VObj (OList fs))) g) | None => s end
         | _ => s
         end
  end.
Definition mupd (f : mfield -> slot) (x : mfield) (s : slot) : mfield -> slot :=
  fun y => if mfield_eqb x y then s else f y.
Definition rupd (f : rfield -> slot) (x : rfield) (s : slot) : rfield -> slot :=
  fun y => if rfield_eqb x y then s else f y.
(** the heap after a.serialize() of a MetricsQuery, metrics_query.py:98-102 *)
Definition after_serialize (h : heap) (a : nat) : heap :=
  match nth_error h a with
  | Some (KMetrics f) =>
      match get_query h f with
      | Some q =>
          match mq_validate q, optimize_mval (mq_query q) with
          | Ok _, Ok _ => History.put h a (KMetrics (mupd f FQuery (optimized h (f FQuery))))
          | _, _ => h
          end
      | None => h
      end
  | _ => h
  end.
(** the heap after to_dict() of a Request, request.py:76-111, which only serializes a query after
    the checks *)
Definition after_to_dict (h : heap) (r : rfield -> slot) (x : request) : heap :=
  match request_validate x, rflags_to_dict (rq_flags x), r RQueryF with
  | Ok _, Ok _, Ref b => after_serialize h b
  | _, _, _ => h
  end.
(** the entries of the dictionary that to_dict() returns: tenant_ids is the dictionary of the
    request itself (request.py:95, 106); the column conditions of a DeleteQuery are those of the
    query (delete_query.py:47); all others are new (mql_context is a deep copy, mql_visitor.py:105) *)
Definition entries (h : heap) (r : rfield -> slot) (o : obj) : list (str * slot) :=
  match o with
  | ODict ks vs =>
      map (fun kv =>
        (fst kv, if str_eqb (fst kv) ($"tenant_ids") then r RTenants
                 else if str_eqb (fst kv) ($"query") then
                   match cell_of h (r RQueryF) with
                   | Some (KDelete _ c) => Own (KDict [$"columns"] [c])
                   | _ => Imm (VObj (snd kv))
                   end
                 else Imm (VObj (snd kv)))) (combine ks vs)
  | _ => []
  end.

(** * Questions *)

Definition of_unit (r : result unit) : answer := match r with Ok _ => ANone | Raise e => ARaise e end.
Definition of_text (r : result str) : answer := match r with Ok s => AText s | Raise e => ARaise e end.
Definition of_mql (r : result (str * obj)) : answer := match r with Ok p => AMql p | Raise e => ARaise e end.
Definition of_dict (r : result obj) (d : obj -> list (str * slot)) : answer :=
  match r with Ok o => ADict o (d o) | Raise e => ARaise e end.

Definition ask (h : heap) (a : nat) (m : History.method) : heap * answer :=
  match nth_error h a with
  | Some (KTimeseries _ _ _ _ _) | Some (KFormula _ _ _ _ _) =>
      match get h (Ref a), m with
      | Some v, History.Validate => (h, of_unit (mval_validate v))
      | _, _ => (h, ABad)
      end
  | Some (KScope _ _ _) =>
      match get h (Ref a), m with
      | Some (VScope s), History.Validate => (h, of_unit (scope_validate s))
      | _, _ => (h, ABad)
      end
  | Some (KMetrics f) =>
      match get_query h f with
      | None => (h, ABad)
      | Some q =>
          match m with
          | History.Validate => (h, of_unit (mq_validate q))
          | History.Serialize => (after_serialize h a, of_mql (snd (mq_serialize q)))
          | History.Print => (h, of_text (mq_print_text q))
          | History.Str => (h, of_text (mq_str_text q))
          | History.ToDict => (h, ABad)
          end
      end
  | Some (KDelete st c) =>
      match get_o h st, get_o h c, m with
      | Some x, Some y, History.Validate => (h, of_unit (delete_validate (mkDelete x y)))
      | Some x, Some y, History.Serialize =>
          (h, of_dict (delete_serialize (mkDelete x y)) (fun _ => [($"columns", c)]))
      | _, _, _ => (h, ABad)
      end
  | Some (KRequest r fl) =>
      match get_request h r fl with
      | None => (h, ABad)
      | Some x =>
          match m with
          | History.Validate => (h, of_unit (request_validate x))
          | History.Serialize | History.Str => (after_to_dict h r x, of_text (snd (request_serialize x)))
          | History.Print => (after_to_dict h r x, of_text (snd (request_print x)))
          | History.ToDict => (after_to_dict h r x, of_dict (snd (request_to_dict x)) (entries h r))
          end
      end
  | _ => (h, ABad)
  end.

(** * All calls *)

(** an argument of a call: a value or a reference to an object that exists *)
Definition arg (h : heap) (s : slot) : bool :=
  match s with Imm _ | Snql _ => true | Ref a => Nat.ltb a (List.length h) | Own _ => false end.
Definition new (h : heap) (k : cell) : heap * answer := (h ++ [k], ANew (List.length h)).
(** a new object if the check of its constructor or setter succeeds *)
Definition checked {A} (h : heap) (r : result A) (k : cell) : heap * answer :=
  match r with Ok _ => new h k | Raise e => (h, ARaise e) end.
Definition changed (h : heap) (a : nat) (k : cell) : heap * answer := (History.put h a k, ANone).
(** the slot that a setter of MetricsQuery stores, metrics_query.py:45-84: the argument itself, or
    a new Limit, Offset or Extrapolate *)
Definition field_slot (f : mfield) (v : slot) (x : mval) : slot :=
  match f with FLimit | FOffset | FExtrapolate => Imm x | _ => v end.
(** d[k] = v: the value of a key, or a new key at the end *)
Fixpoint put_key (k : str) (v : slot) (ks : list str) (vs : list slot) : list str * list slot :=
  match ks, vs with
  | k' :: ks', x :: vs' => if str_eqb k' k then (ks, v :: vs')
                           else let '(ks1, vs1) := put_key k v ks' vs' in (k' :: ks1, x :: vs1)
  | _, _ => ([k], [v])
  end.

Definition step (h : heap) (c : call) : heap * answer :=
  let bad := (h, ABad) in
  match c with
  | NewList l => if forallb (arg h) l then new h (KList l) else bad
  | NewDict ks vs =>
      if forallb (arg h) vs && Nat.eqb (List.length ks) (List.length vs) then new h (KDict ks vs) else bad
  | NewTimeseries m a p f g =>
      if forallb (arg h) [m; a; p; f; g] then
        match get h m, get_o h a, get_o h p, get_o h f, get_o h g with
        | Some m', Some a', Some p', Some f', Some g' => checked h (mk_timeseries m' a' p' f' g') (KTimeseries m a p f g)
        | _, _, _, _, _ => bad
        end
      else bad
  | NewFormula x p a f g => if forallb (arg h) [x; p; a; f; g] then new h (KFormula x p a f g) else bad
  | NewScope o p u =>
      if forallb (arg h) [o; p; u] then
        match get_o h o, get_o h p, get_o h u with
        | Some o', Some p', Some u' => checked h (mk_scope o' p' u') (KScope o p u)
        | _, _, _ => bad
        end
      else bad
  | NewMetrics f => if forallb (fun x => arg h (f x)) mfields then new h (KMetrics f) else bad
  | NewDelete st cs => if arg h st && arg h cs then new h (KDelete st cs) else bad
  | NewRequest r fl => if forallb (fun x => arg h (r x)) rfields then new h (KRequest r fl) else bad
  | SetMetric a v =>
      match nth_error h a, get h (Ref a), get h v with
      | Some (KTimeseries m x p f g), Some (VTS t), Some w =>
          if arg h v then checked h (set_metric t w) (KTimeseries v x p f g) else bad
      | _, _, _ => bad
      end
  | SetAggregate a v w =>
      match nth_error h a, get h (Ref a), get_o h v, get_o h w with
      | Some (KTimeseries m x p f g), Some (VTS t), Some v', Some w' =>
          if arg h v && arg h w then checked h (set_aggregate t v' w') (KTimeseries m v w f g) else bad
      | _, _, _, _ => bad
      end
  | SetFilters a v =>
      match nth_error h a, get h (Ref a), get_o h v with
      | Some (KTimeseries m x p f g), Some (VTS t), Some w =>
          if arg h v then checked h (set_filters t w) (KTimeseries m x p v g) else bad
      | Some (KFormula x p y f g), Some t, Some w =>
          if arg h v then checked h (formula_set_filters t w) (KFormula x p y v g) else bad
      | _, _, _ => bad
      end
  | SetGroupby a v =>
      match nth_error h a, get h (Ref a), get_o h v with
      | Some (KTimeseries m x p f g), Some (VTS t), Some w =>
          if arg h v then checked h (set_groupby t w) (KTimeseries m x p f v) else bad
      | Some (KFormula x p y f g), Some t, Some w =>
          if arg h v then checked h (formula_set_groupby t w) (KFormula x p y f v) else bad
      | _, _, _ => bad
      end
  | SetParameters a v =>
      match nth_error h a, get h (Ref a), params_of (get h) h v with
      | Some (KFormula x p y f g), Some t, Some (k, ps) =>
          if arg h v then checked h (formula_set_parameters t (Some k) ps) (KFormula x v y f g) else bad
      | _, _, _ => bad
      end
  | SetUseCase a v =>
      match nth_error h a, get h (Ref a), get_o h v with
      | Some (KScope o p u), Some (VScope s), Some w =>
          if arg h v then checked h (set_use_case_id s w) (KScope o p v) else bad
      | _, _, _ => bad
      end
  | SetField a f v =>
      match nth_error h a, get h v with
      | Some (KMetrics g), Some w =>
          if arg h v then
            match mq_setter_value f w with
            | Ok x => new h (KMetrics (mupd g f (field_slot f v x)))
            | Raise e => (h, ARaise e)
            end
          else bad
      | _, _ => bad
      end
  | Ask a m => ask h a m
  | Append a v =>
      match nth_error h a with
      | Some (KList l) => if arg h v then changed h a (KList (l ++ [v])) else bad
      | _ => bad
      end
  | PutItem a k v =>
      match nth_error h a with
      | Some (KDict ks vs) => if arg h v then let '(ks', vs') := put_key k v ks vs in changed h a (KDict ks' vs') else bad
      | _ => bad
      end
  | AssignTimeseries a x v =>
      match nth_error h a with
      | Some (KTimeseries m y p f g) =>
          if arg h v then
            changed h a (match x with
                         | TMetric => KTimeseries v y p f g | TAggregate => KTimeseries m v p f g
                         | TParams => KTimeseries m y v f g | TFilters => KTimeseries m y p v g
                         | TGroupby => KTimeseries m y p f v
                         end)
          else bad
      | _ => bad
      end
  | AssignScope a x v =>
      match nth_error h a with
      | Some (KScope o p u) =>
          if arg h v then
            changed h a (match x with SOrgs => KScope v p u | SProjects => KScope o v u | SUseCase => KScope o p v end)
          else bad
      | _ => bad
      end
  | AssignMetrics a f v =>
      match nth_error h a with
      | Some (KMetrics g) => if arg h v then changed h a (KMetrics (mupd g f v)) else bad
      | _ => bad
      end
  | AssignRequest a x v =>
      match nth_error h a with
      | Some (KRequest r fl) => if arg h v then changed h a (KRequest (rupd r x v) fl) else bad
      | _ => bad
      end
  | AssignFlags a fl =>
      match nth_error h a with
      | Some (KRequest r _) => changed h a (KRequest r fl)
      | _ => bad
      end
  end.

(** a whole program, from a heap *)
Fixpoint run (h : heap) (cs : list call) : heap :=
  match cs with [] => h | c :: cs' => run (fst (step h c)) cs' end.
End Sharing.
