(** The metrics API with values instead of objects: every constructor and setter copies its
    arguments, so nothing is shared and nothing ever changes *)
From Verif Require Import PyBase Objects Query Metrics MetricsQuery Request Sharing.
From Verif Require History.

(** what a program has made: a list with its items; a dictionary, Timeseries, Formula or
    MetricsScope; a MetricsQuery; a DeleteQuery; a Request. None: has a part that the model of
    the SDK does not represent *)
Inductive thing :=
| XList (items : option (list mval))
| XVal (v : option mval)
| XMetrics (q : mfield -> option mval)
| XDelete (storage columns : option obj)
| XRequest (r : option request).
Definition world := list thing.

Definition as_obj (v : mval) : option obj := match v with VObj o => Some o | _ => None end.
Definition opt_bind {A B} (x : option A) (f : A -> option B) : option B := match x with Some a => f a | None => None end.
(** a list as a SnQL value *)
Definition list_value (items : option (list mval)) : option mval :=
  opt_bind items (fun vs => opt_bind (collect (map as_obj vs)) (fun os => Some (VObj (OList os)))).
(** the value of an argument *)
Definition val (w : world) (s : slot) : option mval :=
  match s with
  | Imm v => Some v
  | Ref a => match nth_error w a with
             | Some (XVal v) => v
             | Some (XList l) => list_value l
             | _ => None
             end
  | Snql _ | Own _ => None
  end.
Definition obj_val (w : world) (s : slot) : option obj := opt_bind (val w s) as_obj.
(** the value of an argument that is the list of parameters of a formula *)
Definition params_val (w : world) (s : slot) : option (seqk * list mval) :=
  match s with
  | Imm (VObj ONone) => Some (Objects.KNone, [])
  | Ref a => match nth_error w a with Some (XList (Some vs)) => Some (Objects.KList, vs) | _ => None end
  | _ => None
  end.
Definition known (w : world) (s : slot) : bool :=
  match s with Imm _ | Snql _ => true | Ref a => Nat.ltb a (List.length w) | Own _ => false end.
Definition whole_query (f : mfield -> option mval) : option mquery :=
  match f FQuery, f FStart, f FEnd, f FRollup, f FScope, f FLimit, f FOffset, f FExtrapolate, f FIndexer with
  | Some a, Some b, Some c, Some d, Some e, Some g, Some i, Some j, Some k => Some (mkMQ a b c d e g i j k)
  | _, _, _, _, _, _, _, _, _ => None
  end.
Definition query_val (w : world) (s : slot) : option rquery :=
  match s with
  | Snql q => Some (RQuery q)
  | Imm (VObj o) => Some (ROther o)
  | Ref a => match nth_error w a with
             | Some (XMetrics f) => opt_bind (whole_query f) (fun q => Some (RMetrics q))
             | Some (XDelete (Some x) (Some y)) => Some (RDelete (mkDelete x y))
             | _ => None
             end
  | _ => None
  end.

Section V.
Context {RT : PyRT} {ST : PyStr}.
Definition make (w : world) (x : thing) : world * answer := (w ++ [x], ANew (List.length w)).
Definition make_if {A} (w : world) (r : result A) (x : A -> thing) : world * answer :=
  match r with Ok v => make w (x v) | Raise e => (w, ARaise e) end.

(** questions; they change nothing *)
Definition reply (w : world) (a : nat) (m : History.method) : answer :=
  match nth_error w a, m with
  | Some (XVal (Some (VTS t))), History.Validate => of_unit (mval_validate (VTS t))
  | Some (XVal (Some (VFormula n k ps ag fs g))), History.Validate => of_unit (mval_validate (VFormula n k ps ag fs g))
  | Some (XVal (Some (VScope s))), History.Validate => of_unit (scope_validate s)
  | Some (XMetrics f), _ =>
      match whole_query f, m with
      | Some q, History.Validate => of_unit (mq_validate q)
      | Some q, History.Serialize => of_mql (snd (mq_serialize q))
      | Some q, History.Print => of_text (mq_print_text q)
      | Some q, History.Str => of_text (mq_str_text q)
      | _, _ => ABad
      end
  | Some (XDelete (Some x) (Some y)), History.Validate => of_unit (delete_validate (mkDelete x y))
  | Some (XDelete (Some x) (Some y)), History.Serialize => of_dict (delete_serialize (mkDelete x y)) (fun _ => [])
  | Some (XRequest (Some r)), History.Validate => of_unit (request_validate r)
  | Some (XRequest (Some r)), (History.Serialize | History.Str) => of_text (snd (request_serialize r))
  | Some (XRequest (Some r)), History.Print => of_text (snd (request_print r))
  | Some (XRequest (Some r)), History.ToDict => of_dict (snd (request_to_dict r)) (fun _ => [])
  | _, _ => ABad
  end.

(** calls; assignments and changes of lists and dictionaries have no meaning here *)
Definition value_step (w : world) (c : call) : world * answer :=
  let bad := (w, ABad) in
  let thing_at a := match nth_error w a with Some (XVal v) => v | _ => None end in
  match c with
  | NewList l => if forallb (known w) l then make w (XList (collect (map (val w) l))) else bad
  | NewDict ks vs =>
      if forallb (known w) vs && Nat.eqb (List.length ks) (List.length vs)
      then make w (XVal (opt_bind (collect (map (obj_val w) vs)) (fun os => Some (VObj (ODict ks os))))) else bad
  | NewTimeseries m a p f g =>
      match forallb (known w) [m; a; p; f; g], val w m, obj_val w a, obj_val w p, obj_val w f, obj_val w g with
      | true, Some m, Some a, Some p, Some f, Some g => make_if w (mk_timeseries m a p f g) (fun t => XVal (Some (VTS t)))
      | _, _, _, _, _, _ => bad
      end
  | NewFormula x p a f g =>
      if forallb (known w) [x; p; a; f; g]
      then make w (XVal (match obj_val w x, params_val w p, obj_val w a, obj_val w f, obj_val w g with
                         | Some x, Some (k, ps), Some a, Some f, Some g => Some (VFormula x (Some k) ps a f g)
                         | _, _, _, _, _ => None
                         end))
      else bad
  | NewScope o p u =>
      match forallb (known w) [o; p; u], obj_val w o, obj_val w p, obj_val w u with
      | true, Some o, Some p, Some u => make_if w (mk_scope o p u) (fun s => XVal (Some (VScope s)))
      | _, _, _, _ => bad
      end
  | NewMetrics f => if forallb (fun x => known w (f x)) mfields then make w (XMetrics (fun x => val w (f x))) else bad
  | NewDelete st cs => if known w st && known w cs then make w (XDelete (obj_val w st) (obj_val w cs)) else bad
  | NewRequest r fl =>
      if forallb (fun x => known w (r x)) rfields
      then make w (XRequest (match obj_val w (r RDataset), obj_val w (r RApp), query_val w (r RQueryF), obj_val w (r RParent), obj_val w (r RTenants) with
                             | Some d, Some a, Some q, Some p, Some t => Some (mkRequest d a q fl p t)
                             | _, _, _, _, _ => None
                             end))
      else bad
  | SetMetric a v =>
      match thing_at a, val w v with
      | Some (VTS t), Some x => make_if w (set_metric t x) (fun t => XVal (Some (VTS t)))
      | _, _ => bad
      end
  | SetAggregate a v p =>
      match thing_at a, obj_val w v, obj_val w p with
      | Some (VTS t), Some x, Some y => make_if w (set_aggregate t x y) (fun t => XVal (Some (VTS t)))
      | _, _, _ => bad
      end
  | SetFilters a v =>
      match thing_at a, obj_val w v with
      | Some (VTS t), Some x => make_if w (set_filters t x) (fun t => XVal (Some (VTS t)))
      | Some (VFormula n k ps ag fs g), Some x => make_if w (formula_set_filters (VFormula n k ps ag fs g) x) (fun t => XVal (Some t))
      | _, _ => bad
      end
  | SetGroupby a v =>
      match thing_at a, obj_val w v with
      | Some (VTS t), Some x => make_if w (set_groupby t x) (fun t => XVal (Some (VTS t)))
      | Some (VFormula n k ps ag fs g), Some x => make_if w (formula_set_groupby (VFormula n k ps ag fs g) x) (fun t => XVal (Some t))
      | _, _ => bad
      end
  | SetParameters a v =>
      match thing_at a, params_val w v with
      | Some (VFormula n k ps ag fs g), Some (k', qs) =>
          make_if w (formula_set_parameters (VFormula n k ps ag fs g) (Some k') qs) (fun t => XVal (Some t))
      | _, _ => bad
      end
  | SetUseCase a v =>
      match thing_at a, obj_val w v with
      | Some (VScope s), Some x => make_if w (set_use_case_id s x) (fun s => XVal (Some (VScope s)))
      | _, _ => bad
      end
  | SetField a f v =>
      match nth_error w a, val w v with
      | Some (XMetrics q), Some x =>
          make_if w (mq_setter_value f x) (fun y => XMetrics (fun g => if mfield_eqb f g then Some y else q g))
      | _, _ => bad
      end
  | Ask a m => (w, reply w a m)
  | _ => bad
  end.
Fixpoint value_run (w : world) (cs : list call) : world :=
  match cs with [] => w | c :: cs' => value_run (fst (value_step w c)) cs' end.
End V.

(** what an answer tells: which parts of a returned dictionary are shared is left out (C96) *)
Definition told (x : answer) : answer := match x with ADict o _ => ADict o [] | _ => x end.
