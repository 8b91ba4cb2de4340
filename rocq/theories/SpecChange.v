(** Specification for C86-C88: queries made from the clauses of other queries, queries on top
    of other queries, and other data models for the entities of a query. *)
From Verif Require Import PyBase Objects Exprs Query SpecExpr SpecQuery SpecSetters SpecRefs.

(** ** C86 *)
(** both queries match the same entity, storage, join or subquery *)
Definition same_source (q q' : query) : Prop := exists c, q' = q_with q c.
(** x was given as (one of the items of) clause k *)
Definition given (k : clause) (q : query) (x : obj) : Prop :=
  get k (q_clauses q) <> ONone /\ clause_item k (get k (q_clauses q)) x.
(** whatever is in a clause of q is in that clause of one of qs *)
Definition taken_from (qs : list query) (q : query) : Prop :=
  forall k x, given k q x -> exists q0, In q0 qs /\ given k q0 x.

(** ** C87 *)
(** what is shown by a query: the names of its columns, and the aliases of its functions and
    aliased expressions *)
Definition shown (q : query) (n : str) : Prop :=
  offered q n \/ exists c, given CSelect q (OAliased c (Some n)).

(** ** C88 *)
(** the model m' has the columns of m *)
Definition more_columns (m m' : data_model) : Prop :=
  forall n, In n (map sc_name (dm_columns m)) -> In n (map sc_name (dm_columns m')).
(** no model at all, or one with the columns of the old one *)
Definition looser (d d' : option data_model) : Prop :=
  forall m', d' = Some m' -> exists m, d = Some m /\ more_columns m m'.
(** the model m' requires at most the columns that m requires *)
Definition not_stricter (d d' : option data_model) : Prop :=
  forall m', d' = Some m' -> exists m, d = Some m /\ sc_name (dm_time m') = sc_name (dm_time m)
    /\ forall r', In r' (dm_columns m') -> sc_required r' = true ->
         exists r, In r (dm_columns m) /\ sc_required r = true /\ sc_name r = sc_name r'.

(** the same query with other data models *)
Section Models.
Variable me : entity -> option data_model.
Variable ms : storage -> option data_model.
Definition new_entity (e : entity) : entity := mkEntity (e_name e) (e_alias e) (e_sample e) (me e).
Definition new_storage (s : storage) : storage := mkStorage (st_name s) (st_sample s) (ms s).
Definition new_column (c : column) : column :=
  mkColumn (c_name c) (option_map new_entity (c_entity c)) (c_sub c) (c_key c).
Definition new_value : obj -> obj := rename new_column new_entity.
Definition new_clauses (c : clauses) : clauses :=
  let '(mkClauses s g a w h o lb l f gr t) := c in
  mkClauses (new_value s) (new_value g) (new_value a) (new_value w) (new_value h) (new_value o)
    (new_value lb) (new_value l) (new_value f) (new_value gr) (new_value t).
Definition new_base (b : base) : base :=
  match b with
  | BEntity e => BEntity (new_entity e)
  | BStorage s => BStorage (new_storage s)
  | BJoin k rels => BJoin k (map (rename_rel new_entity) rels)
  end.
Fixpoint with_models (q : query) : query :=
  match q with
  | QBase b c => QBase (new_base b) (new_clauses c)
  | QSub i c => QSub (with_models i) (new_clauses c)
  end.
End Models.
