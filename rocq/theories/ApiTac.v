(** A tactic proving [api o] for a concrete object, used in [Example]s only. *)
From Verif Require Import PyBase Objects Exprs Query SpecQuery.

Lemma api_str_ok {RT : PyRT} s : forallb (fun c => N.ltb c 1114112) s = true -> api (OStr s).
Proof.
  intros H. apply api_str. rewrite Forall_forall. rewrite forallb_forall in H. intros c I. apply N.ltb_lt, H, I.
Qed.
Lemma api_bytes_ok {RT : PyRT} b : forallb (fun c => N.ltb c 256) b = true -> api (OBytes b).
Proof.
  intros H. apply api_bytes. rewrite Forall_forall. rewrite forallb_forall in H. intros c I. apply N.ltb_lt, H, I.
Qed.
Definition opt_str (a : option str) : obj := match a with Some s => OStr s | None => ONone end.
Definition opt_flt (a : option flt) : obj := match a with Some s => OFloat s | None => ONone end.
Definition opt_dm (a : option data_model) : obj := match a with Some s => ODataModel s | None => ONone end.
Definition opt_ent (a : option entity) : obj := match a with Some s => OEntity s | None => ONone end.
Definition of_seq (k : seqk) (l : list obj) : obj :=
  match k with KNone => ONone | KTuple => OTuple l | _ => OList l end.
Definition of_pyint (i : pyint) : obj := match i with PInt z => OInt z | PBool b => OBool b end.

Ltac by_computation := vm_compute; reflexivity.
Ltac api_tac :=
  lazymatch goal with
  | |- api ONone => apply api_none
  | |- api (OBool _) => apply api_bool
  | |- api (OInt _) => apply api_int
  | |- api (OFloat _) => apply api_float
  | |- api (OStr _) => apply api_str_ok; by_computation
  | |- api (OBytes _) => apply api_bytes_ok; by_computation
  | |- api (ODate _) => apply api_date; vm_compute; intuition congruence
  | |- api (ODateTime _) => apply api_datetime; vm_compute; intuition congruence
  | |- api (OList _) => apply api_list; api_all
  | |- api (OTuple _) => apply api_tuple; api_all
  | |- api (OOp _) => apply api_op
  | |- api (OBoolOp _) => apply api_boolop
  | |- api (ODir _) => apply api_dir
  | |- api (ODataModel _) => apply api_dm
  | |- api (OOther _) => apply api_other
  | |- api (OLimit ?n) => eapply (api_limit (of_pyint n)); [api_tac|by_computation]
  | |- api (OOffset ?n) => eapply (api_offset (of_pyint n)); [api_tac|by_computation]
  | |- api (OGranularity ?n) => eapply (api_granularity (of_pyint n)); [api_tac|by_computation]
  | |- api (OTotals ?b) => eapply (api_totals (OBool b)); [api_tac|by_computation]
  | |- api (OExtrapolate ?b) => eapply (api_extrapolate (OBool b)); [api_tac|by_computation]
  | |- api (OEntity ?e) =>
      eapply (api_entity (OStr (e_name e)) (opt_str (e_alias e)) (opt_flt (e_sample e)) (opt_dm (e_dm e)));
      [api_tac|api_tac|api_tac|api_tac|by_computation]
  | |- api (OStorage ?e) =>
      eapply (api_storage (OStr (st_name e)) (opt_flt (st_sample e)) (opt_dm (st_dm e)));
      [api_tac|api_tac|api_tac|by_computation]
  | |- api (OColumn ?c) =>
      eapply (api_column (OStr (c_name c)) (opt_ent (c_entity c))); [api_tac|api_tac|by_computation]
  | |- api (OAliased ?c ?a) =>
      eapply (api_aliased (OColumn c) (opt_str a)); [api_tac|api_tac|by_computation]
  | |- api (OFunc true ?n _ _ ?pk ?pl ?a) =>
      eapply (api_function (OStr n) (of_seq pk pl) (opt_str a)); [api_tac|api_tac|api_tac|by_computation]
  | |- api (OFunc false ?n ?ik ?il ?pk ?pl ?a) =>
      eapply (api_curried (OStr n) (of_seq ik il) (of_seq pk pl) (opt_str a)); [api_tac|api_tac|api_tac|api_tac|by_computation]
  | |- api (OIdent ?n) => eapply (api_identifier (OStr n)); [api_tac|by_computation]
  | |- api (OLambda ?k ?ids ?b) =>
      eapply (api_lambda (of_seq k (map OStr ids)) b); [api_tac|api_tac|by_computation]
  | |- api (OCond ?l ?o ?r) => eapply (api_condition l (OOp o) r); [api_tac|api_tac|api_tac|by_computation]
  | |- api (OBoolC BAnd _ ?k ?l) => eapply (api_and (of_seq k l)); [api_tac|by_computation]
  | |- api (OBoolC BOr _ ?k ?l) => eapply (api_or (of_seq k l)); [api_tac|by_computation]
  | |- api (OBoolC BCond ?o ?k ?l) => eapply (api_boolean_condition (OBoolOp o) (of_seq k l)); [api_tac|api_tac|by_computation]
  | |- api (OOrderBy ?e ?d) => eapply (api_orderby e (ODir d)); [api_tac|api_tac|by_computation]
  | |- api (OLimitBy ?k ?l ?n) => eapply (api_limitby (of_seq k (map OColumn l)) (of_pyint n)); [api_tac|api_tac|by_computation]
  | |- api (ORel ?r) =>
      eapply (api_relationship (OEntity (r_lhs r)) (OStr (r_name r)) (OEntity (r_rhs r))); [api_tac|api_tac|api_tac|by_computation]
  | |- api (OJoin ?k ?l) => eapply (api_join (of_seq k (map ORel l))); [api_tac|by_computation]
  | |- api ?o => let o' := eval hnf in o in change (api o'); api_tac
  end
with api_all :=
  lazymatch goal with
  | |- Forall api [] => apply Forall_nil
  | |- Forall api (_ :: _) => apply Forall_cons; [api_tac|api_all]
  | |- Forall api ?l => let l' := eval hnf in l in change (Forall api l'); api_all
  end.
Ltac api_query_tac :=
  lazymatch goal with
  | |- api_query (QBase ?b ?c) => split; [cbn [obj_of_base]; api_tac|intros []; cbn; api_tac]
  | |- api_query (QSub ?b ?c) => split; [api_query_tac|intros []; cbn; api_tac]
  | |- api_query ?q => let q' := eval hnf in q in change (api_query q'); api_query_tac
  end.
