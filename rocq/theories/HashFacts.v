(** Hashes and equality (C98). *)
From Verif Require Import PyBase PyFacts DateTime Objects Exprs Metrics PyEqFacts EqText EqMValid Hash SpecOccurs SpecHash.

(** * Aliases of equal objects correspond *)
Fixpoint aliases_of (l : list obj) : list (option str) :=
  match l with [] => [] | x :: l' => fn_aliases x ++ aliases_of l' end.

Lemma aliases_of_length l : Forall (fun a => forall b, py_eq a b = true -> List.length (fn_aliases a) = List.length (fn_aliases b)) l ->
  forall m, eq_list l m = true -> List.length (aliases_of l) = List.length (aliases_of m).
Proof.
  induction 1 as [|x l Hx _ IH]; intros [|y m]; cbn; try discriminate; [reflexivity|].
  rewrite andb_true_iff. intros (A & B). rewrite !app_length, (Hx _ A), (IH _ B). reflexivity.
Qed.
Lemma aliases_length a : forall b, py_eq a b = true -> List.length (fn_aliases a) = List.length (fn_aliases b).
Proof.
  induction a using obj_ind'; intros y E; destruct y; try discriminate E; try reflexivity;
    cbn [py_eq num_of] in E; fold eq_list in E; cbn [fn_aliases]; fold aliases_of.
  - apply aliases_of_length; assumption.
  - apply aliases_of_length; assumption.
  - fold (eq_list il inits) in E. fold (eq_list pl params) in E. rewrite !andb_true_iff in E.
    destruct E as (((((_ & _) & A) & _) & B) & _).
    change (S (List.length (aliases_of il ++ aliases_of pl)) = S (List.length (aliases_of inits ++ aliases_of params))).
    rewrite !app_length. f_equal. f_equal; apply aliases_of_length; assumption.
  - apply andb_true_iff in E as (_ & E). apply IHa, E.
  - rewrite !andb_true_iff in E. destruct E as ((A & _) & B). rewrite !app_length, (IHa1 _ A), (IHa2 _ B). reflexivity.
  - rewrite !andb_true_iff in E. destruct E as (_ & E). apply aliases_of_length; assumption.
  - apply andb_true_iff in E as (E & _). apply IHa, E.
Qed.
Lemma app_split {A} (a b c d : list A) : List.length a = List.length c -> a ++ b = c ++ d -> a = c /\ b = d.
Proof.
  revert c. induction a as [|x a IH]; intros [|y c] L E; try discriminate L; [auto|].
  injection E as -> E. injection L as L. destruct (IH c L E) as (-> & ->). auto.
Qed.
Lemma aliases_of_len l m : eq_list l m = true -> List.length (aliases_of l) = List.length (aliases_of m).
Proof. apply aliases_of_length. apply Forall_forall. intros x _. apply aliases_length. Qed.

(** * Between objects of the class Function, aliases of equal objects are equal *)
Lemma only_in (x o : obj) : only_functions o -> (forall z, occurs z x -> occurs z o) -> only_functions x.
Proof. intros H I z Z. apply H, I, Z. Qed.
Lemma only_items l : Forall (fun a => forall b, only_functions a -> only_functions b -> py_eq a b = true -> fn_aliases a = fn_aliases b) l ->
  forall m, (forall x, In x l -> only_functions x) -> (forall x, In x m -> only_functions x) -> eq_list l m = true -> aliases_of l = aliases_of m.
Proof.
  induction 1 as [|x l Hx _ IH]; intros [|y m] L M; cbn [eq_list]; try discriminate; [reflexivity|].
  rewrite andb_true_iff. intros (A & B). cbn [aliases_of].
  rewrite (Hx y (L x (or_introl eq_refl)) (M y (or_introl eq_refl)) A).
  rewrite (IH m (fun z Z => L z (or_intror Z)) (fun z Z => M z (or_intror Z)) B). reflexivity.
Qed.
Lemma only_parts o : only_functions o -> match o with
  | OList l | OTuple l | OBoolC _ _ _ l => forall x, In x l -> only_functions x
  | OFunc f _ _ il _ pl _ => f = true /\ (forall x, In x il -> only_functions x) /\ (forall x, In x pl -> only_functions x)
  | OLambda _ _ b => only_functions b
  | OCond l _ r => only_functions l /\ only_functions r
  | OOrderBy e _ => only_functions e
  | ODict _ _ => False
  | _ => True
  end.
Proof.
  intros H. destruct o; try exact I.
  - intros x X. apply (only_in x _ H). intros z Z. exact (oc_list z x _ X Z).
  - intros x X. apply (only_in x _ H). intros z Z. exact (oc_tuple z x _ X Z).
  - exact (H _ (oc_self _)).
  - split; [exact (H _ (oc_self _))|]. split; intros x X; apply (only_in x _ H); intros z Z;
      [exact (oc_init z x _ _ _ _ _ _ _ X Z)|exact (oc_param z x _ _ _ _ _ _ _ X Z)].
  - apply (only_in _ _ H). intros z Z. apply oc_body, Z.
  - split; apply (only_in _ _ H); intros z Z; [apply oc_lhs, Z|apply oc_rhs, Z].
  - intros x X. apply (only_in x _ H). intros z Z. exact (oc_cond z x _ _ _ _ X Z).
  - apply (only_in _ _ H). intros z Z. apply oc_order, Z.
Qed.
Lemma only_aliases a : forall b, only_functions a -> only_functions b -> py_eq a b = true -> fn_aliases a = fn_aliases b.
Proof.
  induction a using obj_ind'; intros y X Y E; destruct y; try discriminate E; try reflexivity;
    cbn [py_eq num_of] in E; fold eq_list in E; cbn [fn_aliases]; fold aliases_of; apply only_parts in X, Y.
  - apply only_items; assumption.
  - apply only_items; assumption.
  - fold (eq_list il inits) in E. fold (eq_list pl params) in E. rewrite !andb_true_iff in E.
    destruct E as (((((_ & _) & A) & _) & B) & C), X as (-> & X1 & X2), Y as (-> & Y1 & Y2).
    cbn [andb] in C. apply option_eqb_iff in C; [|apply str_eqb_eq].
    change (a :: aliases_of il ++ aliases_of pl = alias :: aliases_of inits ++ aliases_of params).
    rewrite C, (only_items il H inits X1 Y1 A), (only_items pl H0 params X2 Y2 B). reflexivity.
  - apply andb_true_iff in E as (_ & E). apply IHa; assumption.
  - rewrite !andb_true_iff in E. destruct E as ((A & _) & B), X as (X1 & X2), Y as (Y1 & Y2).
    rewrite (IHa1 _ X1 Y1 A), (IHa2 _ X2 Y2 B). reflexivity.
  - rewrite !andb_true_iff in E. destruct E as (_ & E). apply only_items; assumption.
  - apply andb_true_iff in E as (E & _). apply IHa; assumption.
Qed.

(** * Equal objects with the same aliases have the same hash *)
Lemma seqk_eq a b : seqk_eqb a b = true -> a = b.
Proof. destruct a, b; cbn; congruence. Qed.

Section H.
Context {HA : PyHash}.

Fixpoint hash_all (l : list obj) : result (list Z) :=
  match l with
  | [] => Ok []
  | x :: l' => let! h := py_hash x in let! hs := hash_all l' in Ok (h :: hs)
  end.

Lemma hash_tuple l : py_hash (OTuple l) = let! hs := hash_all l in Ok (tuple_hash hs).
Proof. reflexivity. Qed.
Lemma hash_func f n ik il pk pl a : py_hash (OFunc f n ik il pk pl a) =
  let! i := seq_hash ik (hash_all il) in let! p := seq_hash pk (hash_all pl) in Ok (tuple_hash [str_hash n; i; p; opt_hash str_hash a]).
Proof. reflexivity. Qed.
Lemma hash_boolc c o k l : py_hash (OBoolC c o k l) = let! h := seq_hash k (hash_all l) in Ok (tuple_hash [prim_hash (OBoolOp o); h]).
Proof. reflexivity. Qed.

Section G.
Hypothesis G : good_hash HA.

Lemma int_same i j : Z.eqb (pyint_Z i) (pyint_Z j) = true -> int_hash i = int_hash j.
Proof. intros E. apply G; destruct i, j; try exact I; exact E. Qed.
Lemma flt_same f g : flt_eqb f g = true -> flt_hash f = flt_hash g.
Proof. intros E. apply G; try exact I. exact E. Qed.
Lemma str_same s t : str_eqb s t = true -> str_hash s = str_hash t.
Proof. rewrite str_eqb_eq. congruence. Qed.
Lemma opt_same {A} (f : A -> A -> bool) (h : A -> Z) (a b : option A) : (forall x y, f x y = true -> h x = h y) ->
  option_eqb f a b = true -> opt_hash h a = opt_hash h b.
Proof. intros H. destruct a, b; cbn; try discriminate; [apply H|reflexivity]. Qed.
Lemma map_same {A} (f : A -> A -> bool) (h : A -> Z) : (forall x y, f x y = true -> h x = h y) ->
  forall l m, list_eqb f l m = true -> map h l = map h m.
Proof.
  intros H. induction l as [|x l IH]; intros [|y m]; cbn; try discriminate; [reflexivity|].
  rewrite andb_true_iff. intros (A1 & B). rewrite (H _ _ A1), (IH _ B). reflexivity.
Qed.
Lemma entity_same e f : entity_eqb e f = true -> entity_hash e = entity_hash f.
Proof.
  unfold entity_eqb, entity_hash. rewrite !andb_true_iff. intros (((A & B) & C) & _).
  rewrite (str_same _ _ A), (opt_same _ _ _ _ str_same B), (opt_same _ _ _ _ flt_same C). reflexivity.
Qed.
Lemma storage_same e f : storage_eqb e f = true -> storage_hash e = storage_hash f.
Proof.
  unfold storage_eqb, storage_hash. rewrite !andb_true_iff. intros ((A & C) & _).
  rewrite (str_same _ _ A), (opt_same _ _ _ _ flt_same C). reflexivity.
Qed.
Lemma column_same c d : column_eqb c d = true -> column_hash c = column_hash d.
Proof.
  unfold column_eqb, column_hash. rewrite !andb_true_iff. intros (((A & B) & C) & D).
  rewrite (str_same _ _ A), (opt_same _ _ _ _ entity_same B), (opt_same _ _ _ _ str_same C), (opt_same _ _ _ _ str_same D). reflexivity.
Qed.
Lemma rel_same r s : rel_eqb r s = true -> rel_hash r = rel_hash s.
Proof.
  unfold rel_eqb, rel_hash. rewrite !andb_true_iff. intros ((A & B) & C).
  rewrite (entity_same _ _ A), (str_same _ _ B), (entity_same _ _ C). reflexivity.
Qed.
Lemma all_same l : Forall (fun a => forall b, py_eq a b = true -> fn_aliases a = fn_aliases b -> py_hash a = py_hash b) l ->
  forall m, eq_list l m = true -> aliases_of l = aliases_of m -> hash_all l = hash_all m.
Proof.
  induction 1 as [|x l Hx _ IH]; intros [|y m]; cbn [eq_list]; try discriminate; [reflexivity|].
  rewrite andb_true_iff. intros (A & B) E. cbn [aliases_of] in E.
  apply app_split in E as (E1 & E2); [|apply aliases_length, A].
  cbn [hash_all]. rewrite (Hx _ A E1), (IH _ B E2). reflexivity.
Qed.
Theorem hash_same a : forall b, py_eq a b = true -> fn_aliases a = fn_aliases b -> py_hash a = py_hash b.
Proof.
  induction a using obj_ind'; intros y E F; destruct y; try discriminate E;
    try (cbn [py_hash]; f_equal; apply G; [exact I|exact I|exact E]);
    cbn [py_eq num_of] in E; fold eq_list in E; cbn [fn_aliases] in F; fold aliases_of in F; try rewrite !hash_tuple; try rewrite !hash_func; try rewrite !hash_boolc; cbn [py_hash].
  - reflexivity.
  - reflexivity.
  - rewrite (all_same l H _ E F). reflexivity.
  - reflexivity.
  - rewrite (column_same _ _ E). reflexivity.
  - apply andb_true_iff in E as (A & B). rewrite (column_same _ _ A), (opt_same _ _ _ _ str_same B). reflexivity.
  - fold (eq_list il inits) in E. fold (eq_list pl params) in E. rewrite !andb_true_iff in E.
    destruct E as (((((N & A) & A') & B) & B') & _). injection F as Fa F. fold aliases_of in F.
    apply app_split in F as (F1 & F2); [|apply aliases_of_len, A'].
    apply seqk_eq in A, B. subst.
    rewrite (all_same il H _ A' F1), (all_same pl H0 _ B' F2), (str_same _ _ N). reflexivity.
  - rewrite (str_same _ _ E). reflexivity.
  - rewrite !andb_true_iff in E. destruct E as ((A & B) & C). apply seqk_eq in A. subst.
    rewrite (map_same _ _ str_same _ _ B), (IHa _ C F). reflexivity.
  - rewrite (entity_same _ _ E). reflexivity.
  - rewrite (storage_same _ _ E). reflexivity.
  - reflexivity.
  - rewrite (rel_same _ _ E). reflexivity.
  - apply andb_true_iff in E as (A & B). apply seqk_eq in A. subst. rewrite (map_same _ _ rel_same _ _ B). reflexivity.
  - rewrite !andb_true_iff in E. destruct E as ((A & O) & B). apply app_split in F as (F1 & F2); [|apply aliases_length, A].
    rewrite (IHa1 _ A F1), (IHa2 _ B F2). rewrite (G (OOp o) (OOp o0) I I O). reflexivity.
  - rewrite !andb_true_iff in E. destruct E as (((_ & O) & A) & B). apply seqk_eq in A. subst.
    rewrite (all_same l H _ B F), (G (OBoolOp o) (OBoolOp o0) I I O). reflexivity.
  - rewrite !andb_true_iff in E. destruct E as (A & D). rewrite (IHa _ A F), (G (ODir d) (ODir d0) I I D). reflexivity.
  - rewrite !andb_true_iff in E. destruct E as ((A & B) & C). apply seqk_eq in A. subst.
    rewrite (map_same _ _ column_same _ _ B), (int_same _ _ C). reflexivity.
  - rewrite (int_same _ _ E). reflexivity.
  - rewrite (int_same _ _ E). reflexivity.
  - rewrite (int_same _ _ E). reflexivity.
  - apply Bool.eqb_prop in E. subst. reflexivity.
  - apply Bool.eqb_prop in E. subst. reflexivity.
Qed.
End G.

(** * What has a hash *)
Lemma hash_held k l : py_hash (held k l) = seq_hash k (hash_all l).
Proof. destruct k; reflexivity. Qed.
Lemma hash_strs l : hash_all (map OStr l) = Ok (map str_hash l).
Proof. induction l as [|x l IH]; [reflexivity|]. cbn [map hash_all]. rewrite IH. reflexivity. Qed.
Lemma hash_rels l : hash_all (map ORel l) = Ok (map rel_hash l).
Proof. induction l as [|x l IH]; [reflexivity|]. cbn [map hash_all]. rewrite IH. reflexivity. Qed.
Lemma hash_columns l : hash_all (map OColumn l) = Ok (map column_hash l).
Proof. induction l as [|x l IH]; [reflexivity|]. cbn [map hash_all]. rewrite IH. reflexivity. Qed.

Definition fine (o : obj) : Prop := (exists h, py_hash o = Ok h) \/ (py_hash o = Raise TypeError /\ holds_mutable o).
Lemma fine_all l : Forall fine l -> (exists hs, hash_all l = Ok hs) \/ (hash_all l = Raise TypeError /\ exists x, In x l /\ holds_mutable x).
Proof.
  induction 1 as [|x l [(h & E)|(E & M)] _ IH]; cbn [hash_all].
  - left. eexists. reflexivity.
  - rewrite E. destruct IH as [(hs & ->)|(-> & y & Y & M)]; [left; eexists; reflexivity|right].
    split; [reflexivity|]. exists y. split; [right; exact Y|exact M].
  - right. rewrite E. split; [reflexivity|]. exists x. split; [left; reflexivity|exact M].
Qed.
Lemma fine_held k l : Forall fine l -> fine (held k l).
Proof.
  intros F. unfold fine. destruct k.
  1: left; eexists; reflexivity.
  1: right; split; [reflexivity|apply M_list].
  all: cbn [held]; rewrite hash_tuple; destruct (fine_all l F) as [(hs & ->)|(-> & y & Y & M)];
    [left; eexists; reflexivity|right; split; [reflexivity|eapply M_part; [apply P_item, Y|exact M]]].
Qed.
Lemma fine_strs l : Forall fine (map OStr l).
Proof. apply Forall_map, Forall_forall. intros x _. left. eexists. reflexivity. Qed.
Lemma fine_rels l : Forall fine (map ORel l).
Proof. apply Forall_map, Forall_forall. intros x _. left. eexists. reflexivity. Qed.
Lemma fine_columns l : Forall fine (map OColumn l).
Proof. apply Forall_map, Forall_forall. intros x _. left. eexists. reflexivity. Qed.
Theorem all_fine o : fine o.
Proof.
  induction o using obj_ind'; try (left; eexists; reflexivity).
  - right. split; [reflexivity|apply M_list].
  - apply (fine_held KTuple), H.
  - right. split; [reflexivity|apply M_dict].
  - unfold fine. rewrite hash_func, <- !hash_held.
    destruct (fine_held ik il H) as [(h & ->)|(-> & M)]; [|right; split; [reflexivity|eapply M_part; [apply P_inits|exact M]]].
    destruct (fine_held pk pl H0) as [(h' & ->)|(-> & M)]; [|right; split; [reflexivity|eapply M_part; [apply P_params|exact M]]].
    left. eexists. reflexivity.
  - unfold fine. cbn [py_hash]. rewrite <- hash_strs, <- hash_held.
    destruct (fine_held k (map OStr ids) (fine_strs ids)) as [(h & ->)|(-> & M)]; [|right; split; [reflexivity|eapply M_part; [apply P_ids|exact M]]].
    destruct IHo as [(h' & ->)|(-> & M)]; [|right; split; [reflexivity|eapply M_part; [apply P_body|exact M]]].
    left. eexists. reflexivity.
  - right. split; [reflexivity|apply M_model].
  - unfold fine. cbn [py_hash]. rewrite <- hash_rels, <- hash_held.
    destruct (fine_held k (map ORel l) (fine_rels l)) as [(h & ->)|(-> & M)]; [|right; split; [reflexivity|eapply M_part; [apply P_rels|exact M]]].
    left. eexists. reflexivity.
  - unfold fine. cbn [py_hash].
    destruct IHo1 as [(h & ->)|(-> & M)]; [|right; split; [reflexivity|eapply M_part; [apply P_lhs|exact M]]].
    destruct IHo2 as [(h' & ->)|(-> & M)]; [|right; split; [reflexivity|eapply M_part; [apply P_rhs|exact M]]].
    left. eexists. reflexivity.
  - unfold fine. rewrite hash_boolc, <- hash_held.
    destruct (fine_held k l H) as [(h & ->)|(-> & M)]; [|right; split; [reflexivity|eapply M_part; [apply P_conds|exact M]]].
    left. eexists. reflexivity.
  - unfold fine. cbn [py_hash].
    destruct IHo as [(h' & ->)|(-> & M)]; [|right; split; [reflexivity|eapply M_part; [apply P_exp|exact M]]].
    left. eexists. reflexivity.
  - unfold fine. cbn [py_hash]. rewrite <- hash_columns, <- hash_held.
    destruct (fine_held k (map OColumn l) (fine_columns l)) as [(h & ->)|(-> & M)]; [|right; split; [reflexivity|eapply M_part; [apply P_cols|exact M]]].
    left. eexists. reflexivity.
Qed.
Lemma hash_all_raise l x : In x l -> py_hash x = Raise TypeError -> hash_all l = Raise TypeError.
Proof.
  induction l as [|y l IH]; intros I E; [contradiction|]. cbn [hash_all]. destruct I as [->|I]; [rewrite E; reflexivity|].
  rewrite (IH I E). destruct (all_fine y) as [(h & ->)|(-> & _)]; reflexivity.
Qed.
Lemma part_raise x o : part x o -> py_hash x = Raise TypeError -> py_hash o = Raise TypeError.
Proof.
  destruct 1; intros E; try (rewrite hash_held in E; rewrite ?hash_strs, ?hash_rels, ?hash_columns in E).
  - rewrite hash_tuple, (hash_all_raise l x H E). reflexivity.
  - rewrite hash_func, E. reflexivity.
  - rewrite hash_func, E. rewrite <- hash_held. destruct (all_fine (held ik il)) as [(h & ->)|(-> & _)]; reflexivity.
  - cbn [py_hash]. rewrite E. reflexivity.
  - cbn [py_hash]. rewrite E, <- hash_strs, <- hash_held. destruct (all_fine (held k (map OStr ids))) as [(h & ->)|(-> & _)]; reflexivity.
  - cbn [py_hash]. rewrite E. reflexivity.
  - cbn [py_hash]. rewrite E. reflexivity.
  - cbn [py_hash]. rewrite E. destruct (all_fine l) as [(h & ->)|(-> & _)]; reflexivity.
  - rewrite hash_boolc, E. reflexivity.
  - cbn [py_hash]. rewrite E. reflexivity.
  - cbn [py_hash]. rewrite E. reflexivity.
Qed.
Lemma mutable_raise o : holds_mutable o -> py_hash o = Raise TypeError.
Proof. induction 1; try reflexivity. eapply part_raise; eassumption. Qed.
Lemma mutable_iff o : (holds_mutable o <-> py_hash o = Raise TypeError) /\ (~ holds_mutable o <-> exists h, py_hash o = Ok h).
Proof.
  pose proof (mutable_raise o) as R. destruct (all_fine o) as [(h & E)|(E & M)]; rewrite E in *.
  - split; split; try discriminate; [auto| |intros _ K; specialize (R K); discriminate]. eauto.
  - split; split; auto; [intros K; contradiction|intros (h & K); discriminate].
Qed.
(** what a formula accepts in its group-by has a hash *)
Lemma hashable_all l : Forall (fun o => hashable o = true -> exists h, py_hash o = Ok h) l ->
  forallb hashable l = true -> exists hs, hash_all l = Ok hs.
Proof.
  induction 1 as [|x l Hx _ IH]; cbn [forallb hash_all]; [eauto|]. rewrite andb_true_iff. intros (A & B).
  destruct (Hx A) as (h & ->), (IH B) as (hs & ->). eexists. reflexivity.
Qed.
Lemma all_forallb (l : list obj) : (fix all (l : list obj) : bool := match l with [] => true | x :: l' => hashable x && all l' end) l = forallb hashable l.
Proof. induction l as [|x l IH]; [reflexivity|]. cbn. rewrite IH. reflexivity. Qed.
Lemma seq_ok k r : seqk_eqb k KList = false -> (exists hs, r = Ok hs) -> exists h, seq_hash k r = Ok h.
Proof. intros K (hs & ->). destruct k; try discriminate; eexists; reflexivity. Qed.
Lemma hashable_hash o : hashable o = true -> exists h, py_hash o = Ok h.
Proof.
  induction o using obj_ind'; cbn [hashable]; try discriminate; try (intros _; eexists; reflexivity).
  - rewrite all_forallb. intros E. rewrite hash_tuple. destruct (hashable_all l H E) as (hs & ->). eexists. reflexivity.
  - rewrite !all_forallb, !andb_true_iff, !negb_true_iff. intros (((A & B) & C) & D). rewrite hash_func.
    destruct (seq_ok ik _ A (hashable_all il H C)) as (h & ->), (seq_ok pk _ B (hashable_all pl H0 D)) as (h' & ->). eexists. reflexivity.
  - rewrite andb_true_iff, negb_true_iff. intros (A & B). cbn [py_hash].
    destruct (seq_ok k (Ok (map str_hash ids)) A (ex_intro _ _ eq_refl)) as (h & ->), (IHo B) as (h' & ->). eexists. reflexivity.
  - rewrite negb_true_iff. intros A. cbn [py_hash]. destruct (seq_ok k (Ok (map rel_hash l)) A (ex_intro _ _ eq_refl)) as (h & ->). eexists. reflexivity.
  - rewrite andb_true_iff. intros (A & B). cbn [py_hash]. destruct (IHo1 A) as (h & ->), (IHo2 B) as (h' & ->). eexists. reflexivity.
  - rewrite all_forallb, andb_true_iff, negb_true_iff. intros (A & B). rewrite hash_boolc.
    destruct (seq_ok k _ A (hashable_all l H B)) as (h & ->). eexists. reflexivity.
  - intros A. cbn [py_hash]. destruct (IHo A) as (h & ->). eexists. reflexivity.
  - rewrite negb_true_iff. intros A. cbn [py_hash]. destruct (seq_ok k (Ok (map column_hash l)) A (ex_intro _ _ eq_refl)) as (h & ->). eexists. reflexivity.
Qed.
Lemma groupby_hash (G : good_hash HA) h g : same_element h g = true -> py_eq (OTuple h) (OTuple g) = true /\ py_hash (OTuple h) = py_hash (OTuple g).
Proof.
  unfold same_element. rewrite andb_true_iff. intros (E & A). split; [exact E|]. apply (hash_same G); [exact E|].
  revert A. generalize (fn_aliases (OTuple h)) (fn_aliases (OTuple g)). induction l as [|x l IH]; intros [|y m]; cbn; try discriminate; [reflexivity|].
  rewrite andb_true_iff. intros (X & Y). apply option_eqb_iff in X; [|apply str_eqb_eq]. rewrite X, (IH _ Y). reflexivity.
Qed.
End H.

(** * Equality is transitive between objects with the same aliases *)
Lemma num_trans a b c : num_of a <> None -> py_eq a b = true -> py_eq b c = true -> py_eq a c = true.
Proof.
  intros K E F. pose proof (num_kind a b E) as K1. pose proof (num_kind b c F) as K2.
  assert (A : exists x, as_flt a = Some x) by (unfold as_flt; destruct (num_of a) as [[]|]; [eauto|eauto|contradiction]).
  destruct A as (x & A). destruct (as_flt b) as [y|] eqn:B; [|destruct K1 as [_ K1]; rewrite (K1 eq_refl) in A; discriminate].
  destruct (as_flt c) as [z|] eqn:C; [|destruct K2 as [_ K2]; specialize (K2 eq_refl); discriminate].
  rewrite (num_eq_flt a c x z A C). rewrite (num_eq_flt a b x y A B) in E. rewrite (num_eq_flt b c y z B C) in F.
  eapply flt_eqb_trans; eassumption.
Qed.
Definition no_dict (o : obj) : Prop := forall ks vs, ~ occurs (ODict ks vs) o.
Lemma no_dict_in (x o : obj) : no_dict o -> (forall z, occurs z x -> occurs z o) -> no_dict x.
Proof. intros H I ks vs Z. exact (H ks vs (I _ Z)). Qed.
Lemma no_dict_parts o : no_dict o -> match o with
  | OList l | OTuple l | OBoolC _ _ _ l => forall x, In x l -> no_dict x
  | OFunc f _ _ il _ pl _ => (forall x, In x il -> no_dict x) /\ (forall x, In x pl -> no_dict x)
  | OLambda _ _ b => no_dict b
  | OCond l _ r => no_dict l /\ no_dict r
  | OOrderBy e _ => no_dict e
  | ODict _ _ => False
  | _ => True
  end.
Proof.
  intros H. destruct o; try exact I.
  - intros x X. apply (no_dict_in x _ H). intros z Z. exact (oc_list z x _ X Z).
  - intros x X. apply (no_dict_in x _ H). intros z Z. exact (oc_tuple z x _ X Z).
  - exact (H _ _ (oc_self _)).
  - split; intros x X; apply (no_dict_in x _ H); intros z Z;
      [exact (oc_init z x _ _ _ _ _ _ _ X Z)|exact (oc_param z x _ _ _ _ _ _ _ X Z)].
  - apply (no_dict_in _ _ H). intros z Z. apply oc_body, Z.
  - split; apply (no_dict_in _ _ H); intros z Z; [apply oc_lhs, Z|apply oc_rhs, Z].
  - intros x X. apply (no_dict_in x _ H). intros z Z. exact (oc_cond z x _ _ _ _ X Z).
  - apply (no_dict_in _ _ H). intros z Z. apply oc_order, Z.
Qed.
Lemma eq_list_trans l : Forall (fun a => no_dict a -> forall b c, py_eq a b = true -> py_eq b c = true -> fn_aliases a = fn_aliases c -> py_eq a c = true) l ->
  (forall x, In x l -> no_dict x) ->
  forall m n, eq_list l m = true -> eq_list m n = true -> aliases_of l = aliases_of n -> eq_list l n = true.
Proof.
  induction 1 as [|x l Hx _ IH]; intros ND [|y m] [|z n]; cbn [eq_list aliases_of]; try discriminate; [reflexivity|].
  rewrite !andb_true_iff. intros (A & B) (C & D) E.
  apply app_split in E as (E1 & E2); [|rewrite (aliases_length _ _ A); apply aliases_length, C].
  split; [eapply Hx; try eassumption; apply ND; left; reflexivity|eapply IH; try eassumption; intros w W; apply ND; right; exact W].
Qed.
Lemma seqk_trans : trans_at seqk_eqb.
Proof. intros [] [] []; cbn; congruence. Qed.
Lemma Z_trans (a b c : Z) : Z.eqb a b = true -> Z.eqb b c = true -> Z.eqb a c = true.
Proof. rewrite !Z.eqb_eq. congruence. Qed.
Theorem eq_trans_aliases a : no_dict a -> forall b c, py_eq a b = true -> py_eq b c = true -> fn_aliases a = fn_aliases c -> py_eq a c = true.
Proof.
  induction a using obj_ind'; intros ND y w E F A;
    try (apply (num_trans _ y w); [discriminate|exact E|exact F]);
    destruct y; try discriminate E; destruct w; try discriminate F; try reflexivity;
    cbn [py_eq num_of] in E, F |- *; fold eq_list in E, F |- *; cbn [fn_aliases] in A; fold aliases_of in A; apply no_dict_parts in ND.
  - eapply str_trans; eassumption.
  - eapply str_trans; eassumption.
  - eapply date_trans; eassumption.
  - eapply datetime_trans; eassumption.
  - eapply eq_list_trans; eassumption.
  - eapply eq_list_trans; eassumption.
  - contradiction.
  - destruct o, o0, o1; cbn in *; congruence.
  - destruct o, o0, o1; cbn in *; congruence.
  - destruct d, d0, d1; cbn in *; congruence.
  - eapply column_trans; eassumption.
  - rewrite andb_true_iff in *. destruct E, F. split; [eapply column_trans; eassumption|eapply (option_trans _ str_trans); eassumption].
  - destruct ND as (ND1 & ND2). injection A as Aa A. fold aliases_of in A.
    fold (eq_list il inits) in E. fold (eq_list pl params) in E. fold (eq_list inits inits0) in F. fold (eq_list params params0) in F.
    fold (eq_list il inits0). fold (eq_list pl params0).
    rewrite !andb_true_iff in *. destruct E as (((((E1 & E2) & E3) & E4) & E5) & _), F as (((((F1 & F2) & F3) & F4) & F5) & _).
    apply app_split in A as (A1 & A2); [|rewrite (aliases_of_len _ _ E3); apply aliases_of_len, F3].
    repeat split; [eapply str_trans|eapply seqk_trans|eapply eq_list_trans|eapply seqk_trans|eapply eq_list_trans|]; try eassumption.
    subst. destruct (f && is_function0); [|reflexivity]. apply option_eqb_refl, str_eqb_refl.
  - eapply str_trans; eassumption.
  - rewrite !andb_true_iff in *. destruct E as ((E1 & E2) & E3), F as ((F1 & F2) & F3).
    repeat split; [eapply seqk_trans; eassumption|eapply (list_trans _ str_trans); eassumption|eapply IHa; eassumption].
  - eapply entity_trans; eassumption.
  - eapply storage_trans; eassumption.
  - eapply dm_trans; eassumption.
  - eapply rel_trans; eassumption.
  - rewrite !andb_true_iff in *. destruct E, F. split; [eapply seqk_trans; eassumption|eapply (list_trans _ rel_trans); eassumption].
  - rewrite !andb_true_iff in *. destruct E as ((E1 & E2) & E3), F as ((F1 & F2) & F3).
    destruct ND as (ND1 & ND2). apply app_split in A as (A1 & A2); [|rewrite (aliases_length _ _ E1); apply aliases_length, F1].
    repeat split; [eapply IHa1; eassumption|destruct o, o0, o1; cbn in *; congruence|eapply IHa2; eassumption].
  - rewrite !andb_true_iff in *. destruct E as (((E1 & E2) & E3) & E4), F as (((F1 & F2) & F3) & F4).
    repeat split; [match type of E1 with bcls_eqb ?x ?y = true => match type of F1 with bcls_eqb _ ?z = true => destruct x, y, z; cbn in *; congruence end end|destruct o, o0, o1; cbn in *; congruence|eapply seqk_trans; eassumption|eapply eq_list_trans; eassumption].
  - rewrite !andb_true_iff in *. destruct E as (E1 & E2), F as (F1 & F2).
    split; [eapply IHa; eassumption|destruct d, d0, d1; cbn in *; congruence].
  - rewrite !andb_true_iff in *. destruct E as ((E1 & E2) & E3), F as ((F1 & F2) & F3).
    repeat split; [eapply seqk_trans; eassumption|eapply (list_trans _ column_trans); eassumption|eapply Z_trans; eassumption].
  - eapply Z_trans; eassumption.
  - eapply Z_trans; eassumption.
  - eapply Z_trans; eassumption.
  - destruct b, b0, b1; cbn in *; congruence.
  - destruct b, b0, b1; cbn in *; congruence.
  - rewrite N.eqb_eq in *. congruence.
Qed.

(** * A hash that tells texts apart by their characters *)
Definition sum_hash : PyHash := {|
  prim_hash o := match o with OStr s => fold_right (fun c n => (Z.of_N c + 31 * n)%Z) 1%Z s | _ => 0%Z end;
  tuple_hash l := fold_right (fun h n => (h + 1000003 * n)%Z) 7%Z l |}.
Lemma sum_good : good_hash sum_hash.
Proof.
  intros x y X Y E. destruct x; try contradiction; destruct y; try contradiction; try discriminate E; try reflexivity.
  cbn [py_eq] in E. apply str_eqb_eq in E. subst. reflexivity.
Qed.
