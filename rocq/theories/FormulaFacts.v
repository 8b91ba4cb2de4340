(** Proofs about Formula.validate and the Formula setters (C39). *)
From Verif Require Import PyBase PyFacts DateTime Objects Exprs PyEqFacts Translate Query
  SpecExpr Metrics SpecMetrics MetricsFacts.

(** * Equality of group-by columns is transitive *)
Lemma str_eqb_trans a b c : str_eqb a b = true -> str_eqb b c = true -> str_eqb a c = true.
Proof. rewrite !str_eqb_eq. congruence. Qed.
Lemma option_eqb_trans {A} (f : A -> A -> bool) :
  (forall x y z, f x y = true -> f y z = true -> f x z = true) ->
  forall a b c, option_eqb f a b = true -> option_eqb f b c = true -> option_eqb f a c = true.
Proof. intros H [x|] [y|] [z|]; cbn; try discriminate; eauto. Qed.
Lemma sc_eqb_trans a b c : sc_eqb a b = true -> sc_eqb b c = true -> sc_eqb a c = true.
Proof.
  unfold sc_eqb. rewrite !andb_true_iff, !str_eqb_eq, !eqb_true_iff. intuition congruence.
Qed.
Lemma sc_incl_trans a b c : sc_incl a b = true -> sc_incl b c = true -> sc_incl a c = true.
Proof.
  unfold sc_incl. rewrite !forallb_forall. intros H1 H2 x I. specialize (H1 x I).
  apply existsb_exists in H1. destruct H1 as (y & Iy & Ey). specialize (H2 y Iy).
  apply existsb_exists in H2. destruct H2 as (z & Iz & Ez). apply existsb_exists.
  exists z. eauto using sc_eqb_trans.
Qed.
Lemma dm_eqb_trans a b c : dm_eqb a b = true -> dm_eqb b c = true -> dm_eqb a c = true.
Proof.
  unfold dm_eqb. rewrite !andb_true_iff. intros ((H1 & H2) & H3) ((H4 & H5) & H6).
  repeat split; eauto using sc_incl_trans, sc_eqb_trans.
Qed.
Lemma entity_eqb_trans a b c : entity_eqb a b = true -> entity_eqb b c = true -> entity_eqb a c = true.
Proof.
  unfold entity_eqb. rewrite !andb_true_iff. intros (((H1 & H2) & H3) & H4) (((H5 & H6) & H7) & H8).
  repeat split; [eauto using str_eqb_trans| | |].
  - eapply (option_eqb_trans str_eqb); eauto using str_eqb_trans.
  - eapply (option_eqb_trans flt_eqb); eauto using flt_eqb_trans.
  - eapply (option_eqb_trans dm_eqb); eauto using dm_eqb_trans.
Qed.
Lemma column_eqb_trans a b c : column_eqb a b = true -> column_eqb b c = true -> column_eqb a c = true.
Proof.
  unfold column_eqb. rewrite !andb_true_iff. intros (((H1 & H2) & H3) & H4) (((H5 & H6) & H7) & H8).
  repeat split; [eauto using str_eqb_trans| | |].
  - eapply (option_eqb_trans entity_eqb); eauto using entity_eqb_trans.
  - eapply (option_eqb_trans str_eqb); eauto using str_eqb_trans.
  - eapply (option_eqb_trans str_eqb); eauto using str_eqb_trans.
Qed.
Lemma groupable_eq_trans a b c : groupable a -> groupable b -> groupable c ->
  py_eq a b = true -> py_eq b c = true -> py_eq a c = true.
Proof.
  intros [(x & ->)|(x & xa & ->)] [(y & ->)|(y & ya & ->)] [(z & ->)|(z & za & ->)];
    cbn; try discriminate.
  - apply column_eqb_trans.
  - rewrite !andb_true_iff. intros (H1 & H2) (H3 & H4). split; [eauto using column_eqb_trans|].
    eapply (option_eqb_trans str_eqb); eauto using str_eqb_trans.
Qed.

Lemma same_groupby_iff l1 l2 : py_eq (OTuple l1) (OTuple l2) = true <-> same_groupby l1 l2.
Proof.
  cbn [py_eq]. fold eq_list. unfold same_groupby. revert l2.
  induction l1 as [|x l1 IH]; intros [|y l2]; cbn; split; intros H; try discriminate; try constructor;
    try (inversion H; fail).
  - apply andb_true_iff in H. apply H.
  - apply IH. apply andb_true_iff in H. apply H.
  - inversion H; subst. apply andb_true_iff. split; [assumption|]. apply IH; assumption.
Qed.
Lemma same_groupby_refl l : groupby_items l -> same_groupby l l.
Proof. unfold same_groupby. induction 1 as [|o l (_ & H) _ IH]; constructor; assumption. Qed.
Lemma same_groupby_sym l m : same_groupby l m -> same_groupby m l.
Proof. induction 1 as [|x y l m H _ IH]; constructor; [rewrite py_eq_sym|]; assumption. Qed.
Lemma same_groupby_trans l m n : groupby_items l -> groupby_items m -> groupby_items n ->
  same_groupby l m -> same_groupby m n -> same_groupby l n.
Proof.
  intros Hl Hm Hn E. revert n Hn. induction E as [|x y l m H _ IH]; intros n Hn E; inversion E; subst.
  - constructor.
  - inversion Hl; inversion Hm; inversion Hn; subst.
    constructor; [|apply IH; assumption].
    eapply groupable_eq_trans; [apply H3|apply H8|apply H12|eassumption|assumption].
Qed.

Lemma groupable_aliases l : Forall SpecMetrics.groupable l -> fn_aliases (OTuple l) = [].
Proof.
  induction 1 as [|o l H _ IH]; [reflexivity|]. change (fn_aliases (OTuple (o :: l))) with (fn_aliases o ++ fn_aliases (OTuple l)).
  rewrite IH. destruct H as [(c & ->)|(c & a & ->)]; reflexivity.
Qed.
Lemma items_groupable l : groupby_items l -> Forall SpecMetrics.groupable l.
Proof. apply Forall_impl. intros o H. apply H. Qed.
Lemma same_element_eq h g : Forall SpecMetrics.groupable h -> Forall SpecMetrics.groupable g -> same_element h g = py_eq (OTuple h) (OTuple g).
Proof. intros H G. unfold same_element. rewrite (groupable_aliases h H), (groupable_aliases g G). apply andb_true_r. Qed.
Lemma one_groupby_iff ks : Forall groupby_items ks ->
  one_groupby ks = true <-> (forall l1 l2, In l1 ks -> In l2 ks -> same_groupby l1 l2).
Proof.
  intros F. rewrite Forall_forall in F. destruct ks as [|g ks]; cbn [one_groupby].
  - split; [intros _ l1 l2 []|reflexivity].
  - rewrite forallb_forall. split.
    + intros H.
      assert (forall l, In l (g :: ks) -> same_groupby l g) as A.
      { intros l [<-|I]; [apply same_groupby_refl, F; left; reflexivity|].
        apply same_groupby_iff. rewrite <- same_element_eq; [apply H, I|apply items_groupable, F; right; exact I|apply items_groupable, F; left; reflexivity]. }
      intros l1 l2 I1 I2. apply (same_groupby_trans l1 g l2); auto using in_eq, same_groupby_sym.
    + intros H l I. rewrite same_element_eq; [|apply items_groupable, F; right; exact I|apply items_groupable, F; left; reflexivity].
      apply same_groupby_iff, H; [right; exact I|left; reflexivity].
Qed.

Section F.
Context {RT : PyRT}.

Definition walk_all := fix all (l : list mval) : result (list (list obj) * bool) :=
    match l with
    | [] => Ok ([], false)
    | x :: l' => let! a := walk x in let! b := all l' in
                 Ok (fst a ++ fst b, snd a || snd b)
    end.
Lemma walk_formula n pk ps a f g : walk (VFormula n pk ps a f g) =
  let! k := groupby_key g in
  match pk with
  | None => Raise TypeError
  | Some _ => let! r := walk_all ps in Ok (k ++ fst r, snd r)
  end.
Proof. reflexivity. Qed.

Lemma groupable_hashable l : groupby_items l -> forallb hashable l = true.
Proof.
  intros H. apply forallb_forall. intros x I. unfold groupby_items in H. rewrite Forall_forall in H.
  destruct (H x I) as ([(c & ->)|(c & a & ->)] & _); reflexivity.
Qed.
Lemma groupby_key_list l : groupby_items l -> groupby_key (OList l) = Ok [l].
Proof. intros H. unfold groupby_key. cbn. rewrite (groupable_hashable l H). reflexivity. Qed.

Lemma occurs_leaf x v : (forall n pk ps a f g, v <> VFormula n pk ps a f g) ->
  occurs x v -> x = v.
Proof. intros H O. inversion O; subst; [reflexivity|]. exfalso. eapply H. reflexivity. Qed.

(** the walk over a typed tree meets exactly the group-bys and Timeseries in it *)
Definition walk_spec (v : mval) (r : list (list obj) * bool) : Prop :=
  (forall l, In l (fst r) <-> exists x, occurs x v /\ groupby_of x l)
  /\ (snd r = true <-> exists t, occurs (VTS t) v)
  /\ Forall groupby_items (fst r).
Lemma walk_typed v : typed_tree v -> exists r, walk v = Ok r /\ walk_spec v r.
Proof.
  intros T. induction v as [o|m|t|r|s|n pk ps a f g IH] using mval_ind'.
  1,2,4,5: eexists; split; [reflexivity|]; split; [|split]; [intros l; split; [intros []|]| |constructor];
    [intros (x & O & G); apply occurs_leaf in O; [|discriminate]; subst;
       destruct G as [(? & E & _)|(? & ? & ? & ? & ? & E)]; discriminate E
    |split; [discriminate|intros (t & O); apply occurs_leaf in O; [|discriminate]; discriminate O]].
  - inversion T as [| | | |t' H E|]; subst t'. cbn [walk].
    destruct (ts_groupby t) as [l|] eqn:G; cbn [obj_of_opt].
    + rewrite (groupby_key_list l (H l eq_refl)). cbn. eexists; split; [reflexivity|].
      split; [|split]; cbn.
      * intros l'. split.
        -- intros [<-|[]]. exists (VTS t). split; [constructor|]. left. eauto.
        -- intros (x & O & K). apply occurs_leaf in O; [|discriminate]; subst.
           destruct K as [(t' & E & E')|(? & ? & ? & ? & ? & E)]; [|discriminate].
           inversion E; subst. rewrite G in E'. inversion E'; subst. auto.
      * split; [|reflexivity]. intros _. exists t. constructor.
      * constructor; [auto|constructor].
    + cbn. eexists; split; [reflexivity|]. split; [|split]; cbn.
      * intros l'. split; [intros []|].
        intros (x & O & K). apply occurs_leaf in O; [|discriminate]; subst.
        destruct K as [(t' & E & E')|(? & ? & ? & ? & ? & E)]; [|discriminate].
        inversion E; subst. congruence.
      * split; [|reflexivity]. intros _. exists t. constructor.
      * constructor.
  - inversion T as [| | | | |n' k' ps' a' f' g' Tps Tg]; subst.
    assert (exists r, walk_all ps = Ok r
      /\ (forall l, In l (fst r) <-> exists p x, In p ps /\ occurs x p /\ groupby_of x l)
      /\ (snd r = true <-> exists p t, In p ps /\ occurs (VTS t) p)
      /\ Forall groupby_items (fst r)) as (r & Er & R1 & R2 & R3).
    { clear T Tg. induction ps as [|p ps IHps].
      - eexists; split; [reflexivity|]. split; [|split]; cbn.
        + intros l; split; [intros []|intros (p & x & [] & _)].
        + split; [discriminate|intros (p & x & [] & _)].
        + constructor.
      - inversion IH as [|? ? Hp Hps]; subst. inversion Tps as [|? ? Tp Tps']; subst.
        destruct (Hp Tp) as (r1 & E1 & A1 & A2 & A3).
        destruct (IHps Hps Tps') as (r2 & E2 & B1 & B2 & B3).
        exists (fst r1 ++ fst r2, (snd r1 || snd r2)%bool). cbn [walk_all]. fold walk_all. rewrite E1. cbn [bind].
        change ((fix all (l : list mval) : result (list (list obj) * bool) :=
    match l with
    | [] => Ok ([], false)
    | x :: l' => let! a := walk x in let! b := all l' in
                 Ok (fst a ++ fst b, snd a || snd b)%bool
    end) ps) with (walk_all ps). rewrite E2. cbn [bind fst snd].
        split; [reflexivity|]. split; [|split].
        + intros l. rewrite in_app_iff, A1, B1. split.
          * intros [(x & O & G)|(q & x & I & O & G)]; [exists p, x|exists q, x]; cbn; auto.
          * intros (q & x & [<-|I] & O & G); [left|right]; eauto.
        + rewrite orb_true_iff, A2, B2. split.
          * intros [(t & O)|(q & t & I & O)]; [exists p, t|exists q, t]; cbn; auto.
          * intros (q & t & [<-|I] & O); [left|right]; eauto.
        + apply Forall_app. auto. }
    rewrite walk_formula, Er.
    assert (exists ks, groupby_key g = Ok ks
      /\ (forall l, In l ks <-> groupby_of (VFormula n (Some k') ps a f g) l)
      /\ Forall groupby_items ks) as (ks & Ek & K1 & K2).
    { destruct Tg as [->|(l & -> & Hl)].
      - exists []. split; [reflexivity|]. split; [|constructor]. intros l. split; [intros []|].
        intros [(? & E & _)|(? & ? & ? & ? & ? & E)]; discriminate E.
      - exists [l]. split; [apply groupby_key_list, Hl|]. split; [|constructor; [exact Hl|constructor]].
        intros l'. split.
        + intros [<-|[]]. right. repeat eexists.
        + intros [(? & E & _)|(? & ? & ? & ? & ? & E)]; [discriminate E|]. inversion E; subst. left; reflexivity. }
    rewrite Ek. cbn [bind]. eexists; split; [reflexivity|]. split; [|split]; cbn [fst snd].
    + intros l. rewrite in_app_iff, K1, R1. split.
      * intros [G|(p & x & I & O & G)].
        -- eexists; split; [constructor|exact G].
        -- exists x. split; [econstructor; eassumption|exact G].
      * intros (x & O & G). inversion O; subst; [left; exact G|right]. eauto.
    + rewrite R2. split.
      * intros (p & t & I & O). exists t. econstructor; eassumption.
      * intros (t & O). inversion O; subst. eauto.
    + apply Forall_app. auto.
Qed.

Lemma is_formula_param_iff v : is_formula_param v = true <-> formula_param v.
Proof.
  unfold formula_param. split.
  - destruct v as [o| | | | |]; try discriminate; intros H; [|left; eauto|right; left; repeat eexists].
    right; right. destruct o; try discriminate; [left; destruct b|left|right]; repeat eexists; constructor.
  - intros [(t & ->)|[(n & pk & ps & a & f & g & ->)|[(o & z & -> & I)|(x & ->)]]]; try reflexivity.
    destruct I; reflexivity.
Qed.

Lemma walk_strip n n' pk ps a a' f f' g : walk (VFormula n pk ps a f g) = walk (VFormula n' pk ps a' f' g).
Proof. reflexivity. Qed.

(** Formula.validate on a typed tree *)
Theorem formula_exact n pk ps a f g : typed_tree (VFormula n pk ps a f g) ->
  mval_validate (VFormula n pk ps a f g) = Ok tt
  <-> (exists s, n = OStr s) /\ pk <> Some KNone /\ Forall formula_param ps
      /\ (exists t, occurs (VTS t) (VFormula n pk ps a f g))
      /\ (forall x y l1 l2, occurs x (VFormula n pk ps a f g) -> occurs y (VFormula n pk ps a f g) ->
            groupby_of x l1 -> groupby_of y l2 -> same_groupby l1 l2).
Proof.
  intros T. destruct (walk_typed _ T) as (r & Er & W1 & W2 & W3).
  assert (exists k, pk = Some k) as (k & ->) by (inversion T; eauto).
  cbn [mval_validate]. unfold formula_validate. rewrite (walk_strip n n _ ps ONone a ONone f g), Er.
  assert (forallb is_formula_param ps = true <-> Forall formula_param ps) as Fp.
  { rewrite forallb_forall, Forall_forall. split; intros H x I; apply is_formula_param_iff, H, I. }
  assert ((assert_ (forallb is_formula_param ps) InvalidFormulaError ;!
           let! r0 := Ok r in
           assert_ (snd r0) InvalidFormulaError ;!
           assert_ (one_groupby (fst r0)) InvalidFormulaError) = Ok tt
          <-> Forall formula_param ps
             /\ (exists t, occurs (VTS t) (VFormula n (Some k) ps a f g))
             /\ (forall l1 l2, In l1 (fst r) -> In l2 (fst r) -> same_groupby l1 l2)) as Body.
  { cbn [bind]. rewrite !seq_ok, !assert_Ok, Fp, W2, (one_groupby_iff _ W3). reflexivity. }
  assert ((forall l1 l2, In l1 (fst r) -> In l2 (fst r) -> same_groupby l1 l2) <->
     (forall x y l1 l2, occurs x (VFormula n (Some k) ps a f g) -> occurs y (VFormula n (Some k) ps a f g) ->
            groupby_of x l1 -> groupby_of y l2 -> same_groupby l1 l2)) as G.
  { split.
    - intros H x y l1 l2 O1 O2 G1 G2. apply H; apply W1; eauto.
    - intros H l1 l2 I1 I2. apply W1 in I1, I2. destruct I1 as (x & ? & ?), I2 as (y & ? & ?). eauto. }
  rewrite G in Body. split.
  - intros H. destruct n; try discriminate H. split; [eauto|].
    destruct k; try discriminate H; (split; [discriminate|apply Body, H]).
  - intros ((s & ->) & Hk & H). apply Body in H. destruct k; try exact H. congruence.
Qed.

(** whatever the tree, a validated formula has a Timeseries in it *)
Lemma walk_ts v r : walk v = Ok r -> snd r = true -> exists t, occurs (VTS t) v.
Proof.
  revert r. induction v as [o|m|t|ro|s|n pk ps a f g IH] using mval_ind'; intros r E S;
    try (cbn in E; inversion E; subst; discriminate S).
  - exists t. constructor.
  - rewrite walk_formula in E. apply let_ok in E. destruct E as (ks & _ & E).
    destruct pk; [|discriminate]. apply let_ok in E. destruct E as (r' & Er & E).
    inversion E; subst r; clear E. cbn in S.
    assert (exists p t, In p ps /\ occurs (VTS t) p) as (p & t & I & O).
    { revert r' Er S. induction ps as [|p ps IHps]; intros r' Er S.
      - inversion Er; subst. discriminate.
      - inversion IH as [|? ? Hp Hps]; subst. cbn in Er. apply let_ok in Er.
        destruct Er as (r1 & E1 & Er). apply let_ok in Er. destruct Er as (r2 & E2 & Er).
        inversion Er; subst; clear Er. cbn in S. apply orb_true_iff in S. destruct S as [S|S].
        + destruct (Hp _ E1 S) as (t & O). exists p, t. cbn; auto.
        + destruct (IHps Hps _ E2 S) as (q & t & I & O). exists q, t. cbn; auto. }
    exists t. econstructor; eassumption.
Qed.
Theorem formula_sound n pk ps a f g : mval_validate (VFormula n pk ps a f g) = Ok tt ->
  (exists s, n = OStr s) /\ pk <> Some KNone /\ pk <> None /\ Forall formula_param ps
  /\ (exists t, occurs (VTS t) (VFormula n pk ps a f g)).
Proof.
  cbn [mval_validate]. unfold formula_validate. intros H.
  destruct n as [| | | |s| | | | | | | | | | | | | | | | | | | | | | | | | | | | |]; try discriminate H.
  split; [eauto|]. destruct pk as [k|]; [|discriminate].
  assert (k <> KNone) as Hk by (destruct k; congruence).
  split; [congruence|]. split; [discriminate|].
  assert ((assert_ (forallb is_formula_param ps) InvalidFormulaError ;!
          let! r := walk (VFormula (OStr s) (Some k) ps ONone ONone g) in
          assert_ (snd r) InvalidFormulaError ;!
          assert_ (one_groupby (fst r)) InvalidFormulaError) = Ok tt) as H'
    by (destruct k; try exact H; congruence).
  apply seq_ok in H'. destruct H' as (H1 & H'). apply assert_Ok in H1.
  split. { apply Forall_forall. intros x I. apply is_formula_param_iff.
           rewrite forallb_forall in H1. auto. }
  apply let_ok in H'. destruct H' as (r & Er & H'). apply seq_ok in H'. destruct H' as (H2 & _).
  apply assert_Ok in H2. destruct (walk_ts _ _ Er H2) as (t & O). exists t.
  inversion O; subst. econstructor; eassumption.
Qed.

(** every exception of validate on a typed tree is an InvalidFormulaError *)
Theorem formula_error n pk ps a f g e : typed_tree (VFormula n pk ps a f g) ->
  mval_validate (VFormula n pk ps a f g) = Raise e -> e = InvalidFormulaError.
Proof.
  intros T. destruct (walk_typed _ T) as (r & Er & _).
  cbn [mval_validate]. unfold formula_validate. rewrite (walk_strip n n _ ps ONone a ONone f g), Er.
  cbn [bind]. unfold assert_.
  destruct n; try (intros H; inversion H; reflexivity).
  destruct pk as [[]|]; try (intros H; inversion H; reflexivity);
  destruct (forallb is_formula_param ps), (snd r), (one_groupby (fst r)); cbn; intros H; inversion H; reflexivity.
Qed.

(** the setters *)
Lemma formula_set_parameters_iff n pk ps a f g k qs v :
  formula_set_parameters (VFormula n pk ps a f g) k qs = Ok v
  <-> (k = Some KNone /\ v = VFormula n (Some KNone) [] a f g)
      \/ (k = Some KList /\ Forall formula_param qs /\ v = VFormula n k qs a f g).
Proof.
  assert (forallb is_formula_param qs = true <-> Forall formula_param qs) as Fp.
  { rewrite forallb_forall, Forall_forall. split; intros H x I; apply is_formula_param_iff, H, I. }
  cbn. split.
  - destruct k as [[]|]; try discriminate.
    + intros H; inversion H; auto.
    + destruct (forallb is_formula_param qs) eqn:E; [|discriminate]. intros H; inversion H; subst.
      right. split; [reflexivity|]. split; [apply Fp; reflexivity|reflexivity].
  - intros [(-> & ->)|(-> & H & ->)]; [reflexivity|]. apply Fp in H. rewrite H. reflexivity.
Qed.
Lemma formula_set_filters_iff n pk ps a f g x v :
  formula_set_filters (VFormula n pk ps a f g) x = Ok v
  <-> (exists y, opt_list condition_obj x y) /\ v = VFormula n pk ps a x g.
Proof.
  cbn. rewrite <- (list_type_opt _ _ x is_condition_iff).
  destruct (is_none x || list_type x is_condition_obj)%bool; split; try discriminate.
  - intros H; inversion H; auto.
  - intros (_ & ->); reflexivity.
  - intros (H & _); discriminate.
Qed.
Lemma formula_set_groupby_iff n pk ps a f g x v :
  formula_set_groupby (VFormula n pk ps a f g) x = Ok v
  <-> (exists y, opt_list groupable x y) /\ v = VFormula n pk ps a f x.
Proof.
  cbn. rewrite <- (list_type_opt _ _ x is_groupable_iff).
  destruct (is_none x || list_type x is_groupable)%bool; split; try discriminate.
  - intros H; inversion H; auto.
  - intros (_ & ->); reflexivity.
  - intros (H & _); discriminate.
Qed.
End F.
