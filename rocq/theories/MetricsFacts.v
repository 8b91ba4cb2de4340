(** Proofs about Rollup, Metric, Timeseries, MetricsScope and Formula (C37-C39). *)
From Verif Require Import PyBase PyFacts DateTime Objects Exprs PyEqFacts Translate Query
  SpecExpr Metrics SpecMetrics.
Local Open Scope Z_scope.

(** * Comparing floats *)
Definition sgn (neg : bool) : Z := if neg then -1 else 1.

Lemma flt_num_shift neg m e b b' : b <= e -> b' <= b ->
  flt_num neg m e b' = flt_num neg m e b * 2 ^ (b - b').
Proof.
  intros H1 H2. unfold flt_num. replace (e - b') with ((e - b) + (b - b')) by lia.
  rewrite Z.pow_add_r by lia. ring.
Qed.
Lemma pow2_pos n : 0 <= n -> 0 < 2 ^ n.
Proof. intros. apply Z.pow_pos_nonneg; lia. Qed.

(** at any common base the scaled integers compare alike *)
Lemma fin_cmp_base n1 m1 e1 n2 m2 e2 b : b <= e1 -> b <= e2 ->
  fin_cmp n1 m1 e1 n2 m2 e2 = Z.compare (flt_num n1 m1 e1 b) (flt_num n2 m2 e2 b).
Proof.
  intros H1 H2. unfold fin_cmp. cbv zeta.
  rewrite (flt_num_shift n1 m1 e1 (Z.min e1 e2) b) by lia.
  rewrite (flt_num_shift n2 m2 e2 (Z.min e1 e2) b) by lia.
  rewrite <- Zmult_compare_compat_r; [reflexivity|]. apply Z.lt_gt, pow2_pos. lia.
Qed.

Lemma flt_eqb_fin n1 m1 e1 n2 m2 e2 b : b <= e1 -> b <= e2 ->
  flt_eqb (FFin n1 m1 e1) (FFin n2 m2 e2) = true
  <-> flt_num n1 m1 e1 b = flt_num n2 m2 e2 b.
Proof.
  intros H1 H2. cbn. rewrite (fin_cmp_base _ _ _ _ _ _ b H1 H2).
  rewrite <- Z.compare_eq_iff. destruct (Z.compare _ _); split; congruence.
Qed.

Lemma flt_eqb_trans a b c : flt_eqb a b = true -> flt_eqb b c = true -> flt_eqb a c = true.
Proof.
  destruct a as [|x|n1 m1 e1], b as [|y|n2 m2 e2], c as [|z|n3 m3 e3]; try discriminate.
  - cbn. destruct x, y, z; trivial; discriminate.
  - set (b := Z.min e1 (Z.min e2 e3)).
    rewrite !(flt_eqb_fin _ _ _ _ _ _ b) by lia. congruence.
Qed.

Lemma fin_cmp_Z z n m e :
  fin_cmp (z <? 0) (Z.abs_N z) 0 n m e
  = Z.compare (z * 2 ^ Z.max 0 (- e)) (sgn n * Z.of_N m * 2 ^ Z.max 0 e).
Proof.
  rewrite (fin_cmp_base _ _ _ _ _ _ (Z.min 0 e)) by lia. unfold flt_num, sgn.
  f_equal.
  - f_equal; [|f_equal; lia]. rewrite N2Z.inj_abs_N. destruct (Z.ltb_spec z 0); lia.
  - do 2 f_equal. lia.
Qed.

Lemma number_value_int o z : as_int o = Some z -> forall k, number_value o k <-> k = pyint_Z z.
Proof.
  intros H k. destruct o; try discriminate; cbn in H; inversion H; subst; cbn; split.
  - intros N. inversion N; subst. inversion H0; reflexivity.
  - intros ->. destruct b; apply nv_int; constructor.
  - intros N. inversion N; subst. inversion H0; reflexivity.
  - intros ->. apply nv_int; constructor.
Qed.

Lemma py_eq_int_iff g k : py_eq g (OInt k) = true <-> number_value g k.
Proof.
  split.
  - intros H. destruct g; try discriminate; cbn in H.
    + apply Z.eqb_eq in H. subst. destruct b; apply nv_int; constructor.
    + apply Z.eqb_eq in H. subst. apply nv_int; constructor.
    + destruct f as [| |n m e]; try discriminate. cbn in H. rewrite fin_cmp_Z in H.
      apply nv_float. apply Z.compare_eq_iff. fold (sgn n). destruct (Z.compare _ _); congruence.
  - intros N. destruct N as [o z I|n m e k E].
    + destruct I; cbn; auto. apply Z.eqb_refl.
    + cbn. rewrite fin_cmp_Z. fold (sgn n) in E. rewrite E, Z.compare_refl. reflexivity.
Qed.

Lemma int_lt_value n g k : number_value g k -> int_lt n g = Ok (n <? k).
Proof.
  intros N. destruct N as [o z I|s m e k E].
  - destruct I; reflexivity.
  - unfold int_lt. cbn [num_of]. unfold flt_of_Z. rewrite fin_cmp_Z. fold (sgn s) in E. rewrite <- E.
    rewrite <- Zmult_compare_compat_r by (apply Z.lt_gt, pow2_pos; lia).
    unfold Z.ltb. destruct (Z.compare n k); reflexivity.
Qed.

Lemma number_value_fun g k k' : number_value g k -> number_value g k' -> k = k'.
Proof.
  intros N N'. destruct N as [o z I|s m e k E].
  - destruct I; inversion N'; subst; inversion H; reflexivity.
  - inversion N'; subst; [inversion H|]. rewrite <- E in H3.
    apply Z.mul_reg_r in H3; [auto|]. pose proof (pow2_pos (Z.max 0 (- e))). lia.
Qed.

Lemma truthy_falsy o : truthy o = false <-> falsy o.
Proof.
  split.
  - intros H.
    destruct o as [|[]|z|[| |neg m e]|[]|[]| | |[]|[]|[] vs| | | | | | | | | | | | | | | | | | | | | | |];
      try discriminate H; cbn in H; try (constructor; fail); try (apply fa_zero, nv_int, iv_false).
    + apply negb_false_iff, Z.eqb_eq in H. subst. apply fa_zero, nv_int, iv_int.
    + apply negb_false_iff, N.eqb_eq in H. subst. apply fa_zero, nv_float. cbn.
      destruct neg; reflexivity.
  - intros H. destruct H as [|o N| | | | |]; try reflexivity.
    inversion N as [o' z I|s m e k E]; subst; [inversion I; reflexivity|].
    cbn. apply negb_false_iff, N.eqb_eq. fold (sgn s) in E.
    pose proof (pow2_pos (Z.max 0 e)). unfold sgn in E. destruct s; nia.
Qed.

(** * Rollup *)
Lemma as_int_value o i : as_int o = Some i -> int_value o (pyint_Z i).
Proof. destruct o; try discriminate; cbn; intros H; inversion H; subst; cbn; [destruct b|]; constructor. Qed.
Lemma as_int_obj o i : as_int o = Some i <-> int_obj o i.
Proof.
  split.
  - destruct o; try discriminate; cbn; intros H; inversion H; subst; reflexivity.
  - destruct i; cbn; intros ->; reflexivity.
Qed.
Lemma int_value_as o z : int_value o z -> exists i, as_int o = Some i /\ pyint_Z i = z.
Proof. intros H; destruct H; cbn; eauto. Qed.
Lemma obj_of_int_obj i : int_obj (obj_of_pyint i) i.
Proof. destruct i; reflexivity. Qed.
Lemma int_obj_eq o i : int_obj o i <-> o = obj_of_pyint i.
Proof. destruct i; cbn; tauto. Qed.

Section Facts.
Context {RT : PyRT}.

Definition gran_model (g : obj) : Prop := falsy g \/ granularity_allowed g.

Lemma gran_check g :
  (truthy g && negb (existsb (fun z => py_eq g (OInt z)) allowed_granularities))%bool = false
  <-> g = ONone \/ gran_model g.
Proof.
  rewrite andb_false_iff, negb_false_iff, truthy_falsy, existsb_exists.
  unfold gran_model, granularity_allowed, allowed_granularities.
  assert (forall k, py_eq g (OInt k) = true <-> number_value g k) as A by (intros; apply py_eq_int_iff).
  split.
  - intros [F|(k & I & E)]; [auto|]. right. right. exists k. rewrite <- A. auto.
  - intros [->|[F|(k & I & E)]]; [left; constructor|auto|]. right. exists k. rewrite A. auto.
Qed.

Lemma gran_int_lt n g : g = ONone \/ gran_model g ->
  (if is_none g then Ok tt
   else let! b := int_lt n g in if b then Raise InvalidExpressionError else Ok tt) = Ok tt
  <-> (g = ONone \/ exists k, number_value g k /\ k <= n).
Proof.
  intros G. destruct (is_none g) eqn:Nn.
  - destruct g; try discriminate. tauto.
  - assert (g <> ONone) by (intros ->; discriminate).
    split.
    + intros E. right.
      destruct (num_of g) eqn:En.
      * assert (exists k, number_value g k) as (k & K).
        { destruct G as [->|[F|(k & _ & K)]]; [congruence| |eauto].
          destruct F; try discriminate; eauto. }
        exists k. split; auto. rewrite (int_lt_value n g k K) in E. cbn in E.
        destruct (Z.ltb_spec n k); [discriminate|lia].
      * unfold int_lt in E. rewrite En in E. discriminate.
    + intros [->|(k & K & L)]; [congruence|]. rewrite (int_lt_value n g k K). cbn.
      destruct (Z.ltb_spec n k); [lia|reflexivity].
Qed.

Lemma if_raise_ok (b : bool) (e : exn) : (if b then Raise e else Ok tt) = Ok tt <-> b = false.
Proof. destruct b; split; congruence. Qed.
Lemma seq_ok {A} (r : result unit) (k : result A) a :
  (r ;! k) = Ok a <-> r = Ok tt /\ k = Ok a.
Proof. destruct r as [[]|e]; cbn; split; try tauto; try discriminate; intros [H _]; discriminate. Qed.
Lemma let_ok {A B} (r : result A) (k : A -> result B) b :
  (let! x := r in k x) = Ok b <-> exists x, r = Ok x /\ k x = Ok b.
Proof.
  destruct r as [x|e]; cbn; split; eauto; try discriminate; intros (y & H & H'); congruence.
Qed.

Lemma rollup_interval i g : g = ONone \/ gran_model g -> forall x,
  match i with
  | ONone => Ok None
  | _ => match as_int i with
         | None => Raise InvalidExpressionError
         | Some i =>
             validate_int_literal (pyint_Z i) (Some 10) None ;!
             (if is_none g then Ok tt
              else let! b := int_lt (pyint_Z i) g in
                   if b then Raise InvalidExpressionError else Ok tt) ;!
             Ok (Some i)
         end
  end = Ok x
  <-> opt_int i x /\ (i = ONone \/ exists n, int_value i n /\ 10 <= n
                   /\ (g = ONone \/ exists k, number_value g k /\ k <= n)).
Proof.
  intros G x. destruct (is_none i) eqn:Ni.
  - destruct i; try discriminate. split.
    + intros H; inversion H; subst. cbn. auto.
    + intros [H _]. destruct x as [[]|]; cbn in H; try discriminate. reflexivity.
  - assert (match i with
    | ONone => Ok None
    | _ => match as_int i with
         | None => Raise InvalidExpressionError
         | Some i =>
             validate_int_literal (pyint_Z i) (Some 10) None ;!
             (if is_none g then Ok tt
              else let! b := int_lt (pyint_Z i) g in
                   if b then Raise InvalidExpressionError else Ok tt) ;!
             Ok (Some i)
         end
     end = match as_int i with
         | None => Raise InvalidExpressionError
         | Some i =>
             validate_int_literal (pyint_Z i) (Some 10) None ;!
             (if is_none g then Ok tt
              else let! b := int_lt (pyint_Z i) g in
                   if b then Raise InvalidExpressionError else Ok tt) ;!
             Ok (Some i)
         end) as -> by (destruct i; try discriminate; reflexivity).
    destruct (as_int i) as [z|] eqn:Ei.
    + rewrite seq_ok, seq_ok, (gran_int_lt _ _ G). unfold validate_int_literal.
      assert ((if pyint_Z z <? 10 then Raise InvalidExpressionError
               else if false then Raise InvalidExpressionError else Ok tt) = Ok tt
              <-> 10 <= pyint_Z z) as ->.
      { destruct (Z.ltb_spec (pyint_Z z) 10); split; try discriminate; try lia; reflexivity. }
      split.
      * intros (L & K & E). inversion E; subst. split; [cbn; apply as_int_obj; exact Ei|].
        right. exists (pyint_Z z). split; [apply as_int_value; exact Ei|]. auto.
      * intros (O & [->|(n & V & L & K)]); [discriminate|].
        destruct (int_value_as _ _ V) as (z' & E & <-). rewrite Ei in E. inversion E; subst z'.
        split; [exact L|]. split; [exact K|].
        destruct x as [x|]; cbn in O; [|subst; discriminate].
        apply as_int_obj in O. congruence.
    + split; [discriminate|]. intros (O & _). destruct x as [x|]; cbn in O; [|subst; discriminate].
      apply as_int_obj in O. congruence.
Qed.

Definition rollup_is (r : rollup) (i t d g : obj) : Prop :=
  opt_int i (ro_interval r) /\ t = obj_of_opt OBool (ro_totals r)
  /\ d = obj_of_opt ODir (ro_orderby r) /\ g = ro_granularity r.

Theorem rollup_exact i t d g r :
  mk_rollup i t d g = Ok r <-> rollup_args gran_model i t d g /\ rollup_is r i t d g.
Proof.
  unfold mk_rollup. rewrite seq_ok, if_raise_ok, gran_check.
  split.
  - intros (G & H). apply let_ok in H. destruct H as (x & Hx & H).
    apply (rollup_interval i g G) in Hx. destruct Hx as (Ox & Ix).
    apply let_ok in H. destruct H as (y & Hy & H).
    assert (t = obj_of_opt OBool y) as Et by (destruct t; inversion Hy; reflexivity).
    apply seq_ok in H. destruct H as (H1 & H). apply let_ok in H. destruct H as (z & Hz & H).
    assert (d = obj_of_opt ODir z) as Ed by (destruct d; inversion Hz; reflexivity).
    apply seq_ok in H. destruct H as (H2 & H). inversion H; subst r; clear H.
    split; [|repeat split; assumption].
    split; [exact G|]. split; [exact Ix|].
    split; [destruct y; subst; cbn; eauto|]. split; [destruct z; subst; cbn; eauto|].
    split.
    + intros [-> ->]. destruct x as [[]|]; cbn in Ox; try discriminate.
      destruct y; cbn in Et; discriminate.
    + destruct x; cbn in Ox; [|auto]. destruct z; [discriminate|]. subst; cbn; auto.
  - intros ((G & I & T & D & NT & ND) & (Oi & Et & Ed & Eg)). split; [exact G|].
    apply let_ok. exists (ro_interval r). split; [apply (rollup_interval i g G); auto|].
    apply let_ok. exists (ro_totals r). split; [rewrite Et; destruct (ro_totals r); reflexivity|].
    apply seq_ok. split.
    { destruct (ro_interval r); [reflexivity|]. destruct (ro_totals r); [reflexivity|].
      exfalso. apply NT. split; [exact Oi|exact Et]. }
    apply let_ok. exists (ro_orderby r). split; [rewrite Ed; destruct (ro_orderby r); reflexivity|].
    apply seq_ok. split.
    { destruct (ro_interval r) as [[]|] eqn:E1, (ro_orderby r) eqn:E2; try reflexivity; exfalso;
        destruct ND as [ND|ND]; subst; cbn in *; congruence. }
    rewrite Eg. destruct r; reflexivity.
Qed.

(** * Metric *)
Lemma as_opt_str_iff o e x : as_opt_str o e = Ok x <-> opt_str o x.
Proof.
  destruct x; cbn; split; intros H.
  - destruct o; inversion H; reflexivity.
  - subst; reflexivity.
  - destruct o; inversion H; reflexivity.
  - subst; reflexivity.
Qed.
Lemma as_opt_int_iff o e x : as_opt_int o e = Ok x <-> opt_int o x.
Proof.
  destruct x as [i|]; cbn; split; intros H.
  - apply as_int_obj. destruct o; cbn in H; inversion H; reflexivity.
  - apply as_int_obj in H. destruct o; cbn in *; inversion H; reflexivity.
  - destruct o; cbn in H; inversion H; reflexivity.
  - subst; reflexivity.
Qed.

Definition metric_ok (m : metric) : Prop := m_public m <> None \/ m_mri m <> None.
Lemma metric_exact p q i m : mk_metric p q i = Ok m
  <-> opt_str p (m_public m) /\ opt_str q (m_mri m) /\ opt_int i (m_id m) /\ metric_ok m.
Proof.
  unfold mk_metric. rewrite let_ok. split.
  - intros (x & Hx & H). apply let_ok in H. destruct H as (y & Hy & H).
    apply let_ok in H. destruct H as (z & Hz & H). apply seq_ok in H. destruct H as (Ha & H).
    inversion H; subst; cbn. rewrite as_opt_str_iff in Hx, Hy. rewrite as_opt_int_iff in Hz.
    repeat split; auto. unfold metric_ok. cbn. apply assert_Ok in Ha.
    destruct x, y; try discriminate; [left|left|right]; discriminate.
  - intros (Hp & Hq & Hi & Hm). exists (m_public m). split; [apply as_opt_str_iff; exact Hp|].
    apply let_ok. exists (m_mri m). split; [apply as_opt_str_iff; exact Hq|].
    apply let_ok. exists (m_id m). split; [apply as_opt_int_iff; exact Hi|].
    apply seq_ok. split; [|destruct m; reflexivity]. apply assert_Ok.
    destruct Hm, (m_public m), (m_mri m); congruence.
Qed.
Lemma opt_str_of x : opt_str (obj_of_opt OStr x) x.
Proof. destruct x; reflexivity. Qed.
Lemma opt_int_of x : opt_int (obj_of_opt obj_of_pyint x) x.
Proof. destruct x; [apply obj_of_int_obj|reflexivity]. Qed.
Lemma metric_validate_iff m : metric_validate m = Ok tt <-> metric_ok m.
Proof.
  unfold metric_validate. rewrite let_ok. split.
  - intros (x & H & _). apply metric_exact in H. destruct H as (A & B & _ & C).
    unfold metric_ok in *. destruct (m_public m), (m_mri m), (m_public x), (m_mri x); cbn in *;
      destruct C; try congruence; try (left; discriminate); try (right; discriminate).
  - intros H. exists m. split; [|reflexivity]. apply metric_exact.
    auto using opt_str_of, opt_int_of.
Qed.

Lemma opt_str_fun o x y : opt_str o x -> opt_str o y -> x = y.
Proof. destruct x, y; cbn; congruence. Qed.
Lemma opt_int_fun o x y : opt_int o x -> opt_int o y -> x = y.
Proof. destruct x as [[]|], y as [[]|]; cbn; congruence. Qed.

Lemma set_mri_iff m v m' : metric_ok m -> set_mri m v = Ok m'
  <-> exists s, v = OStr s /\ m' = mkMetric (m_public m) (Some s) (m_id m).
Proof.
  intros Hm. unfold set_mri. split.
  - destruct v; try discriminate. intros H. apply metric_exact in H. destruct H as (A & B & C & _).
    exists s. split; [reflexivity|]. destruct m' as [p q i]; cbn in *. f_equal.
    + eapply opt_str_fun; [exact A|apply opt_str_of].
    + destruct q; cbn in B; congruence.
    + eapply opt_int_fun; [exact C|apply opt_int_of].
  - intros (s & -> & ->). apply metric_exact. cbn. repeat split; auto using opt_str_of, opt_int_of.
    right; discriminate.
Qed.
Lemma set_public_iff m v m' : metric_ok m -> set_public_name m v = Ok m'
  <-> exists s, v = OStr s /\ m' = mkMetric (Some s) (m_mri m) (m_id m).
Proof.
  intros Hm. unfold set_public_name. split.
  - destruct v; try discriminate. intros H. apply metric_exact in H. destruct H as (A & B & C & _).
    exists s. split; [reflexivity|]. destruct m' as [p q i]; cbn in *. f_equal.
    + destruct p; cbn in A; congruence.
    + eapply opt_str_fun; [exact B|apply opt_str_of].
    + eapply opt_int_fun; [exact C|apply opt_int_of].
  - intros (s & -> & ->). apply metric_exact. cbn. repeat split; auto using opt_str_of, opt_int_of.
    left; discriminate.
Qed.
Lemma set_id_iff m v m' : metric_ok m -> set_id m v = Ok m'
  <-> exists i, int_obj v i /\ m' = mkMetric (m_public m) (m_mri m) (Some i).
Proof.
  intros Hm. unfold set_id. split.
  - destruct (as_int v) as [i|] eqn:E; [|discriminate]. intros H. apply metric_exact in H.
    destruct H as (A & B & C & _). exists i. apply as_int_obj in E. split; [exact E|].
    destruct m' as [p q j]; cbn in *. f_equal.
    + eapply opt_str_fun; [exact A|apply opt_str_of].
    + eapply opt_str_fun; [exact B|apply opt_str_of].
    + eapply opt_int_fun; [exact C|exact E].
  - intros (i & E & ->). pose proof E as E'. apply as_int_obj in E'. rewrite E'.
    apply metric_exact. cbn. repeat split; auto using opt_str_of.
Qed.

(** * Timeseries *)
Lemma is_groupable_iff o : is_groupable o = true <-> groupable o.
Proof.
  split.
  - destruct o; try discriminate; intros _; [left|right]; eauto.
  - intros [(c & ->)|(c & a & ->)]; reflexivity.
Qed.
Lemma is_condition_iff o : is_condition_obj o = true <-> condition_obj o.
Proof.
  split.
  - destruct o; try discriminate; intros _; [left|right]; repeat eexists.
  - intros [(c & p & r & ->)|(c & p & k & r & ->)]; reflexivity.
Qed.
Lemma as_opt_list_iff f P o e x : (forall o, f o = true <-> P o) ->
  as_opt_list f o e = Ok x <-> opt_list P o x.
Proof.
  intros F. assert (forall l, forallb f l = true <-> Forall P l) as FF.
  { intros l. rewrite forallb_forall, Forall_forall. split; intros H y I; apply F, H, I. }
  destruct x; cbn; split; intros H.
  - destruct o; try discriminate. cbn in H. apply seq_ok in H. destruct H as (A & H).
    inversion H; subst. apply assert_Ok, FF in A. auto.
  - destruct H as (-> & H). cbn. apply FF in H. rewrite H. reflexivity.
  - destruct o; try discriminate; [reflexivity|]. cbn in H. apply seq_ok in H. destruct H; discriminate.
  - subst; reflexivity.
Qed.

Definition literal_obj (o : obj) : Prop := is_literal o = true.
Definition ts_ok (t : timeseries) : Prop :=
  metric_ok (ts_metric t)
  /\ (forall l, ts_params t = Some l -> Forall literal_obj l)
  /\ (forall l, ts_filters t = Some l -> Forall condition_obj l)
  /\ (forall l, ts_groupby t = Some l -> Forall groupable l).
Lemma ts_exact m a p f g t : mk_timeseries m a p f g = Ok t
  <-> m = VMetric (ts_metric t) /\ metric_ok (ts_metric t) /\ a = OStr (ts_agg t)
      /\ opt_list literal_obj p (ts_params t) /\ opt_list condition_obj f (ts_filters t)
      /\ opt_list groupable g (ts_groupby t).
Proof.
  unfold mk_timeseries. split.
  - destruct m as [|m| | | |]; try discriminate. intros H. apply seq_ok in H. destruct H as (Hm & H).
    apply metric_validate_iff in Hm. destruct a; try discriminate.
    apply let_ok in H. destruct H as (x & Hx & H). apply let_ok in H. destruct H as (y & Hy & H).
    apply let_ok in H. destruct H as (z & Hz & H). inversion H; subst; cbn.
    repeat split; auto.
    + eapply as_opt_list_iff; [|exact Hx]. reflexivity.
    + eapply as_opt_list_iff; [|exact Hy]. apply is_condition_iff.
    + eapply as_opt_list_iff; [|exact Hz]. apply is_groupable_iff.
  - intros (-> & Hm & -> & Hp & Hf & Hg). apply seq_ok.
    split; [apply metric_validate_iff; exact Hm|].
    apply let_ok. exists (ts_params t). split; [eapply as_opt_list_iff; [|exact Hp]; reflexivity|].
    apply let_ok. exists (ts_filters t). split; [eapply as_opt_list_iff; [|exact Hf]; apply is_condition_iff|].
    apply let_ok. exists (ts_groupby t). split; [eapply as_opt_list_iff; [|exact Hg]; apply is_groupable_iff|].
    destruct t; reflexivity.
Qed.
Lemma opt_list_of P x : opt_list P (obj_of_opt OList x) x <-> (forall l, x = Some l -> Forall P l).
Proof.
  destruct x; cbn.
  - split; [intros (_ & H) l' E; inversion E; subst; exact H|auto].
  - split; [discriminate|reflexivity].
Qed.
Lemma opt_list_fun P Q o x y : opt_list P o x -> opt_list Q o y -> x = y.
Proof. destruct x, y; cbn; intros; repeat match goal with H : _ /\ _ |- _ => destruct H end; congruence. Qed.
Lemma opt_list_back P x y : opt_list P (obj_of_opt OList y) x -> x = y.
Proof. destruct x, y; cbn; [intros [H _]|intros [H _]|intros H|intros H]; congruence. Qed.
Lemma ts_validate_iff t : ts_validate t = Ok tt <-> ts_ok t.
Proof.
  unfold ts_validate, ts_fields. rewrite let_ok. unfold ts_ok. rewrite <- !opt_list_of. split.
  - intros (x & H & _). apply ts_exact in H. destruct H as (Em & Hm & Ea & Hp & Hf & Hg).
    inversion Em as [Em']. rewrite Em'.
    rewrite (opt_list_back _ _ _ Hp) in Hp. rewrite (opt_list_back _ _ _ Hf) in Hf.
    rewrite (opt_list_back _ _ _ Hg) in Hg. auto.
  - intros (Hm & Hp & Hf & Hg). exists t. split; [|reflexivity]. apply ts_exact. auto 10.
Qed.

Lemma set_metric_iff t v t' : ts_ok t -> set_metric t v = Ok t'
  <-> exists m, v = VMetric m /\ metric_ok m
      /\ t' = mkTS m (ts_agg t) (ts_params t) (ts_filters t) (ts_groupby t).
Proof.
  intros (Hm & Hp & Hf & Hg). unfold set_metric, ts_fields. split.
  - destruct v; try discriminate. intros H. apply ts_exact in H. destruct H as (Em & A & Ea & B & C & D).
    inversion Em; subst. exists (ts_metric t'). split; [reflexivity|]. split; [exact A|].
    apply opt_list_back in B, C, D. destruct t'; cbn in *. inversion Ea. congruence.
  - intros (m & -> & A & ->). apply ts_exact. cbn. repeat split; auto; apply opt_list_of; assumption.
Qed.
Lemma set_aggregate_iff t a p t' : ts_ok t -> set_aggregate t a p = Ok t'
  <-> exists s ps, a = OStr s /\ opt_list literal_obj p ps
      /\ t' = mkTS (ts_metric t) s ps (ts_filters t) (ts_groupby t).
Proof.
  intros (Hm & Hp & Hf & Hg). unfold set_aggregate, ts_fields. split.
  - destruct a; try discriminate. intros H.
    assert (mk_timeseries (VMetric (ts_metric t)) (OStr s) p (obj_of_opt OList (ts_filters t))
       (obj_of_opt OList (ts_groupby t)) = Ok t') as H' by (destruct p; try discriminate H; exact H).
    apply ts_exact in H'. destruct H' as (Em & A & Ea & B & C & D).
    clear H. apply opt_list_back in C, D. inversion Em. inversion Ea; subst.
    exists (ts_agg t'), (ts_params t').
    split; [reflexivity|]. split; [exact B|]. destruct t'; cbn in *. congruence.
  - intros (s & ps & -> & A & ->).
    assert (mk_timeseries (VMetric (ts_metric t)) (OStr s) p (obj_of_opt OList (ts_filters t))
       (obj_of_opt OList (ts_groupby t))
       = Ok (mkTS (ts_metric t) s ps (ts_filters t) (ts_groupby t))) as H.
    { apply ts_exact. cbn. repeat split; auto; apply opt_list_of; assumption. }
    destruct ps; cbn in A; [destruct A as (-> & _)|subst p]; exact H.
Qed.
Lemma list_type_opt f P v : (forall o, f o = true <-> P o) ->
  (is_none v || list_type v f)%bool = true <-> exists x, opt_list P v x.
Proof.
  intros F. assert (forall l, forallb f l = true <-> Forall P l) as FF.
  { intros l. rewrite forallb_forall, Forall_forall. split; intros H y I; apply F, H, I. }
  split.
  - destruct v; try discriminate; cbn; intros H.
    + exists None. reflexivity.
    + exists (Some l). split; [reflexivity|]. apply FF, H.
  - intros ([l|] & H); cbn in H.
    + destruct H as (-> & H). cbn. apply FF, H.
    + subst; reflexivity.
Qed.
Lemma set_filters_iff t v t' : ts_ok t -> set_filters t v = Ok t'
  <-> exists x, opt_list condition_obj v x
      /\ t' = mkTS (ts_metric t) (ts_agg t) (ts_params t) x (ts_groupby t).
Proof.
  intros (Hm & Hp & Hf & Hg). unfold set_filters, ts_fields. split.
  - destruct (is_none v || list_type v is_condition_obj)%bool; [|discriminate].
    intros H. apply ts_exact in H. destruct H as (Em & A & Ea & B & C & D).
    inversion Em. inversion Ea. exists (ts_filters t'). split; [exact C|].
    apply opt_list_back in B, D. destruct t'; cbn in *. congruence.
  - intros (x & A & ->). rewrite (proj2 (list_type_opt _ _ v is_condition_iff) (ex_intro _ x A)).
    apply ts_exact. cbn. repeat split; auto; apply opt_list_of; assumption.
Qed.
Lemma set_groupby_iff t v t' : ts_ok t -> set_groupby t v = Ok t'
  <-> exists x, opt_list groupable v x
      /\ t' = mkTS (ts_metric t) (ts_agg t) (ts_params t) (ts_filters t) x.
Proof.
  intros (Hm & Hp & Hf & Hg). unfold set_groupby, ts_fields. split.
  - destruct (is_none v || list_type v is_groupable)%bool; [|discriminate].
    intros H. apply ts_exact in H. destruct H as (Em & A & Ea & B & C & D).
    inversion Em. inversion Ea. exists (ts_groupby t'). split; [exact D|].
    apply opt_list_back in B, C. destruct t'; cbn in *. congruence.
  - intros (x & A & ->). rewrite (proj2 (list_type_opt _ _ v is_groupable_iff) (ex_intro _ x A)).
    apply ts_exact. cbn. repeat split; auto; apply opt_list_of; assumption.
Qed.

(** * MetricsScope *)
Lemma all_ints_iff l r : all_ints l = Some r <-> Forall2 int_obj l r.
Proof.
  revert r. induction l as [|o l IH]; intros r; cbn.
  - split; [intros H; inversion H; constructor|intros H; inversion H; reflexivity].
  - split.
    + destruct (as_int o) as [i|] eqn:Ei; [|discriminate].
      destruct (all_ints l) as [r'|]; [|discriminate]. intros H; inversion H; subst.
      constructor; [apply as_int_obj; exact Ei|apply IH; reflexivity].
    + intros H. inversion H as [|? i ? r' Hi Hr]; subst. apply as_int_obj in Hi. rewrite Hi.
      apply IH in Hr. rewrite Hr. reflexivity.
Qed.
Lemma as_ints_iff o r : as_ints o = Ok r <-> int_list o r.
Proof.
  unfold int_list. split.
  - destruct o; try discriminate. cbn. destruct (all_ints l) eqn:E; [|discriminate].
    intros H; inversion H; subst. exists l. split; [reflexivity|]. apply all_ints_iff, E.
  - intros (os & -> & H). apply all_ints_iff in H. cbn. rewrite H. reflexivity.
Qed.
Lemma scope_exact a b c s : mk_scope a b c = Ok s
  <-> int_list a (ms_orgs s) /\ int_list b (ms_projects s) /\ opt_str c (ms_usecase s).
Proof.
  unfold mk_scope. split.
  - intros H. apply let_ok in H. destruct H as (x & Hx & H). apply let_ok in H. destruct H as (y & Hy & H).
    apply let_ok in H. destruct H as (z & Hz & H). inversion H; subst; cbn.
    rewrite as_ints_iff in Hx, Hy. rewrite as_opt_str_iff in Hz. auto.
  - intros (A & B & C). apply let_ok. exists (ms_orgs s). split; [apply as_ints_iff, A|].
    apply let_ok. exists (ms_projects s). split; [apply as_ints_iff, B|].
    apply let_ok. exists (ms_usecase s). split; [apply as_opt_str_iff, C|]. destruct s; reflexivity.
Qed.
Lemma ints_obj_list l : int_list (ints_obj l) l.
Proof.
  exists (map obj_of_pyint l). split; [reflexivity|].
  induction l; constructor; [apply obj_of_int_obj|assumption].
Qed.
Lemma int_list_fun o l l' : int_list o l -> int_list o l' -> l = l'.
Proof.
  intros H H'. apply as_ints_iff in H, H'. congruence.
Qed.
Lemma scope_validate_ok s : scope_validate s = Ok tt.
Proof.
  unfold scope_validate. rewrite let_ok. exists s. split; [|reflexivity].
  apply scope_exact. auto using ints_obj_list, opt_str_of.
Qed.
Lemma set_use_case_iff s v s' : set_use_case_id s v = Ok s'
  <-> exists u, v = OStr u /\ s' = mkScope (ms_orgs s) (ms_projects s) (Some u).
Proof.
  unfold set_use_case_id. split.
  - destruct v as [| | | |u| | | | | | | | | | | | | | | | | | | | | | | | | | | | |]; try discriminate.
    intros H. apply scope_exact in H. destruct H as (A & B & C).
    exists u. split; [reflexivity|]. apply (int_list_fun _ _ (ms_orgs s)) in A; [|apply ints_obj_list].
    apply (int_list_fun _ _ (ms_projects s)) in B; [|apply ints_obj_list].
    destruct s'; cbn in *. destruct ms_usecase; cbn in C; congruence.
  - intros (u & -> & ->). apply scope_exact. cbn. auto using ints_obj_list.
Qed.

(** a rollup that exists passes validate again *)
Lemma rollup_validate_iff r : rollup_validate r = Ok tt
  <-> exists i t d g, mk_rollup i t d g = Ok r.
Proof.
  unfold rollup_validate. rewrite let_ok. split.
  - intros (r' & H & _). assert (r' = r); [|subst; eauto].
    apply rollup_exact in H. destruct H as (_ & (A & B & C & D)).
    destruct r as [a b c g], r' as [a' b' c' g']; cbn in *.
    f_equal; [|destruct b, b'; cbn in B; congruence|destruct c, c'; cbn in C; congruence|congruence].
    symmetry. eapply opt_int_fun; [|exact A]. apply opt_int_of.
  - intros (i & t & d & g & H). exists r. split; [|reflexivity]. pose proof H as H'.
    apply rollup_exact in H'. destruct H' as (_ & (A & B & C & D)). subst.
    replace (obj_of_opt obj_of_pyint (ro_interval r)) with i; [exact H|].
    destruct (ro_interval r) as [[]|]; cbn in A |- *; congruence.
Qed.
End Facts.
