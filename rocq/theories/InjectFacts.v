(** Legacy bodies that differ in string values (C102) *)
From Verif Require Import PyBase PyFacts DateTime Objects Exprs SpecExpr SpecMetricsQuery Query Strptime Request Legacy SpecLegacy SpecKeys
  ExprFacts SpecQuery SpecBody SpecSnql SpecLogic SpecSwap EqValid SwapFacts QueryProps LegacyFacts LegacyProps BodyFacts KeyFacts SpecInject.

Section S.
Context {RT : PyRT} {CV : PyConv}.

Scheme operand_ind2 := Induction for operand Sort Prop with operands_ind2 := Induction for operands Sort Prop.
Combined Scheme operand_mut from operand_ind2, operands_ind2.
Scheme es_ind2 := Induction for exp_swap Sort Prop with ess_ind2 := Induction for exps_swap Sort Prop.
Combined Scheme es_mut from es_ind2, ess_ind2.

Lemma operand_scalar_mut (keep : Prop) flag : (keep -> flag = true) ->
  (forall l a b, operand keep l a b -> swap l (parse_scalar flag a) (parse_scalar flag b))
  /\ (forall l a b, operands keep l a b -> swaps l (map (parse_scalar flag) a) (map (parse_scalar flag) b)).
Proof.
  intros K. apply operand_mut; intros.
  - constructor.
  - cbn [parse_scalar]. destruct flag; [constructor; assumption|]. destruct o as [k|(-> & ->)]; [discriminate (K k)|constructor; assumption].
  - cbn [parse_scalar]. constructor. assumption.
  - cbn [parse_scalar]. constructor. assumption.
  - constructor.
  - cbn [map]. constructor; assumption.
Qed.
Lemma operand_scalar (keep : Prop) flag l a b : (keep -> flag = true) -> operand keep l a b -> swap l (parse_scalar flag a) (parse_scalar flag b).
Proof. intros K. apply operand_scalar_mut, K. Qed.

Lemma text_column_swap l a b : swap l a b -> is_text_column a = is_text_column b.
Proof. intros H. destruct H; reflexivity. Qed.
Lemma only_strings_swap l a b : swap l a b -> only_strings a = only_strings b.
Proof.
  intros H. destruct H as [o|s s' N|l a b H|l a b H|l1 l2 f n ik il il' pk pl pl' a H K|l k ids b b' H|l1 l2 x x' o y y' H K|l c o k a b H|l e e' d H]; try reflexivity.
  cbn [only_strings]. destruct f; [|reflexivity]. destruct K as [|k1 k2 x y a1 b1 X K]; [reflexivity|]. destruct K; [reflexivity|].
  rewrite (text_column_swap _ _ _ X). reflexivity.
Qed.
Lemma only_strings_text lhs : text_side lhs -> only_strings lhs = true.
Proof.
  assert (forall c, text_column c -> is_text_column c = true /\ exists x, c = OColumn x) as T.
  { intros c (x & -> & [E|E]); cbn; rewrite E; cbn [option_eqb]; rewrite ?str_eqb_refl, ?orb_true_r; split; eauto. }
  intros [H|(ik & il & pk & p & q & pl & a & -> & H)].
  - destruct (T _ H) as (E & x & ->). exact E.
  - destruct (T _ H) as (E & _). cbn [only_strings]. rewrite str_eqb_refl, E. reflexivity.
Qed.
Lemma null_test_iff b : is_null_test b = true <-> null_test b.
Proof.
  unfold null_test. destruct b; cbn [is_null_test]; try (split; [discriminate|intros [E|E]; discriminate E]).
  rewrite orb_true_iff, !str_eqb_eq. split; intros [E|E]; subst; auto; injection E as ->; auto.
Qed.
Lemma null_test_no b : ~ null_test b -> is_null_test b = false.
Proof. intros N. destruct (is_null_test b) eqn:E; [|reflexivity]. apply null_test_iff in E. contradiction. Qed.

Lemma mk_function_swap n l a b al (tup : bool) : swaps l a b ->
  rel (swap l) (mk_function (OStr n) (if tup then OTuple a else OList a) al) (mk_function (OStr n) (if tup then OTuple b else OList b) al).
Proof.
  intros H. unfold mk_function, mk_func. destruct (check_function_name (OStr n)) as [m|e]; [cbn [bind]|reflexivity].
  cbn [check_inits bind]. destruct (check_alias al InvalidFunctionError) as [x|e]; [cbn [bind]|reflexivity].
  destruct tup; cbn [check_params as_seq]; rewrite (swap_params_items _ _ _ H); destruct (check_param_items b); cbn [bind rel]; try reflexivity;
    apply (sw_func []); [constructor|exact H|constructor|exact H].
Qed.
Lemma condition_rest_swap lhs lhs' b l1 l2 r r' (keep : Prop) : swap l1 lhs lhs' -> (keep -> only_strings lhs = true) -> ~ null_test b -> operand keep l2 r r' ->
  rel (fun p p' => fst p = fst p' /\ swap l2 (snd p) (snd p')) (condition_rest lhs b (Ok r)) (condition_rest lhs' b (Ok r')).
Proof.
  intros H K N O. unfold condition_rest. rewrite (null_test_no _ N). cbn [bind]. destruct (op_of b); cbn [bind rel]; [|reflexivity].
  cbn [fst snd]. split; [reflexivity|]. rewrite <- (only_strings_swap _ _ _ H). eapply operand_scalar; eassumption.
Qed.
Lemma condition_rest_null lhs lhs' b r : null_test b -> condition_rest lhs b r = condition_rest lhs' b r
  /\ forall p, condition_rest lhs b r = Ok p -> snd p = ONone.
Proof.
  intros N. unfold condition_rest. rewrite (proj2 (null_test_iff b) N). cbn [bind]. split; [reflexivity|].
  destruct (op_of b); cbn [bind]; intros p E; [injection E as <-; reflexivity|discriminate].
Qed.
Lemma condition_function_swap l1 l2 lhs lhs' p p' : swap l1 lhs lhs' -> fst p = fst p' -> swap l2 (snd p) (snd p') ->
  rel (swap (l1 ++ l2)) (condition_function lhs p) (condition_function lhs' p').
Proof.
  intros H E K. unfold condition_function. rewrite E. destruct (op_function (fst p')); [|reflexivity].
  apply (mk_function_swap s (l1 ++ l2) [lhs; snd p] [lhs'; snd p'] ONone true).
  constructor; [exact H|]. rewrite <- (app_nil_r l2). constructor; [exact K|constructor].
Qed.

Lemma es_head l a a' : exp_swap l a a' -> is_str_tuple_list a = is_str_tuple_list a'.
Proof. intros H. destruct H; reflexivity. Qed.
Lemma triple_shape a o r : triple (OList [a; OStr o; r]) -> is_recognised_op (OStr o) = true /\ is_str_tuple_list a = true.
Proof.
  intros T. apply is_condition_yes in T. unfold is_condition in T. cbn [py_len index nth_error bind List.length Nat.eqb] in T.
  destruct (is_recognised_op (OStr o)); [|discriminate T]. injection T as T. auto.
Qed.
Lemma is_condition_three a o r : is_recognised_op (OStr o) = true -> is_condition (OList [a; OStr o; r]) = Ok (is_str_tuple_list a).
Proof. intros R. unfold is_condition. cbn [py_len index nth_error bind List.length Nat.eqb]. rewrite R. reflexivity. Qed.
Lemma parse_quoted s : parse_exp (in_quotes s) = Ok (OStr s).
Proof.
  unfold in_quotes. cbn [parse_exp app]. unfold parse_string_exp.
  assert (quoted 39 (39%N :: s ++ [39%N]) s) as Q by (left; reflexivity).
  assert (startswith [SQ] (39%N :: s ++ [39%N]) && endswith [SQ] (39%N :: s ++ [39%N]) = true) as -> by (apply quoted_iff; eauto).
  rewrite (quoted_inner _ _ _ Q). reflexivity.
Qed.
Lemma parse_call n b rest : parse_exp (OList (OStr n :: OList b :: rest)) =
  let! alias := legacy_alias rest in
  if endswith ($"()") n && negb (truthy (OList b)) then mk_function (OStr (strip is_paren n)) (OList []) alias
  else if negb (endswith ($")") n) && negb (truthy (OList b)) then mk_function (OStr n) (OList []) alias
  else let! xs := mapM parse_exp b in mk_function (OStr n) (OList xs) alias.
Proof.
  cbn [parse_exp]. rewrite exps_mapM.
  assert (is_condition (OList (OStr n :: OList b :: rest)) = Ok false) as ->.
  { unfold is_condition. cbn [py_len bind]. destruct (Nat.eqb _ 3); reflexivity. }
  cbn [bind]. destruct (legacy_alias rest); cbn [bind]; [|reflexivity].
  destruct (endswith ($"()") n && negb (truthy (OList b))); [reflexivity|]. destruct (negb (endswith ($")") n) && negb (truthy (OList b))); [reflexivity|].
  destruct (mapM parse_exp b); reflexivity.
Qed.
Lemma parse_triple a o r : triple (OList [a; OStr o; r]) -> parse_exp (OList [a; OStr o; r]) =
  let! lhs := parse_exp a in let! p := condition_rest lhs (OStr o) (Ok r) in condition_function lhs p.
Proof. intros T. cbn [parse_exp]. rewrite (proj2 (is_condition_yes _) T). reflexivity. Qed.
Lemma triple_swap l a a' o r r' : exp_swap l a a' -> triple (OList [a; OStr o; r]) -> triple (OList [a'; OStr o; r']).
Proof. intros H T. apply triple_shape in T as (R & S). apply is_condition_yes. rewrite (is_condition_three _ _ _ R), <- (es_head _ _ _ H), S. reflexivity. Qed.
Lemma text_keep a lhs : parse_exp a = Ok lhs -> text_exp a -> only_strings lhs = true.
Proof. intros P T. apply only_strings_text, T, (proj1 (parse_exp_sound a)), P. Qed.
Lemma exps_truthy l a b : exps_swap l a b -> truthy (OList a) = truthy (OList b).
Proof. intros H. destruct H; reflexivity. Qed.

Lemma parse_swap_mut : (forall l a b, exp_swap l a b -> rel (swap l) (parse_exp a) (parse_exp b))
  /\ (forall l a b, exps_swap l a b -> rel (swaps l) (mapM parse_exp a) (mapM parse_exp b)).
Proof.
  apply es_mut.
  - intros v. destruct (parse_exp v); cbn; [constructor|reflexivity].
  - intros s s' N. rewrite !parse_quoted. cbn. constructor. exact N.
  - intros l n a b rest H IH. rewrite !parse_call, <- (exps_truthy _ _ _ H). destruct (legacy_alias rest) as [al|e]; cbn [bind]; [|reflexivity].
    assert (truthy (OList a) = false -> l = []) as Z by (destruct H; [reflexivity|discriminate]).
    assert (forall r : result obj, truthy (OList a) = false -> rel (swap l) r r) as F.
    { intros r T. rewrite (Z T). destruct r; cbn; [constructor|reflexivity]. }
    destruct (truthy (OList a)) eqn:T; cbn [negb]; rewrite ?andb_false_r, ?andb_true_r.
    + eapply rel_bind; [exact IH|]. intros xs ys S. exact (mk_function_swap n l xs ys al false S).
    + destruct (endswith ($"()") n); [apply F; reflexivity|]. destruct (negb (endswith ($")") n)); [apply F; reflexivity|].
      eapply rel_bind; [exact IH|]. intros xs ys S. exact (mk_function_swap n l xs ys al false S).
  - intros l1 l2 a a' o r r' T N H IH O. rewrite (parse_triple _ _ _ T), (parse_triple _ _ _ (triple_swap _ _ _ _ _ r' H T)).
    destruct (parse_exp a) as [lhs|e] eqn:P, (parse_exp a') as [lhs'|e']; cbn [rel] in IH; try contradiction; [|subst; reflexivity].
    cbn [bind]. eapply rel_bind; [eapply condition_rest_swap; [exact IH|apply text_keep, P|exact N|exact O]|].
    intros p p' (E & S). apply condition_function_swap; assumption.
  - intros l a a' o r T N H IH. rewrite (parse_triple _ _ _ T), (parse_triple _ _ _ (triple_swap _ _ _ _ _ r H T)).
    eapply rel_bind; [exact IH|]. intros x y S. destruct (condition_rest_null x y (OStr o) (Ok r) N) as (E & V). rewrite <- E.
    destruct (condition_rest x (OStr o) (Ok r)) as [p|e]; [|reflexivity]. specialize (V p eq_refl). cbn [bind].
    rewrite <- (app_nil_r l). apply condition_function_swap; [exact S|reflexivity|constructor].
  - constructor.
  - intros l1 l2 x y a b H IH K IK. cbn [mapM]. eapply rel_bind; [exact IH|]. intros u v U. eapply rel_bind; [exact IK|]. intros us vs W.
    cbn. constructor; assumption.
Qed.
Definition parse_swap := proj1 parse_swap_mut.
Definition parses_swap := proj2 parse_swap_mut.

(** ** Conditions *)
Lemma mk_condition_swap l1 l2 x x' o y y' : swap l1 x x' -> swap l2 y y' ->
  rel (swap (l1 ++ l2)) (mk_condition x (OOp o) y) (mk_condition x' (OOp o) y').
Proof.
  intros H K. unfold mk_condition. destruct (swap_kind _ _ _ H) as (_ & _ & _ & _ & _ & -> & _). destruct (negb (is_col_or_func x')); [reflexivity|].
  pose proof (swap_revalidate _ _ _ (sw_cond l1 l2 x x' o y y' H K)) as R. cbn [revalidate] in R. rewrite R.
  destruct (check_condition x' o y'); cbn [bind rel]; [|reflexivity]. constructor; assumption.
Qed.
Lemma index_seq c l i : list_or_tuple c l -> index c i = index (OList l) i.
Proof. intros H. inversion H; reflexivity. Qed.
Lemma cond_parse_swap (L : list (str * str) -> obj -> obj -> Prop) l c c' : (forall m a b, L m a b -> exp_swap m a b) -> cond_swap L l c c' ->
  rel (fun x y => swap l x y /\ ((forall m a b, L m a b -> same_side m a b) -> same_left x y)) (parse_condition c) (parse_condition c').
Proof.
  intros HL H. unfold parse_condition. destruct H as [l1 l2 c c' a a' b r r' C C' N La O|l c c' a a' b r C C' N La];
    rewrite !(fun i => index_seq _ _ i C), !(fun i => index_seq _ _ i C'); cbn [index nth_error bind];
    pose proof (parse_swap _ _ _ (HL _ _ _ La)) as P.
  - destruct (parse_exp a) as [lhs|e] eqn:Pa, (parse_exp a') as [lhs'|e'] eqn:Pa'; cbn [rel] in P; try contradiction; [|subst; reflexivity].
    cbn [bind]. eapply rel_bind; [eapply condition_rest_swap; [exact P|apply text_keep, Pa|exact N|exact O]|].
    intros p p' (E & S). rewrite <- E. pose proof (mk_condition_swap _ _ _ _ (fst p) _ _ P S) as M.
    destruct (mk_condition lhs (OOp (fst p)) (snd p)) as [u|e] eqn:Mu, (mk_condition lhs' (OOp (fst p)) (snd p')) as [v|e'] eqn:Mv; cbn [rel] in M |- *; try contradiction; [|exact M].
    split; [exact M|]. intros Same. apply Same in La as (_ & ->). assert (lhs' = lhs) as -> by congruence.
    unfold mk_condition in Mu, Mv. destruct (negb (is_col_or_func lhs)); [discriminate|].
    destruct (check_condition lhs (fst p) (snd p)); [|discriminate Mu]. destruct (check_condition lhs (fst p) (snd p')); [|discriminate Mv].
    cbn [bind] in Mu, Mv. injection Mu as <-. injection Mv as <-. constructor.
  - destruct (parse_exp a) as [lhs|e] eqn:Pa, (parse_exp a') as [lhs'|e'] eqn:Pa'; cbn [rel] in P; try contradiction; [|subst; reflexivity].
    cbn [bind]. destruct (condition_rest_null lhs lhs' b (Ok r) N) as (E & V). rewrite <- E. clear E.
    destruct (condition_rest lhs b (Ok r)) as [p|e]; [|reflexivity]. cbn [bind].
    pose proof (mk_condition_swap l [] _ _ (fst p) _ _ P (sw_same (snd p))) as M. rewrite app_nil_r in M.
    destruct (mk_condition lhs (OOp (fst p)) (snd p)) as [u|e] eqn:Mu, (mk_condition lhs' (OOp (fst p)) (snd p)) as [v|e'] eqn:Mv; cbn [rel] in M |- *; try contradiction; [|exact M].
    split; [exact M|]. intros Same. apply Same in La as (_ & ->). assert (lhs' = lhs) as -> by congruence.
    unfold mk_condition in Mu, Mv. destruct (negb (is_col_or_func lhs)); [discriminate|].
    destruct (check_condition lhs (fst p) (snd p)); [|discriminate Mu]. cbn [bind] in Mu, Mv. injection Mu as <-. injection Mv as <-. constructor.
Qed.

Definition Rel := list (str * str) -> obj -> obj -> Prop.
Definition fixed (L : Rel) : Prop := forall m a b, L m a b -> same_side m a b.
Lemma parse_condition_form c x : parse_condition c = Ok x -> same_left x x.
Proof.
  unfold parse_condition. destruct (index c 0) as [o|]; [|discriminate]. cbn [bind]. destruct (parse_exp o) as [lhs|]; [|discriminate]. cbn [bind].
  destruct (index c 1) as [b|]; [|discriminate]. cbn [bind]. destruct (condition_rest lhs b (index c 2)) as [p|]; [|discriminate]. cbn [bind].
  unfold mk_condition. destruct (negb _); [discriminate|]. destruct (check_condition _ _ _); [|discriminate]. cbn [bind]. intros E. injection E as <-. constructor.
Qed.
Lemma parse_conditions_form l xs : mapM parse_condition l = Ok xs -> Forall2 same_left xs xs.
Proof.
  revert xs. induction l as [|c l IH]; intros xs E; cbn [mapM] in E; [injection E as <-; constructor|].
  destruct (parse_condition c) eqn:P; [|discriminate]. cbn [bind] in E. destruct (mapM parse_condition l); [|discriminate]. injection E as <-.
  constructor; [eapply parse_condition_form, P|auto].
Qed.
Lemma mk_or_swap l a b : swaps l a b -> rel (fun x y => swap l x y /\ (Forall2 same_left a b -> same_left x y)) (mk_or (OList a)) (mk_or (OList b)).
Proof.
  intros H. unfold mk_or, mk_boolean. cbn [as_list_or_tuple].
  pose proof (swap_revalidate _ _ _ (sw_bool l BOr OR KList a b H)) as R. cbn [revalidate] in R. rewrite R.
  destruct (check_bool_items b); [|reflexivity]. cbn [bind rel]. split; [constructor; exact H|intros F; constructor; exact F].
Qed.
Lemma convert_where_form c xs : convert_where c = Ok xs -> Forall2 same_left xs xs.
Proof.
  unfold convert_where. destruct (is_condition c) as [[]|]; [| |discriminate]; cbn [bind].
  - destruct (parse_condition c) eqn:P; [|discriminate]. cbn [bind]. intros E. injection E as <-. constructor; [eapply parse_condition_form, P|constructor].
  - destruct (iter c) as [l|]; [|discriminate]. cbn [bind]. destruct (mapM parse_condition l) as [cs|] eqn:P; [|discriminate]. cbn [bind].
    apply parse_conditions_form in P. destruct cs as [|x [|y cs]]; try (intros E; injection E as <-; exact P).
    unfold mk_or, mk_boolean. cbn [as_list_or_tuple]. destruct (check_bool_items _); [|discriminate]. cbn [bind]. intros E. injection E as <-.
    constructor; [|constructor]. constructor. exact P.
Qed.
Lemma conds_parse_swap (L : Rel) l a b : (forall m x y, L m x y -> exp_swap m x y) -> conds_swap L l a b ->
  rel (fun xs ys => swaps l xs ys /\ (fixed L -> Forall2 same_left xs ys)) (mapM parse_condition a) (mapM parse_condition b).
Proof.
  intros HL H. induction H as [|l1 l2 x y a b H K IH]; cbn [mapM].
  - cbn. split; constructor.
  - eapply rel_bind; [exact (cond_parse_swap L _ _ _ HL H)|]. intros u v (U & U'). eapply rel_bind; [exact IH|]. intros us vs (V & V').
    cbn. split; [constructor; assumption|]. intros F. constructor; [apply U', F|apply V', F].
Qed.
Lemma conds_seq L l a b : conds_swap L l a b -> Forall (fun c => exists y, list_or_tuple c y) a /\ Forall (fun c => exists y, list_or_tuple c y) b.
Proof.
  induction 1 as [|l1 l2 x y a b H K (I & J)]; [split; constructor|]. destruct H; split; constructor; eauto.
Qed.
Lemma seq_not x l : list_or_tuple x l -> Forall (fun c => exists y, list_or_tuple c y) l -> is_condition x = Ok false.
Proof.
  intros L H. unfold is_condition. assert (py_len x = Ok (List.length l)) as -> by now inversion L. cbn [bind].
  destruct (Nat.eqb (List.length l) 3) eqn:N; [|reflexivity]. apply Nat.eqb_eq in N.
  destruct l as [|a [|b [|c [|d l]]]]; try discriminate N. assert (index x 1 = Ok b) as -> by now inversion L. cbn [bind].
  inversion H as [|? ? _ H1]. inversion H1 as [|? ? (y & Y) _]. now inversion Y.
Qed.
Lemma cond_is_swap (L : Rel) l c c' : (forall m x y, L m x y -> exp_swap m x y) -> cond_swap L l c c' -> is_condition c = is_condition c'.
Proof.
  intros HL H. destruct H as [l1 l2 c c' a a' b r r' C C' N La O|l c c' a a' b r C C' N La]; pose proof (es_head _ _ _ (HL _ _ _ La)) as E;
    inversion C; inversion C'; subst; unfold is_condition; cbn [py_len bind List.length Nat.eqb index nth_error]; rewrite E; reflexivity.
Qed.
Lemma seq_iter x l : list_or_tuple x l -> iter x = Ok l.
Proof. intros H. now inversion H. Qed.
Definition where_rel (L : Rel) l xs ys := swaps l xs ys /\ (fixed L -> Forall2 same_left xs ys).
Lemma filter_where_swap (L : Rel) l c c' : (forall m x y, L m x y -> exp_swap m x y) -> filter_swap L l c c' ->
  rel (where_rel L l) (convert_where c) (convert_where c').
Proof.
  intros HL H. destruct H as [c|l c c' T H|l v v' a b V V' H].
  - destruct (convert_where c) as [xs|e] eqn:E; [|reflexivity]. split; [apply swaps_refl|]. intros _. eapply convert_where_form, E.
  - unfold convert_where. rewrite <- (cond_is_swap _ _ _ _ HL H), (proj2 (is_condition_yes c) T). cbn [bind].
    eapply rel_bind; [exact (cond_parse_swap L _ _ _ HL H)|]. intros x y (S & F). split; [apply swaps_one, S|]. intros K. constructor; [apply F, K|constructor].
  - unfold convert_where. destruct (conds_seq _ _ _ _ H) as (A & B). rewrite (seq_not _ _ V A), (seq_not _ _ V' B), (seq_iter _ _ V), (seq_iter _ _ V').
    cbn [bind]. eapply rel_bind; [exact (conds_parse_swap L _ _ _ HL H)|]. intros xs ys (S & F).
    assert (rel (where_rel L l) (let! o := mk_or (OList xs) in Ok [o]) (let! o := mk_or (OList ys) in Ok [o])) as M.
    { eapply rel_bind; [exact (mk_or_swap _ _ _ S)|]. intros x y (U & U'). split; [apply swaps_one, U|]. intros K. constructor; [apply U', F, K|constructor]. }
    assert (where_rel L l xs ys) as W by (split; assumption).
    destruct S as [|k1 k2 x y xs ys S S2]; [exact W|]. destruct S2; [exact W|exact M].
Qed.
Lemma filter_having_swap (L : Rel) l c c' : (forall m x y, L m x y -> exp_swap m x y) -> filter_swap L l c c' ->
  rel (swap l) (convert_having c) (convert_having c').
Proof.
  intros HL H. destruct H as [c|l c c' T H|l v v' a b V V' H].
  - destruct (convert_having c) as [x|e]; [constructor|reflexivity].
  - unfold convert_having. rewrite <- (cond_is_swap _ _ _ _ HL H), (proj2 (is_condition_yes c) T). cbn [bind].
    pose proof (cond_parse_swap L _ _ _ HL H) as P. destruct (parse_condition c), (parse_condition c'); cbn [rel] in *; try contradiction; [apply P|exact P].
  - unfold convert_having. destruct (conds_seq _ _ _ _ H) as (A & B). rewrite (seq_not _ _ V A), (seq_not _ _ V' B), (seq_iter _ _ V), (seq_iter _ _ V').
    cbn [bind]. eapply rel_bind; [exact (conds_parse_swap L _ _ _ HL H)|]. intros xs ys (S & F).
    pose proof (mk_or_swap _ _ _ S) as P. destruct (mk_or (OList xs)), (mk_or (OList ys)); cbn [rel] in *; try contradiction; [apply P|exact P].
Qed.
Lemma filters_where_swap (L : Rel) l a b : (forall m x y, L m x y -> exp_swap m x y) -> filters_swap L l a b ->
  rel (fun xs ys => where_rel L l (List.concat xs) (List.concat ys)) (mapM convert_where a) (mapM convert_where b).
Proof.
  intros HL H. induction H as [|l1 l2 x y a b H K IH]; cbn [mapM].
  - cbn. split; constructor.
  - eapply rel_bind; [exact (filter_where_swap L _ _ _ HL H)|]. intros u v (U & U'). eapply rel_bind; [exact IH|]. intros us vs (V & V').
    cbn. split; [apply swaps_app; assumption|]. intros F. apply Forall2_app; [apply U', F|apply V', F].
Qed.
Lemma filters_having_swap (L : Rel) l a b : (forall m x y, L m x y -> exp_swap m x y) -> filters_swap L l a b ->
  rel (swaps l) (mapM convert_having a) (mapM convert_having b).
Proof.
  intros HL H. induction H as [|l1 l2 x y a b H K IH]; cbn [mapM].
  - cbn. constructor.
  - eapply rel_bind; [exact (filter_having_swap L _ _ _ HL H)|]. intros u v U. eapply rel_bind; [exact IH|]. intros us vs V.
    cbn. constructor; assumption.
Qed.

(** ** The other keys *)
Lemma swaps_self (r : result (list obj)) : rel (swaps []) r r.
Proof. destruct r; cbn; [apply swaps_refl|reflexivity]. Qed.
Lemma aggs_swap l v v' : value_swap lists_swap l v v' -> rel (swaps l) (convert_aggregations v) (convert_aggregations v').
Proof.
  intros [(-> & ->)|(a & b & -> & -> & H & F)]; [apply swaps_self|]. unfold convert_aggregations. cbn [iter bind].
  induction H as [|l1 l2 x y a b H K IH]; cbn [mapM]; [cbn; constructor|]. inversion F as [|? ? (u & ->) F']; subst.
  assert (exists w, y = OList w) as (w & ->) by (inversion H; subst; eauto). cbn [iter bind].
  eapply rel_bind; [exact (parse_swap _ _ _ H)|]. intros x y X. eapply rel_bind; [exact (IH F')|]. intros xs ys Y. cbn. constructor; assumption.
Qed.
Lemma es_tuple l x y : exp_swap l x y -> exp_swap l (tuple_to_list x) (tuple_to_list y).
Proof. intros H. destruct H; cbn [tuple_to_list]; econstructor; eassumption. Qed.
Lemma tuples_swap l a b : exps_swap l a b -> rel (swaps l) (mapM (fun s => parse_exp (tuple_to_list s)) a) (mapM (fun s => parse_exp (tuple_to_list s)) b).
Proof.
  induction 1 as [|l1 l2 x y a b H K IH]; cbn [mapM]; [cbn; constructor|].
  eapply rel_bind; [exact (parse_swap _ _ _ (es_tuple _ _ _ H))|]. intros u v X. eapply rel_bind; [exact IH|]. intros xs ys Y. cbn. constructor; assumption.
Qed.
Lemma sel_swap l v v' : value_swap exps_swap l v v' -> rel (swaps l) (convert_selected v) (convert_selected v').
Proof. intros [(-> & ->)|(a & b & -> & -> & H)]; [apply swaps_self|]. exact (tuples_swap _ _ _ H). Qed.
Lemma gb_swap l v v' : value_swap exps_swap l v v' -> rel (swaps l) (convert_groupby v) (convert_groupby v').
Proof. intros [(-> & ->)|(a & b & -> & -> & H)]; [apply swaps_self|]. exact (tuples_swap _ _ _ H). Qed.

Lemma orderby_plain a p : a <> [] -> (forall s r, a = OStr s :: r -> no_minus s) -> orderby_item (OList a) p = (OList a, ASC, parse_exp (OList a)).
Proof.
  intros N M. destruct a as [|x a]; [contradiction|]. unfold orderby_item. destruct x; try reflexivity.
  rewrite (proj2 (no_minus_iff s) (M _ _ eq_refl)). reflexivity.
Qed.
Lemma asc_other l a b : exp_swap l (OList a) (OList b) -> (forall s r, a = OStr s :: r -> no_minus s) -> forall s r, b = OStr s :: r -> no_minus s.
Proof.
  intros H M s r ->. inversion H; subst; try (eapply M; reflexivity).
  - match goal with X : exp_swap _ ?a (OStr s) |- _ => inversion X; subst end; [eapply M; reflexivity|].
    intros t E. discriminate E.
  - match goal with X : exp_swap _ ?a (OStr s) |- _ => inversion X; subst end; [eapply M; reflexivity|].
    intros t E. discriminate E.
Qed.
Lemma order_item_swap l x y p p' : order_swap l x y ->
  let '(_, d, r) := orderby_item x p in let '(_, d', r') := orderby_item y p' in d = d' /\ rel (swap l) r r'.
Proof.
  intros H. destruct H as [v R|l a b M H|l s s0 a b M H].
  - assert (orderby_item v p = orderby_item v p') as E by (destruct R as [(s & ->)|(a & ->)]; reflexivity). rewrite E.
    destruct (orderby_item v p') as ((o & d) & r). split; [reflexivity|]. destruct r; cbn; [constructor|reflexivity].
  - destruct a as [|x a].
    + inversion H; subst. cbn. split; reflexivity.
    + assert (b <> []) as B by (intros ->; inversion H). rewrite (orderby_plain (x :: a) p) by (discriminate || exact M).
      rewrite (orderby_plain b p' B (asc_other _ _ _ H M)). split; [reflexivity|]. exact (parse_swap _ _ _ H).
  - apply minus_signs_iff in M as (S & ->). unfold orderby_item. rewrite S. split; [reflexivity|]. exact (parse_swap _ _ _ H).
Qed.
Lemma mk_orderby_swap l x y d : swap l x y -> rel (swap l) (mk_orderby x (ODir d)) (mk_orderby y (ODir d)).
Proof.
  intros H. unfold mk_orderby. destruct (swap_kind _ _ _ H) as (_ & _ & _ & _ & _ & -> & _). destruct (negb _); [reflexivity|]. cbn. constructor. exact H.
Qed.
Lemma orders_parse_swap l a b : orders_swap l a b -> forall p p', rel (swaps l) (snd (convert_orderby a p)) (snd (convert_orderby b p')).
Proof.
  induction 1 as [|l1 l2 x y a b H K IH]; intros p p'; cbn [convert_orderby]; [cbn; constructor|].
  pose proof (order_item_swap _ _ _ p p' H) as I. destruct (orderby_item x p) as ((o & d) & r), (orderby_item y p') as ((o' & d') & r').
  destruct I as (<- & I). destruct r as [u|e], r' as [u'|e']; cbn [rel] in I; try contradiction; [|exact I].
  pose proof (mk_orderby_swap _ _ _ d I) as M. destruct (mk_orderby u (ODir d)) as [w|e], (mk_orderby u' (ODir d)) as [w'|e']; cbn [rel] in M; try contradiction; [|exact M].
  specialize (IH (Some u) (Some u')). destruct (convert_orderby a (Some u)) as (? & rs), (convert_orderby b (Some u')) as (? & rs'). cbn [snd] in *.
  eapply rel_bind; [exact IH|]. intros xs ys X. cbn. constructor; assumption.
Qed.

(** ** The query *)
Definition same_where (c c' : clauses) : Prop := forall a b, list_or_tuple (get CWhere c) a -> list_or_tuple (get CWhere c') b -> Forall2 same_left a b.
Definition qrel (S : Prop) (f : clause -> list (str * str)) (q q' : query) : Prop :=
  exists b c c', q = QBase b c /\ q' = QBase b c' /\ (forall k, swap (f k) (get k c) (get k c')) /\ (S -> same_where c c').
Definition put (k : clause) (l : list (str * str)) (f : clause -> list (str * str)) (x : clause) : list (str * str) :=
  match k, x with
  | CSelect, CSelect | CGroupby, CGroupby | CArrayJoin, CArrayJoin | CWhere, CWhere | CHaving, CHaving | COrderby, COrderby
  | CLimitby, CLimitby | CLimit, CLimit | COffset, COffset | CGranularity, CGranularity | CTotals, CTotals => l
  | _, _ => f x
  end.
Lemma swaps_forall_kind f l a b : (forall m x y, swap m x y -> f x = f y) -> swaps l a b -> forallb f a = forallb f b.
Proof. intros F H. induction H as [|l1 l2 x y a b H K IH]; [reflexivity|]. cbn [forallb]. now rewrite (F _ _ _ H), IH. Qed.
Lemma list_type_swap f l a b : (forall m x y, swap m x y -> f x = f y) -> swap l a b -> list_type a f = list_type b f.
Proof. intros F H. destruct H; try reflexivity. cbn [list_type]. eapply swaps_forall_kind; eassumption. Qed.
Lemma setter_swap k l v v' : swaps l v v' -> is_list_clause k = true -> rel (fun x y => x = OList v /\ y = OList v') (setter_value k (OList v)) (setter_value k (OList v')).
Proof.
  intros H K.
  assert (forall f, (forall m x y, swap m x y -> f x = f y) -> list_type (OList v) f = list_type (OList v') f) as E.
  { intros f F. eapply list_type_swap; [exact F|]. constructor. exact H. }
  assert (truthy (OList v) = truthy (OList v')) as T by (destruct H; reflexivity).
  pose proof (E is_selectable ltac:(intros m x y S; destruct S; reflexivity)) as E1.
  pose proof (E is_column_obj ltac:(intros m x y S; destruct S; reflexivity)) as E2.
  pose proof (E is_condition_obj ltac:(intros m x y S; destruct S; reflexivity)) as E3.
  pose proof (E is_orderby_obj ltac:(intros m x y S; destruct S; reflexivity)) as E4.
  destruct k; try discriminate K; cbn [setter_value]; rewrite ?T, ?E1, ?E2, ?E3, ?E4; destruct (assert_ _ _); cbn; auto.
Qed.
Lemma set_list_swap S f q q' k l v v' : qrel S f q q' -> swaps l v v' -> is_list_clause k = true ->
  (k = CWhere -> S -> Forall2 same_left v v') -> rel (qrel S (put k l f)) (set_clause k q (OList v)) (set_clause k q' (OList v')).
Proof.
  intros (b & c & c' & -> & -> & G & W) H K F. unfold set_clause. eapply rel_bind; [exact (setter_swap k l v v' H K)|]. intros x y (-> & ->).
  cbn. exists b, (upd k (OList v) c), (upd k (OList v') c'). split; [reflexivity|]. split; [reflexivity|]. split.
  - intros j. specialize (G j). destruct c, c'. destruct k, j; first [exact G|exact (sw_list _ _ _ H)].
  - intros s. specialize (W s). destruct c, c'. destruct k; try exact W. intros x y X Y. cbn in X, Y. inversion X; inversion Y; subst. apply F; auto.
Qed.
Lemma set_same_swap S f q q' k v : qrel S f q q' -> k <> CWhere -> rel (qrel S (put k [] f)) (set_clause k q v) (set_clause k q' v).
Proof.
  intros (b & c & c' & -> & -> & G & W) K. unfold set_clause. destruct (setter_value k v) as [x|e]; [cbn [bind]|reflexivity].
  cbn. exists b, (upd k x c), (upd k x c'). split; [reflexivity|]. split; [reflexivity|]. split.
  - intros j. specialize (G j). destruct c, c'. destruct k, j; first [exact G|constructor].
  - intros s. specialize (W s). destruct c, c'. destruct k; try exact W. contradiction.
Qed.
Lemma put_id S f q q' k : qrel S f q q' -> f k = [] -> qrel S (put k [] f) q q'.
Proof. intros (b & c & c' & -> & -> & G & W) E. exists b, c, c'. repeat split; auto. intros j. destruct k, j; cbn [put]; rewrite <- ?E; apply G. Qed.

(** ** Bodies *)
Lemma get_swap_at R l b b' k d : is_dict b -> is_dict b' -> swap_at R l b b' k -> value_swap R l (body_get b k d) (body_get b' k d).
Proof.
  intros (ks & vs & ->) (ks' & vs' & ->) [(v & v' & A & B & E)|(-> & A & B)].
  - rewrite (proj2 (body_get_iff ks vs k d v) (or_introl A)), (proj2 (body_get_iff ks' vs' k d v') (or_introl B)). exact E.
  - rewrite (proj2 (body_get_iff ks vs k d d) (or_intror (conj A eq_refl))), (proj2 (body_get_iff ks' vs' k d d) (or_intror (conj B eq_refl))). left. auto.
Qed.
Lemma mk_condition_form x o y c : mk_condition x o y = Ok c -> Forall2 same_left [c] [c].
Proof.
  unfold mk_condition. destruct (negb _); [discriminate|]. destruct o; try discriminate. destruct (check_condition _ _ _); [|discriminate]. cbn [bind].
  intros E. injection E as <-. repeat constructor.
Qed.
Lemma extension_form b k col i l : extension b k col i = Ok l -> Forall2 same_left l l.
Proof.
  unfold extension. destruct (truthy _); [|intros E; injection E as <-; constructor]. unfold parse_extension.
  destruct (mk_column _ _) as [c|]; [cbn [bind]|discriminate].
  destruct (body_get b k ONone); try (intros E; injection E as <-; constructor);
    repeat match goal with |- context [if i then _ else _] => destruct i | |- context [mk_condition ?x ?o ?y] => destruct (mk_condition x o y) eqn:M end;
    cbn [bind]; try discriminate; intros E; injection E as <-; eapply mk_condition_form, M.
Qed.
Lemma time_form b col k o l : time_bound b col k o = Ok l -> Forall2 same_left l l.
Proof.
  unfold time_bound. destruct (truthy _); [|intros E; injection E as <-; constructor]. destruct (mk_column _ _) as [c|]; [cbn [bind]|discriminate].
  destruct (date_value _); [cbn [bind]|discriminate]. destruct (mk_condition _ _ _) eqn:M; [cbn [bind]|discriminate]. intros E. injection E as <-. eapply mk_condition_form, M.
Qed.
Lemma extensions_form b n l : extensions b n = Ok l -> Forall2 same_left l l.
Proof.
  unfold extensions. destruct (extension b ($"organization") _ _) eqn:A; [cbn [bind]|discriminate].
  destruct (match required_time_column n with None => Ok [] | Some _ => _ end) as [t|] eqn:T; [cbn [bind]|discriminate].
  destruct (extension b ($"project") _ _) eqn:B; [cbn [bind]|discriminate]. intros E. injection E as <-.
  apply Forall2_app; [eapply extension_form, A|]. apply Forall2_app; [|eapply extension_form, B].
  destruct (required_time_column n); [|injection T as <-; constructor].
  destruct (time_bound b _ ($"from_date") _) eqn:C; [cbn [bind] in T|discriminate]. destruct (time_bound b _ ($"to_date") _) eqn:F; [cbn [bind] in T|discriminate].
  injection T as <-. apply Forall2_app; [eapply time_form, C|eapply time_form, F].
Qed.
Definition none_at (k : clause) : list (str * str) := [].
Lemma query_swap (L : Rel) (la ls lg lw lh : list (str * str)) b b' e :
  (forall m x y, L m x y -> exp_swap m x y) ->
  is_dict b -> is_dict b' -> (forall k, ~ In k value_keys -> same_at b b' k) ->
  swap_at lists_swap la b b' ($"aggregations") -> swap_at exps_swap ls b b' ($"selected_columns") ->
  swap_at exps_swap lg b b' ($"groupby") -> swap_at (filters_swap L) lw b b' ($"conditions") ->
  swap_at (filters_swap exp_swap) lh b b' ($"having") ->
  rel (qrel (fixed L) (put CHaving lh (put CWhere lw (put CGroupby lg (put CSelect (la ++ ls) none_at))))) (legacy_query b e) (legacy_query b' e).
Proof.
  intros HL D D' O A S G W H.
  assert (forall k d, forallb (fun x => negb (str_eqb x k)) value_keys = true -> body_get b k d = body_get b' k d) as E.
  { intros k d N. apply get_same; auto. apply O. intros I. rewrite forallb_forall in N. specialize (N k I). now rewrite str_eqb_refl in N. }
  unfold legacy_query. rewrite (E ($"sample") ONone eq_refl), (E ($"arrayjoin") ONone eq_refl).
  assert (forall n, extensions b n = extensions b' n) as EX.
  { intros n. unfold extensions, extension, time_bound.
    rewrite (E ($"organization") ONone eq_refl), (E ($"from_date") ONone eq_refl), (E ($"to_date") ONone eq_refl), (E ($"project") ONone eq_refl). reflexivity. }
  destruct (if is_none _ then _ else _) as [sample|x]; [cbn [bind]|reflexivity].
  destruct (mk_entity e ONone sample ONone) as [en|x]; [cbn [bind]|reflexivity].
  assert (rel (qrel (fixed L) none_at) (mk_query (MObj en) no_clauses) (mk_query (MObj en) no_clauses)) as Q.
  { unfold mk_query. destruct (base_of en) as [bs|]; [|reflexivity]. cbn. exists bs, no_clauses, no_clauses. repeat split.
    - intros k. constructor.
    - intros _ x y X. inversion X. }
  eapply rel_bind; [exact Q|]. clear Q. intros q q' Q.
  eapply rel_bind; [exact (aggs_swap _ _ _ (get_swap_at _ _ _ _ _ _ D D' A))|]. intros a1 a2 R1.
  eapply rel_bind; [exact (sel_swap _ _ _ (get_swap_at _ _ _ _ _ _ D D' S))|]. intros s1 s2 R2.
  assert (rel (qrel (fixed L) none_at)
    (if truthy (body_get b' ($"arrayjoin") ONone) then let! c := mk_column (body_get b' ($"arrayjoin") ONone) ONone in set_clause CArrayJoin q (OList [c]) else Ok q)
    (if truthy (body_get b' ($"arrayjoin") ONone) then let! c := mk_column (body_get b' ($"arrayjoin") ONone) ONone in set_clause CArrayJoin q' (OList [c]) else Ok q')) as J.
  { destruct (truthy _); [|exact Q]. destruct (mk_column _ _) as [c|x]; [cbn [bind]|reflexivity].
    pose proof (set_same_swap _ _ _ _ CArrayJoin (OList [c]) Q ltac:(discriminate)) as P.
    destruct (set_clause CArrayJoin q _), (set_clause CArrayJoin q' _); cbn [rel] in *; try contradiction; [|exact P].
    destruct P as (bs & c1 & c2 & -> & -> & P1 & P2). exists bs, c1, c2. repeat split; auto. intros k. specialize (P1 k). destruct k; exact P1. }
  eapply rel_bind; [exact J|]. clear J Q q q'. intros q q' Q.
  eapply rel_bind; [exact (set_list_swap _ _ _ _ CSelect _ _ _ Q (swaps_app _ _ _ _ _ _ R1 R2) eq_refl ltac:(discriminate))|]. clear Q q q'. intros q q' Q.
  eapply rel_bind; [exact (gb_swap _ _ _ (get_swap_at _ _ _ _ _ _ D D' G))|]. intros g1 g2 R3.
  eapply rel_bind; [exact (set_list_swap _ _ _ _ CGroupby _ _ _ Q R3 eq_refl ltac:(discriminate))|]. clear Q q q'. intros q q' Q.
  rewrite EX. destruct (extensions b' _) as [ext|x] eqn:X; [cbn [bind]; apply extensions_form in X|reflexivity].
  assert (rel (fun xs ys => where_rel L lw (List.concat xs) (List.concat ys))
    (bind (iter (body_get b ($"conditions") (OList []))) (mapM convert_where)) (bind (iter (body_get b' ($"conditions") (OList []))) (mapM convert_where))) as P.
  { destruct (get_swap_at _ _ _ _ _ (OList []) D D' W) as [(Z & ->)|(a & c & -> & -> & F)].
    - destruct (iter _) as [l|x]; [cbn [bind]|reflexivity]. destruct (mapM convert_where l) as [xs|x] eqn:M; [|reflexivity]. cbn. rewrite Z. split; [apply swaps_refl|].
      intros _. clear - M. revert xs M. induction l as [|c l IH]; intros xs E; cbn [mapM] in E; [injection E as <-; constructor|].
      destruct (convert_where c) eqn:P; [|discriminate]. cbn [bind] in E. destruct (mapM convert_where l); [|discriminate]. injection E as <-.
      cbn. apply Forall2_app; [eapply convert_where_form, P|auto].
    - cbn [iter bind]. exact (filters_where_swap L _ _ _ HL F). }
  assert (forall (z : obj) A (g : list (list obj) -> result A),
    bind (iter z) (fun items => bind (mapM convert_where items) g) = bind (bind (iter z) (mapM convert_where)) g) as BA by (intros; now rewrite bind_assoc).
  rewrite !BA. eapply rel_bind; [exact P|]. clear P BA. intros w1 w2 (P1 & P2).
  eapply rel_bind; [exact (set_list_swap _ _ _ _ CWhere lw _ _ Q (swaps_app [] _ _ _ _ _ (swaps_refl ext) P1) eq_refl (fun _ F => Forall2_app X (P2 F)))|]. clear Q q q'. intros q q' Q.
  assert (rel (swaps lh) (bind (iter (body_get b ($"having") (OList []))) (mapM convert_having)) (bind (iter (body_get b' ($"having") (OList []))) (mapM convert_having))) as P.
  { destruct (get_swap_at _ _ _ _ _ (OList []) D D' H) as [(-> & ->)|(a & c & -> & -> & F)]; [apply swaps_self|]. cbn [iter bind].
    exact (filters_having_swap exp_swap _ _ _ (fun _ _ _ x => x) F). }
  assert (forall (z : obj) A (g : list obj -> result A),
    bind (iter z) (fun items => bind (mapM convert_having items) g) = bind (bind (iter z) (mapM convert_having)) g) as BA by (intros; now rewrite bind_assoc).
  rewrite !BA. eapply rel_bind; [exact P|]. clear P BA. intros h1 h2 P.
  exact (set_list_swap _ _ _ _ CHaving _ _ _ Q P eq_refl ltac:(discriminate)).
Qed.

Lemma extra_swap S f q q' b b' key k : qrel S f q q' -> body_get b key ONone = body_get b' key ONone -> k <> CWhere -> f k = [] ->
  rel (qrel S (put k [] f)) (set_extra b key k q) (set_extra b' key k q').
Proof.
  intros Q E N F. unfold set_extra. rewrite E. destruct (is_none _); [exact (put_id _ _ _ _ _ Q F)|]. apply set_same_swap; assumption.
Qed.
Lemma json_to_snql_eq ks vs e : snd (json_to_snql (ODict ks vs) e)
  = let! q := legacy_query (ODict ks vs) e in let! q := snd (legacy_orderby (ODict ks vs) q) in legacy_request (ODict ks vs) e q.
Proof.
  destruct (json_to_snql (ODict ks vs) e) as (b' & r) eqn:E. cbn [snd].
  pose proof (fun k d => get_after _ _ _ _ _ k d E) as G. unfold json_to_snql in E.
  destruct (legacy_query (ODict ks vs) e) as [q|x]; cbn [bind]; [|congruence].
  destruct (legacy_orderby (ODict ks vs) q) as (b1 & [q1|x]) eqn:O; cbn [snd bind] in *; injection E as <- <-; [|reflexivity].
  apply request_body. intros k d N. apply G, N.
Qed.
Lemma orderby_swap S f q q' lo ks vs ks' vs' : qrel S f q q' -> f COrderby = [] ->
  value_swap orders_swap lo (body_get (ODict ks vs) ($"orderby") ONone) (body_get (ODict ks' vs') ($"orderby") ONone) ->
  rel (qrel S (put COrderby lo f)) (snd (legacy_orderby (ODict ks vs) q)) (snd (legacy_orderby (ODict ks' vs') q')).
Proof.
  intros Q F H. unfold legacy_orderby. destruct H as [(-> & ->)|(a & b & -> & -> & H)].
  - destruct (truthy _); [|exact (put_id _ _ _ _ _ Q F)].
    assert (forall v, rel (qrel S (put COrderby [] f)) (let! obs := snd (convert_orderby v None) in set_clause COrderby q (OList obs))
      (let! obs := snd (convert_orderby v None) in set_clause COrderby q' (OList obs))) as P.
    { intros v. destruct (snd (convert_orderby v None)) as [obs|x]; [cbn [bind]|reflexivity]. apply set_same_swap; [exact Q|discriminate]. }
    destruct (body_get (ODict ks vs) ($"orderby") ONone); try apply P. specialize (P l). destruct (convert_orderby l None). exact P.
  - assert (truthy (OList a) = truthy (OList b)) as -> by (destruct H; reflexivity).
    destruct (truthy (OList b)) eqn:T.
    + pose proof (orders_parse_swap _ _ _ H None None) as P. destruct (convert_orderby a None) as (a1 & ra), (convert_orderby b None) as (b1 & rb). cbn [snd] in *.
      eapply rel_bind; [exact P|]. intros xs ys X. exact (set_list_swap _ _ _ _ COrderby _ _ _ Q X eq_refl ltac:(discriminate)).
    + destruct H; [|discriminate T]. exact (put_id _ _ _ _ _ Q F).
Qed.
Theorem body_swapped (L : Rel) l b b' e : (forall m x y, L m x y -> exp_swap m x y) -> body_swap L l b b' ->
  rel (requests_swap (fun q q' => swap_query l q q' /\ (fixed L -> merged_alike_where q q'))) (snd (json_to_snql b e)) (snd (json_to_snql b' e)).
Proof.
  intros HL H. destruct H as [la ls lg lw lh lo b b' D D' O A S G W H R].
  pose proof (query_swap L la ls lg lw lh b b' e HL D D' O A S G W H) as Q.
  pose proof (get_swap_at _ _ _ _ _ ONone D D' R) as RO. clear A S G W H R.
  assert (forall k d, forallb (fun x => negb (str_eqb x k)) value_keys = true -> body_get b k d = body_get b' k d) as E.
  { intros k d N. apply get_same; auto. apply O. intros I. rewrite forallb_forall in N. specialize (N k I). now rewrite str_eqb_refl in N. }
  clear O. destruct D as (ks & vs & ->), D' as (ks' & vs' & ->). rewrite !json_to_snql_eq.
  eapply rel_bind; [exact Q|]. clear Q. intros q q' Q.
  eapply rel_bind; [exact (orderby_swap _ _ _ _ lo ks vs ks' vs' Q eq_refl RO)|]. clear Q q q' RO. intros q q' Q.
  unfold legacy_request, or_default, legacy_flags, legacy_flag.
  repeat match goal with |- context [body_get (ODict ks vs) ?k ?d] => rewrite (E k d eq_refl) end.
  assert (rel (qrel (fixed L) (put CLimitby [] (put COrderby lo (put CHaving lh (put CWhere lw (put CGroupby lg (put CSelect (la ++ ls) none_at)))))))
    (set_legacy_limitby (ODict ks vs) q) (set_legacy_limitby (ODict ks' vs') q')) as P.
  { unfold set_legacy_limitby. rewrite (E ($"limitby") ONone eq_refl). destruct (truthy _); [|exact (put_id _ _ _ _ CLimitby Q eq_refl)].
    destruct (iter _) as [l|]; [cbn [bind]|reflexivity]. destruct l as [|lim [|name [|? ?]]]; try reflexivity.
    destruct (mk_column name ONone) as [c|]; [cbn [bind]|reflexivity]. destruct (as_python_int lim) as [n|]; [cbn [bind]|reflexivity].
    destruct (mk_limitby _ _) as [lb|]; [cbn [bind]|reflexivity]. apply set_same_swap; [exact Q|discriminate]. }
  eapply rel_bind; [exact P|]. clear P Q q q'. intros q q' Q.
  eapply rel_bind; [exact (extra_swap _ _ _ _ _ _ ($"limit") CLimit Q (E ($"limit") ONone eq_refl) ltac:(discriminate) eq_refl)|]. clear Q q q'. intros q q' Q.
  eapply rel_bind; [exact (extra_swap _ _ _ _ _ _ ($"offset") COffset Q (E ($"offset") ONone eq_refl) ltac:(discriminate) eq_refl)|]. clear Q q q'. intros q q' Q.
  eapply rel_bind; [exact (extra_swap _ _ _ _ _ _ ($"granularity") CGranularity Q (E ($"granularity") ONone eq_refl) ltac:(discriminate) eq_refl)|]. clear Q q q'. intros q q' Q.
  eapply rel_bind; [exact (extra_swap _ _ _ _ _ _ ($"totals") CTotals Q (E ($"totals") ONone eq_refl) ltac:(discriminate) eq_refl)|]. clear Q q q'. intros q q' Q.
  cbn [rel]. exists q, q'. split; [reflexivity|]. split; [reflexivity|]. destruct Q as (bs & c & c' & -> & -> & G & M). split.
  - constructor.
    assert (swaps (List.concat (map (put CTotals [] (put CGranularity [] (put COffset [] (put CLimit [] (put CLimitby [] (put COrderby lo (put CHaving lh (put CWhere lw (put CGroupby lg (put CSelect (la ++ ls) none_at)))))))))) SpecQuery.snql_order)) (clause_values c) (clause_values c')) as X.
    { unfold clause_values. generalize SpecQuery.snql_order. intros o. induction o as [|k o IH]; cbn [map List.concat]; constructor; [apply G|exact IH]. }
    cbn in X. rewrite ?app_nil_r in X. exact X.
  - intros F a a' X Y. specialize (M F a a' X Y). clear - M. induction M; constructor; [left; assumption|assumption].
Qed.
End S.
