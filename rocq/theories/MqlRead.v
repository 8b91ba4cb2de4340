(** Reading MQL expressions: the induction over calls, arguments, coefficients, products
    and sums (C43-C46). *)
From Verif Require Import PyBase PyFacts Regex RegexFacts Objects Exprs Translate Query Metrics SpecExpr
  ExprFacts ExprProps TextFacts SpecMetrics MetricsFacts FormulaFacts SpecMql Peg PegTotal Mql MqlParse
  MqlTokens MqlFilter MqlExpr MqlCall MqlParams MqlBody MqlText.

Section Read.
Context {RT : PyRT}.

(** * The last character *)
Definition fin (s : str) : Prop := exists x c, s = x ++ [c] /\ is_space c = false.
Lemma fin_app a b : fin b -> fin (a ++ b).
Proof. intros (x & c & -> & H). exists (a ++ x), c. split; [apply app_assoc|exact H]. Qed.
Lemma space_of_low c : (33 <= c < 128)%N -> is_space c = false.
Proof.
  intros H. unfold is_space, in_range. replace (c <? 128)%N with true by (symmetry; apply N.ltb_lt; lia).
  replace (c =? 32)%N with false by (symmetry; apply N.eqb_neq; lia).
  replace (c <=? 13)%N with false by (symmetry; apply N.leb_gt; lia).
  replace (c <=? 31)%N with false by (symmetry; apply N.leb_gt; lia).
  rewrite !andb_false_r. reflexivity.
Qed.
Lemma fin_char c : (33 <= c < 128)%N -> fin [c].
Proof. intros H. exists [], c. split; [reflexivity|apply space_of_low, H]. Qed.
Lemma fin_all (P : N -> Prop) s : (forall c, P c -> (33 <= c < 128)%N) -> s <> [] -> Forall P s -> fin s.
Proof.
  intros H N F. destruct (exists_last N) as (x & c & ->). apply fin_app, fin_char, H.
  apply Forall_app in F. destruct F as (_ & F). inversion F; assumption.
Qed.
Lemma key_fin k : mql_key k -> fin k.
Proof.
  intros (c & t & -> & W & F). apply (fin_all key_char); [|discriminate|].
  - intros x X. apply key_range in X. lia.
  - constructor; [|exact F]. unfold word_start in W. unfold key_char, ascii_word. tauto.
Qed.
Lemma group_fin g l : group_text g l -> fin g.
Proof.
  intros [w1 w2 k _ _ _ K|w1 w2 w3 t l' w4 _ _ _ _ _ _].
  - repeat apply fin_app. apply key_fin, K.
  - repeat apply fin_app. apply (fin_char 41%N). lia.
Qed.
Lemma opt_group_fin s g l : fin s -> opt_group_text g l -> fin (s ++ g).
Proof. intros F [|g' l' G]; [rewrite app_nil_r; exact F|apply fin_app; eapply group_fin, G]. Qed.
Lemma braces_fin b f : braces_text b f -> fin b.
Proof.
  intros [|w1 e l w2 _ _ _]; [apply (fin_app [123%N]), (fin_char 125%N); lia|].
  repeat apply fin_app. apply (fin_char 125%N). lia.
Qed.
Lemma digits_fin d : digits d -> fin d.
Proof. intros (N & F). apply (fin_all ascii_digit); [|exact N|exact F]. unfold ascii_digit. intros; lia. Qed.
Lemma number_fin t : number_text t -> fin t.
Proof. intros [D|(a & b & -> & _ & D)]; [|do 2 apply fin_app]; apply digits_fin, D. Qed.

(** * What follows an expression *)
Definition coef_end (rest : str) : Prop := heads key_b rest = false /\ heads (N.eqb 40) rest = false
  /\ heads (N.eqb 123) rest = false /\ no_by rest.
Lemma end_at w x t : white w -> In x [41; 42; 43; 44; 45; 47]%N -> coef_end (w ++ x :: t).
Proof.
  intros B X. assert (mql_space x = false /\ x <> 98%N /\ key_b x = false /\ N.eqb 40 x = false /\ N.eqb 123 x = false)
    as (S & N & K & P & C) by (cbn in X; decompose [or] X; subst; try contradiction; repeat split; discriminate).
  repeat split.
  - apply blank_heads; [exact B|apply key_blank|exact K].
  - apply blank_heads; [exact B| |exact P]. intros c H. apply space_num in H. apply N.eqb_neq. lia.
  - apply blank_heads; [exact B| |exact C]. intros c H. apply space_num in H. apply N.eqb_neq. lia.
  - apply no_by_blank; assumption.
Qed.
Definition item (op sub : rule) : peg rule := PSeq [PRef Rws; PRef op; PRef Rws; PRef sub].
Definition pitem := item Rterm_op Runary.
Definition sitem := item Rexpr_op Rterm.
Lemma f_item op sub a b w s : grammar op = PAlt [PLit [a]; PLit [b]] -> white w -> heads mql_space s = false ->
  heads (N.eqb a) s = false -> heads (N.eqb b) s = false -> fails (item op sub) (w ++ s).
Proof.
  intros G B S Ha Hb. apply f_seq. eapply fs_later; [apply p_blank; [exact B|exact S]|].
  apply fs_here, f_ref. rewrite G. apply f_alt. constructor; [|constructor; [|constructor]]; apply f_lit; rewrite prefix1; assumption.
Qed.
Definition sum_end (rest : str) : Prop := coef_end rest /\ fails pitem rest /\ fails sitem rest.
Lemma sum_end_at w x t : white w -> x = 41%N \/ x = 44%N -> sum_end (w ++ x :: t).
Proof.
  intros B X. split; [|split].
  - apply end_at; [exact B|cbn; destruct X; subst; tauto].
  - apply (f_item _ _ 42%N 47%N); [reflexivity|exact B| | |]; destruct X; subst; reflexivity.
  - apply (f_item _ _ 43%N 45%N); [reflexivity|exact B| | |]; destruct X; subst; reflexivity.
Qed.
Lemma sum_end_nil : sum_end [].
Proof.
  split; [repeat split|split].
  - apply (f_item _ _ 42%N 47%N [] []); try reflexivity. constructor.
  - apply (f_item _ _ 43%N 45%N [] []); try reflexivity. constructor.
Qed.
Definition pend (rest : str) : Prop := coef_end rest /\ fails pitem rest.
Lemma pend_at w x t : white w -> x = 43%N \/ x = 45%N -> pend (w ++ x :: t).
Proof.
  intros B X. split.
  - apply end_at; [exact B|cbn; destruct X; subst; tauto].
  - apply (f_item _ _ 42%N 47%N); [reflexivity|exact B| | |]; destruct X; subst; reflexivity.
Qed.

(** * Chains of operators *)
Definition chain (op sub : rule) (E : str -> Prop) (s : str) (v : mval) : Prop := exists u0 v0 rs,
  s = u0 ++ rs /\ good v0 /\ (forall rest, E rest -> parses (PRef sub) (u0 ++ rest) (PVal v0) rest)
  /\ (forall rest, E rest -> E (rs ++ rest))
  /\ forall rest vs rest' w, E rest -> parses_many (item op sub) rest vs rest' -> fold_ops v vs = Ok w ->
       exists vs', parses_many (item op sub) (rs ++ rest) vs' rest' /\ fold_ops v0 vs' = Ok w.
Lemma chain_one op sub (E : str -> Prop) s v : good v -> (forall rest, E rest -> parses (PRef sub) (s ++ rest) (PVal v) rest) ->
  chain op sub E s v.
Proof.
  intros G P. exists s, v, []. split; [symmetry; apply app_nil_r|]. split; [exact G|]. split; [exact P|].
  split; [auto|]. intros rest vs rest' w _ M F. exists vs. auto.
Qed.
Lemma chain_step op sub (E : str -> Prop) s v w1 o n w2 u x : chain op sub E s v -> white w1 -> white w2 ->
  (forall t, E (w1 ++ o :: t)) -> mql_space o = false ->
  (forall t, parses (PRef op) (o :: t) (PStr n) t) ->
  (forall t, heads mql_space (u ++ t) = false) ->
  (forall rest, E rest -> parses (PRef sub) (u ++ rest) (PVal x) rest) ->
  chain op sub E (s ++ w1 ++ [o] ++ w2 ++ u) (function n [v; x] ONone).
Proof.
  intros (u0 & v0 & rs & -> & G & P & En & C) B1 B2 Eo So Po Su Pu.
  exists u0, v0, (rs ++ w1 ++ [o] ++ w2 ++ u). split; [rewrite <- app_assoc; reflexivity|].
  split; [exact G|]. split; [exact P|].
  assert (forall rest, (rs ++ w1 ++ [o] ++ w2 ++ u) ++ rest = rs ++ w1 ++ o :: w2 ++ u ++ rest) as A.
  { intros rest. rewrite <- !app_assoc. reflexivity. }
  split.
  - intros rest Er. rewrite A. apply En, Eo.
  - intros rest vs rest' w Er M F. rewrite A.
    apply (C _ (PList [PList []; PStr n; PList []; PVal x] :: vs) rest'); [apply Eo| |cbn; exact F].
    eapply pm_next; [| |exact M].
    + apply p_seq. eapply pa_cons; [apply p_blank; [exact B1|exact So]|].
      eapply pa_cons; [apply Po|]. eapply pa_cons; [apply p_blank; [exact B2|apply Su]|].
      eapply pa_cons; [apply Pu, Er|apply pa_nil].
    + rewrite !app_length. cbn. rewrite !app_length. lia.
Qed.
Lemma chain_parse r op sub (E : str -> Prop) s v rest : grammar r = PSeq [PRef sub; PStar (item op sub)] ->
  (forall t cs, act r t cs = visit_chain cs) -> chain op sub E s v -> E rest -> fails (item op sub) rest ->
  parses (PRef r) (s ++ rest) (PVal v) rest.
Proof.
  intros Gr A (u0 & v0 & rs & -> & G & P & En & C) Er F.
  destruct (C rest [] rest v Er (pm_stop _ _ F) eq_refl) as (vs & M & Fo).
  rewrite <- app_assoc. eapply p_ref with (cs := [PVal v0; PList vs]); [rewrite Gr; reflexivity| |].
  - rewrite Gr. apply p_seq. eapply pa_cons; [apply P, En, Er|]. eapply pa_cons; [apply p_star, M|apply pa_nil].
  - rewrite A. unfold visit_chain. rewrite good_operand by exact G. cbn [assert_ bind seq as_mval].
    cbn. rewrite Fo. reflexivity.
Qed.
Lemma cut1 c t : cut (c :: t) t = [c].
Proof. exact (cut_app [c] t). Qed.
Lemma p_op r o n t : grammar r = PAlt [PLit ($"*"); PLit ($"/")] /\ (forall t cs, act r t cs = let! s := term_operator t in Ok (PStr s))
    /\ In (o, n) [(42%N, $"multiply"); (47%N, $"divide")]
  \/ grammar r = PAlt [PLit ($"+"); PLit ($"-")] /\ (forall t cs, act r t cs = let! s := expression_operator t in Ok (PStr s))
    /\ In (o, n) [(43%N, $"plus"); (45%N, $"minus")] ->
  parses (PRef r) (o :: t) (PStr n) t.
Proof.
  intros [(G & A & I)|(G & A & I)]; cbn in I; destruct I as [I|[I|[]]]; inversion I; subst;
    (eapply p_ref with (cs := [PList []]); [rewrite G; reflexivity| |]);
    [rewrite G; apply p_alt; first [apply pl_here, (p_lit [42%N])|apply pl_next; [apply f_lit; reflexivity|apply pl_here, (p_lit [47%N])]]
    |rewrite A, cut1; reflexivity
    |rewrite G; apply p_alt; first [apply pl_here, (p_lit [42%N])|apply pl_next; [apply f_lit; reflexivity|apply pl_here, (p_lit [47%N])]]
    |rewrite A, cut1; reflexivity
    |rewrite G; apply p_alt; first [apply pl_here, (p_lit [43%N])|apply pl_next; [apply f_lit; reflexivity|apply pl_here, (p_lit [45%N])]]
    |rewrite A, cut1; reflexivity
    |rewrite G; apply p_alt; first [apply pl_here, (p_lit [43%N])|apply pl_next; [apply f_lit; reflexivity|apply pl_here, (p_lit [45%N])]]
    |rewrite A, cut1; reflexivity].
Qed.

(** * Invariants *)
Definition call_peg : list (peg rule) :=
  [PRef Rcurried_aggregate; PRef Rcurried_arbitrary_function; PRef Raggregate; PRef Rarbitrary_function].
Definition called (s : str) : Prop := exists n t, s = n ++ 40%N :: t /\ mql_name n.
Definition call_ok (s : str) (v : mval) : Prop := good v /\ mql_query v /\ called s /\ fin s
  /\ forall rest, heads (N.eqb 40) rest = false -> parses_alt call_peg (s ++ rest) (PVal v) rest.
Definition shape (s : str) : Prop := head_ok s /\ opens s /\ fin s.
Definition coef_ok (s : str) (v : mval) : Prop := good v /\ shape s /\ heads (N.eqb 45) s = false
  /\ forall rest, coef_end rest -> parses (PRef Rcoefficient) (s ++ rest) (PVal v) rest.
Definition unary_ok (s : str) (v : mval) : Prop := good v /\ shape s
  /\ forall rest, coef_end rest -> parses (PRef Runary) (s ++ rest) (PVal v) rest.
Definition product_ok (s : str) (v : mval) : Prop := good v /\ shape s /\ chain Rterm_op Runary coef_end s v.
Definition sum_ok (s : str) (v : mval) : Prop := good v /\ shape s /\ chain Rexpr_op Rterm pend s v.
Definition arg_item : peg rule := PSeq [PRef Rws; PRef Rcomma; PRef Rws; PRef Rexpression].
Definition more_ok (r : str) (vs : list mval) : Prop := exists w1 t, r = w1 ++ 44%N :: t /\ white w1
  /\ opens (44%N :: t) /\ forall w rest, white w ->
       exists ps, parses_many arg_item (w ++ (44%N :: t) ++ 41%N :: rest) ps (41%N :: rest) /\ lasts ps = Ok vs.
Definition args_seq : list (peg rule) :=
  [PSeq [PRef Rws; PRef Rexpression; PRef Rws]; PStar arg_item; PRef Rclose_paren].
Definition args_ok (a : str) (ps : list mval) : Prop := exists w e, a = w ++ e /\ white w /\ opens e /\ head_ok e
  /\ forall w' rest, white w' -> exists x1 x3 x5 ps' v vs,
       parses_all args_seq (w' ++ e ++ 41%N :: rest) [PList [x1; PVal v; x3]; PList ps'; x5] rest
       /\ has_placeholder v = None /\ lasts ps' = Ok vs /\ ps = v :: vs.

Lemma sum_parse s v rest : sum_ok s v -> sum_end rest -> parses (PRef Rexpression) (s ++ rest) (PVal v) rest.
Proof.
  intros (_ & _ & C) (E & Fp & Fs). eapply (chain_parse Rexpression); [reflexivity|reflexivity|exact C|split; assumption|exact Fs].
Qed.
Lemma product_parse s v rest : product_ok s v -> pend rest -> parses (PRef Rterm) (s ++ rest) (PVal v) rest.
Proof.
  intros (_ & _ & C) (E & Fp). eapply (chain_parse Rterm); [reflexivity|reflexivity|exact C|exact E|exact Fp].
Qed.
Lemma shape_join a m b : shape a -> calm m -> shape b -> shape (a ++ m ++ b).
Proof.
  intros (H1 & O1 & _) C (_ & O2 & F2). split; [apply head_app, H1|].
  split; [apply opens_app; [exact O1|]; apply opens_app; [left; exact C|exact O2]|].
  apply fin_app, fin_app, F2.
Qed.
Lemma shape_space s rest : shape s -> heads mql_space (s ++ rest) = false.
Proof. intros (H & _). apply head_space, H. Qed.
Lemma called_shape s : called s -> fin s -> shape s /\ heads (N.eqb 45) s = false.
Proof.
  intros (n & t & -> & N) F. destruct (name_all n N) as (Ne & A). split; [split; [right; eauto|split]|].
  - right. exists n, t. split; [reflexivity|apply word_calm, A].
  - exact F.
  - destruct (name_heads n (40%N :: t) (N.eqb 45) N) as (c & W & ->). apply N.eqb_neq.
    apply word_start_range in W. lia.
Qed.

(** * Calls *)
Lemma f_call_params r r' n s l1 l2 : grammar r = PSeq (PRef r' :: params_peg :: PSeq (PRef Ropen_paren :: l1) :: l2) ->
  grammar r' = PRe re_name -> act r' n [] = Ok (PStr n) -> mql_name n -> not_params s ->
  fails (PRef r) (n ++ 40%N :: s).
Proof.
  intros G G' A N P. apply f_ref. rewrite G. apply f_seq. eapply fs_later; [apply p_name; eassumption|].
  apply f_params, P.
Qed.
Lemma agg_ok t n p ps : ts_ok t -> opt_list literal_obj p ps ->
  set_aggregate t (OStr n) p = Ok (mkTS (ts_metric t) n ps (ts_filters t) (ts_groupby t)).
Proof. intros T P. apply set_aggregate_iff; [exact T|]. exists n, ps. auto. Qed.
Lemma literals_ok l : forallb is_literal l = true -> Forall literal_obj l.
Proof. intros H. apply Forall_forall. intros o I. rewrite forallb_forall in H. exact (H o I). Qed.
Lemma ts_good m n p f g : ts_ok (inner_ts m f g) -> (forall l, p = Some l -> Forall literal_obj l) ->
  good (VTS (mkTS m n p f g)).
Proof. intros (A & _ & C & D) P. repeat split; assumption. Qed.

Lemma call_aggregate n w b m f g : mql_name n -> n <> placeholder_name -> white w -> body_text b m f g ->
  call_ok (n ++ $"(" ++ w ++ b ++ $")") (VTS (mkTS m n None f g)).
Proof.
  intros N Np B H.
  assert (forall rest, (n ++ $"(" ++ w ++ b ++ $")") ++ rest = n ++ 40%N :: w ++ b ++ 41%N :: rest) as Eq.
  { intros rest. rewrite <- !app_assoc. reflexivity. }
  destruct (p_body b m f g w [] B H) as (_ & _ & _ & _ & _ & T).
  split; [apply ts_good; [exact T|discriminate]|]. split; [constructor|].
  split; [exists n, (w ++ b ++ $")"); auto|]. split; [repeat apply fin_app; apply (fin_char 41%N); lia|].
  intros rest R. rewrite Eq. pose proof (body_not_params w b m f g rest B H R) as NP.
  apply pl_next; [eapply f_call_params; try reflexivity; assumption|].
  apply pl_next; [eapply f_call_params; try reflexivity; assumption|].
  apply pl_here. destruct (p_body b m f g w rest B H) as (x1 & x2 & x4 & x5 & P & _).
  eapply p_ref with (cs := [PStr n; PList [x1; x2; PVal (VTS (inner_ts m f g)); x4; x5]]); [reflexivity| |].
  - cbn [grammar]. apply p_seq. eapply pa_cons; [apply p_name; [reflexivity|exact N|reflexivity]|].
    eapply pa_cons; [apply p_seq, P|apply pa_nil].
  - cbn [act visit_aggregate]. change (str_eqb (ts_agg (inner_ts m f g)) placeholder) with true. cbn [PStr as_obj bind].
    rewrite (agg_ok _ n ONone None T eq_refl). reflexivity.
Qed.
Lemma call_aggregate_params n w1 p l w2 w b m f g : mql_name n -> n <> placeholder_name ->
  white w1 -> opt_params_text p l -> white w2 -> white w -> body_text b m f g ->
  call_ok (n ++ $"(" ++ w1 ++ p ++ w2 ++ $")" ++ $"(" ++ w ++ b ++ $")") (VTS (mkTS m n (Some l) f g)).
Proof.
  intros N Np B1 Pl B2 B H.
  assert (forall rest, (n ++ $"(" ++ w1 ++ p ++ w2 ++ $")" ++ $"(" ++ w ++ b ++ $")") ++ rest
     = n ++ 40%N :: w1 ++ p ++ w2 ++ 41%N :: 40%N :: w ++ b ++ 41%N :: rest) as Eq.
  { intros rest. rewrite <- !app_assoc. cbn [app]. reflexivity. }
  destruct (p_body b m f g w [] B H) as (_ & _ & _ & _ & _ & T).
  pose proof (literals_ok l (params_literal p l Pl)) as L.
  split; [apply ts_good; [exact T|intros l' E; inversion E; subst; exact L]|]. split; [constructor|].
  split; [exists n, (w1 ++ p ++ w2 ++ $")" ++ $"(" ++ w ++ b ++ $")"); auto|].
  split; [repeat apply fin_app; apply (fin_char 41%N); lia|].
  intros rest R. rewrite Eq. apply pl_here.
  destruct (p_params_group p l w1 w2 (40%N :: w ++ b ++ 41%N :: rest) Pl B1 B2) as (cs & Pp & Ap).
  destruct (p_body b m f g w rest B H) as (x1 & x2 & x4 & x5 & P & _).
  eapply p_ref with (cs := [PStr n; PList cs; PList [x1; x2; PVal (VTS (inner_ts m f g)); x4; x5]]); [reflexivity| |].
  - cbn [grammar]. apply p_seq. eapply pa_cons; [apply p_name; [reflexivity|exact N|reflexivity]|].
    eapply pa_cons; [exact Pp|]. eapply pa_cons; [apply p_seq, P|apply pa_nil].
  - cbn [act visit_curried_aggregate]. rewrite Ap. cbn [PStr as_obj bind].
    rewrite (agg_ok _ n (OList l) (Some l) T (conj eq_refl L)). reflexivity.
Qed.
Lemma function_good n ps a : good (function n ps a).
Proof. cbn. split; exists None; reflexivity. Qed.
Lemma call_function n a ps : mql_name n -> args_ok a ps ->
  call_ok (n ++ $"(" ++ a ++ $")") (function n ps ONone).
Proof.
  intros N (w & e & -> & B & O & H & P).
  assert (forall rest, (n ++ $"(" ++ (w ++ e) ++ $")") ++ rest = n ++ 40%N :: w ++ e ++ 41%N :: rest) as Eq.
  { intros rest. rewrite <- !app_assoc. reflexivity. }
  split; [apply function_good|]. split; [constructor|]. split; [exists n, ((w ++ e) ++ $")"); auto|].
  split; [repeat apply fin_app; apply (fin_char 41%N); lia|].
  intros rest R. rewrite Eq.
  assert (not_params (w ++ e ++ 41%N :: rest)) as NP.
  { rewrite app_assoc. apply opens_params; [|exact R]. apply opens_app; [left; apply blank_calm, B|exact O]. }
  apply pl_next; [eapply f_call_params; try reflexivity; assumption|].
  apply pl_next; [eapply f_call_params; try reflexivity; assumption|].
  apply pl_next.
  { apply f_ref, f_seq. eapply fs_later; [apply p_name; [reflexivity|exact N|reflexivity]|].
    apply (f_inner e []); assumption. }
  apply pl_here. destruct (P w rest B) as (x1 & x3 & x5 & ps' & v & vs & Pa & Hp & L & ->).
  eapply p_ref with (cs := [PStr n; PList [PList []; PList [x1; PVal v; x3]; PList ps'; x5]]); [reflexivity| |].
  - cbn [grammar]. apply p_seq. eapply pa_cons; [apply p_name; [reflexivity|exact N|reflexivity]|].
    eapply pa_cons; [apply p_seq|apply pa_nil].
    eapply pa_cons; [apply (p_chr Ropen_paren 40%N); reflexivity|exact Pa].
  - cbn [act visit_arbitrary_function]. rewrite L. cbn [bind as_mval]. rewrite Hp. reflexivity.
Qed.
Lemma call_function_params n w1 p l w2 a ps : mql_name n -> white w1 -> opt_params_text p l -> white w2 -> args_ok a ps ->
  call_ok (n ++ $"(" ++ w1 ++ p ++ w2 ++ $")" ++ $"(" ++ a ++ $")") (function n ps (OList l)).
Proof.
  intros N B1 Pl B2 (w & e & -> & B & O & H & P).
  assert (forall rest, (n ++ $"(" ++ w1 ++ p ++ w2 ++ $")" ++ $"(" ++ (w ++ e) ++ $")") ++ rest
    = n ++ 40%N :: w1 ++ p ++ w2 ++ 41%N :: 40%N :: w ++ e ++ 41%N :: rest) as Eq.
  { intros rest. rewrite <- !app_assoc. reflexivity. }
  split; [apply function_good|]. split; [constructor|].
  split; [exists n, (w1 ++ p ++ w2 ++ $")" ++ $"(" ++ (w ++ e) ++ $")"); auto|].
  split; [repeat apply fin_app; apply (fin_char 41%N); lia|].
  intros rest R. rewrite Eq.
  destruct (p_params_group p l w1 w2 (40%N :: w ++ e ++ 41%N :: rest) Pl B1 B2) as (cs & Pp & Ap).
  apply pl_next.
  { apply f_ref, f_seq. eapply fs_later; [apply p_name; [reflexivity|exact N|reflexivity]|].
    eapply fs_later; [exact Pp|]. apply (f_inner e []); assumption. }
  apply pl_here. destruct (P [] rest (Forall_nil _)) as (x1 & x3 & x5 & ps' & v & vs & Pa & Hp & L & ->).
  eapply p_ref with (cs := [PStr n; PList cs; PList [PList []; PList []; PList [x1; PVal v; x3]; PList ps'; x5]]); [reflexivity| |].
  - cbn [grammar]. apply p_seq. eapply pa_cons; [apply p_name; [reflexivity|exact N|reflexivity]|].
    eapply pa_cons; [exact Pp|]. eapply pa_cons; [apply p_seq|apply pa_nil].
    eapply pa_cons; [apply (p_chr Ropen_paren 40%N); reflexivity|].
    eapply pa_cons; [apply p_blank; [exact B|apply head_space, H]|exact Pa].
  - cbn [act visit_curried_arbitrary_function]. rewrite Ap, L. cbn [bind as_mval]. rewrite Hp. reflexivity.
Qed.

(** * Arguments *)
Lemma p_arg w1 w2 e v rest : white w1 -> white w2 -> sum_ok e v -> sum_end rest ->
  parses arg_item (w1 ++ 44%N :: w2 ++ e ++ rest) (PList [PList []; PList []; PList []; PVal v]) rest.
Proof.
  intros B1 B2 S E. apply p_seq. eapply pa_cons; [apply p_blank; [exact B1|reflexivity]|].
  eapply pa_cons; [apply (p_chr Rcomma 44%N); reflexivity|].
  eapply pa_cons; [apply p_blank; [exact B2|apply shape_space, S]|].
  eapply pa_cons; [apply sum_parse; [exact S|exact E]|apply pa_nil].
Qed.
Lemma arg_stop rest : parses_many arg_item (41%N :: rest) [] (41%N :: rest).
Proof.
  apply pm_stop, f_seq. eapply fs_later; [apply p_ws0; reflexivity|].
  apply fs_here, (f_chr _ 44%N); reflexivity.
Qed.
Lemma comma_calm : calm_char 44%N.
Proof. unfold calm_char, clean_char. lia. Qed.
Lemma more_one w1 w2 e v : white w1 -> white w2 -> sum_ok e v -> more_ok (w1 ++ $"," ++ w2 ++ e) [v].
Proof.
  intros B1 B2 S. exists w1, (w2 ++ e). split; [reflexivity|]. split; [exact B1|]. split.
  - apply (opens_app [44%N]); [left; constructor; [apply comma_calm|constructor]|].
    apply opens_app; [left; apply blank_calm, B2|apply S].
  - intros w rest B. eexists. split; [|instantiate (1 := [PList [PList []; PList []; PList []; PVal v]]); reflexivity].
    cbn [app]. rewrite <- app_assoc. eapply pm_next; [|  |apply arg_stop].
    + apply p_arg; [exact B|exact B2|exact S|]. apply (sum_end_at [] 41%N); [constructor|auto].
    + repeat (rewrite app_length || cbn [List.length app]). lia.
Qed.
Lemma more_more w1 w2 e v r vs : white w1 -> white w2 -> sum_ok e v -> more_ok r vs ->
  more_ok (w1 ++ $"," ++ w2 ++ e ++ r) (v :: vs).
Proof.
  intros B1 B2 S (w3 & t & -> & B3 & O & P). exists w1, (w2 ++ e ++ w3 ++ 44%N :: t).
  split; [reflexivity|]. split; [exact B1|]. split.
  - apply (opens_app [44%N]); [left; constructor; [apply comma_calm|constructor]|].
    apply opens_app; [left; apply blank_calm, B2|]. apply opens_app; [apply S|].
    apply opens_app; [left; apply blank_calm, B3|exact O].
  - intros w rest B. destruct (P w3 rest B3) as (ps & M & L).
    exists (PList [PList []; PList []; PList []; PVal v] :: ps). split; [|cbn; rewrite L; reflexivity].
    cbn [app]. rewrite <- !app_assoc. eapply pm_next; [|  |exact M].
    + apply p_arg; [exact B|exact B2|exact S|]. apply (sum_end_at w3 44%N); auto.
    + repeat (rewrite app_length || cbn [List.length app]). lia.
Qed.
Lemma args_one w1 e w2 v : white w1 -> sum_ok e v -> has_placeholder v = None -> white w2 -> args_ok (w1 ++ e ++ w2) [v].
Proof.
  intros B1 S Hp B2. exists w1, (e ++ w2). split; [reflexivity|]. split; [exact B1|].
  split; [apply opens_app; [apply S|left; apply blank_calm, B2]|]. split; [apply head_app, S|].
  intros w rest B. do 4 eexists. exists v, []. split.
  - rewrite <- app_assoc. eapply pa_cons.
    { apply p_seq. eapply pa_cons; [apply p_blank; [exact B|apply shape_space, S]|].
      eapply pa_cons; [apply sum_parse; [exact S|apply sum_end_at; auto]|].
      eapply pa_cons; [apply p_blank; [exact B2|reflexivity]|apply pa_nil]. }
    eapply pa_cons; [apply p_star, arg_stop|].
    eapply pa_cons; [apply (p_chr Rclose_paren 41%N); reflexivity|apply pa_nil].
  - split; [exact Hp|]. split; reflexivity.
Qed.
Lemma args_more w1 e v r vs : white w1 -> sum_ok e v -> has_placeholder v = None -> more_ok r vs -> args_ok (w1 ++ e ++ r) (v :: vs).
Proof.
  intros B1 S Hp (w3 & t & -> & B3 & O & P). exists w1, (e ++ w3 ++ 44%N :: t). split; [reflexivity|].
  split; [exact B1|]. split.
  { apply opens_app; [apply S|]. apply opens_app; [left; apply blank_calm, B3|exact O]. }
  split; [apply head_app, S|].
  intros w rest B. destruct (P [] rest (Forall_nil _)) as (ps & M & L). do 3 eexists. exists ps, v, vs. split.
  - rewrite <- !app_assoc. eapply pa_cons.
    { apply p_seq. eapply pa_cons; [apply p_blank; [exact B|apply shape_space, S]|].
      eapply pa_cons; [apply sum_parse; [exact S|apply sum_end_at; auto]|].
      eapply pa_cons; [apply p_blank; [exact B3|reflexivity]|apply pa_nil]. }
    eapply pa_cons; [apply p_star, M|].
    eapply pa_cons; [apply (p_chr Rclose_paren 41%N); reflexivity|apply pa_nil].
  - split; [exact Hp|]. split; [exact L|reflexivity].
Qed.

(** * Coefficients *)
Lemma coef_end_number rest : coef_end rest -> heads is_digit rest = false /\ heads (N.eqb 46) rest = false.
Proof.
  intros (K & _). split; (eapply heads_weaken; [|exact K]); intros c H; apply key_b_iff.
  - apply is_digit_iff in H. left. right. left. exact H.
  - apply N.eqb_eq in H. subst c. right. reflexivity.
Qed.
Lemma number_shape t : number_text t -> shape t /\ heads (N.eqb 45) t = false.
Proof.
  intros H. split; [split; [|split]|].
  - left. destruct H as [(N & F)|(a & b & -> & (N & F) & _)].
    + destruct t as [|c t]; [congruence|]. inversion F; subst. exists c, t. auto.
    + destruct a as [|c a]; [congruence|]. inversion F; subst. exists c, (a ++ $"." ++ b). auto.
  - left. apply number_calm, H.
  - apply number_fin, H.
  - destruct (number_heads t [] (N.eqb 45) H) as (c & D & E). rewrite app_nil_r in E. rewrite E.
    apply N.eqb_neq. unfold ascii_digit in D. lia.
Qed.
Lemma coef_number t : number_text t -> coef_ok t (VObj (OFloat (float_of_text t))).
Proof.
  intros H. destruct (number_shape t H) as (S & M). split; [exact I|]. split; [exact S|]. split; [exact M|].
  intros rest E. destruct (coef_end_number rest E) as (E1 & E2).
  eapply p_ref with (cs := [_]); [reflexivity| |reflexivity]. cbn [grammar]. apply p_alt, pl_here.
  apply p_number; assumption.
Qed.
(** anything that does not start with a digit or a double quote *)
Lemma p_coef_filter s v rest : heads is_digit s = false -> heads (N.eqb DQ) s = false ->
  parses (PRef Rfilter) s v rest -> parses (PRef Rcoefficient) s v rest.
Proof.
  intros D Q P. eapply p_ref with (cs := [_]); [reflexivity| |reflexivity]. cbn [grammar]. apply p_alt.
  apply pl_next; [apply f_number, D|]. apply pl_next; [apply f_quoted; [reflexivity|exact Q]|].
  apply pl_here, P.
Qed.
Lemma p_filter t v s1 fs p f s2 pg g rest : parses (PRef Rtarget) t (PVal v) s1 -> good v -> mql_query v ->
  parses (POpt braces_peg) s1 (PList fs) s2 -> packed_filters fs = Ok p -> packed_of f p ->
  parses (POpt (PRef Rgroup_by)) s2 (PList pg) rest -> groups_of g pg ->
  parses (PRef Rfilter) t (PVal (with_groupby g (with_filter f v))) rest /\ good (with_groupby g (with_filter f v)).
Proof.
  intros Pt G Q Pf Pk Pp Pg Gg. destruct (apply_filters_ok v f p G Q Pp) as (A1 & G1).
  destruct (apply_groupby_ok (with_filter f v) g pg G1 (with_query f v Q) Gg) as (A2 & G2). split; [|exact G2].
  eapply p_ref with (cs := [PVal v; PList fs; PList pg]); [reflexivity| |].
  - cbn [grammar]. apply p_seq. eapply pa_cons; [exact Pt|]. eapply pa_cons; [exact Pf|].
    eapply pa_cons; [exact Pg|apply pa_nil].
  - cbn [act visit_filter]. rewrite Pk. cbn [bind]. rewrite query_is by exact Q.
    cbn. rewrite A1. cbn [bind]. rewrite A2. reflexivity.
Qed.
Lemma p_function s v g l rest : parses_alt call_peg (s ++ g ++ rest) (PVal v) (g ++ rest) -> good v -> mql_query v ->
  opt_group_text g l -> heads key_b rest = false -> no_by rest ->
  parses (PRef Rfunction) (s ++ g ++ rest) (PVal (with_groupby l v)) rest /\ good (with_groupby l v).
Proof.
  intros P G Q Og K B. destruct (p_opt_group g l rest Og K B) as (pg & Pg & Gg).
  destruct (apply_groupby_ok v l pg G Q Gg) as (A & G'). split; [|exact G'].
  eapply p_ref with (cs := [PList [PVal v]; PList pg]); [reflexivity| |].
  - cbn [grammar]. apply p_seq. eapply pa_cons; [apply p_alt, P|]. eapply pa_cons; [exact Pg|apply pa_nil].
  - cbn [act visit_function]. rewrite query_is by exact Q. cbn. rewrite A. reflexivity.
Qed.
Lemma called_heads s rest : called s -> exists c, word_start c /\ forall f, heads f (s ++ rest) = f c.
Proof. intros (n & t & -> & (c & u & -> & W & _)). exists c. split; [exact W|reflexivity]. Qed.
Lemma p_target_function s v rest rest' : called s -> mql_query v -> parses (PRef Rfunction) (s ++ rest) (PVal v) rest' ->
  parses (PRef Rtarget) (s ++ rest) (PVal v) rest'.
Proof.
  intros C Q P. destruct (called_heads s rest C) as (c & W & Hc). apply word_start_range in W.
  eapply p_ref with (cs := [PVal v]); [reflexivity| |].
  - cbn [grammar]. apply p_alt. apply pl_next; [apply f_variable; rewrite Hc; apply N.eqb_neq; lia|].
    apply pl_next; [apply f_ref, f_seq, fs_here, (f_chr _ 40%N); [reflexivity|rewrite Hc; apply N.eqb_neq; lia]|].
    apply pl_here, P.
  - cbn [act visit_target]. destruct Q; reflexivity.
Qed.
Lemma p_target_nested w1 e v w2 rest : white w1 -> sum_ok e v -> white w2 -> mql_query v ->
  parses (PRef Rtarget) (40%N :: w1 ++ e ++ w2 ++ 41%N :: rest) (PVal v) rest.
Proof.
  intros B1 S B2 Q. eapply p_ref with (cs := [PVal v]); [reflexivity| |].
  - cbn [grammar]. apply p_alt. apply pl_next; [apply f_variable; reflexivity|]. apply pl_here.
    eapply p_ref with (cs := [PList []; PList []; PVal v; PList []; PList []]); [reflexivity| |].
    + cbn [grammar]. apply p_seq. eapply pa_cons; [apply (p_chr Ropen_paren 40%N); reflexivity|].
      eapply pa_cons; [apply p_blank; [exact B1|apply shape_space, S]|].
      eapply pa_cons; [apply sum_parse; [exact S|apply sum_end_at; auto]|].
      eapply pa_cons; [apply p_blank; [exact B2|reflexivity]|].
      eapply pa_cons; [apply (p_chr Rclose_paren 41%N); reflexivity|apply pa_nil].
    + cbn [act]. rewrite query_is by exact Q. reflexivity.
  - cbn [act visit_target]. destruct Q; reflexivity.
Qed.
Lemma group_no_paren g l rest : opt_group_text g l -> heads (N.eqb 40) rest = false -> heads (N.eqb 40) (g ++ rest) = false.
Proof.
  intros [|g' l' G] H; [exact H|]. destruct G as [[|c w1] w2 k B N _ _|[|c w1] w2 w3 t l' w4 B N _ _ _ _]; try congruence;
    inversion B as [|? ? Sp _]; subst; apply space_num in Sp; cbn [app heads]; apply N.eqb_neq; lia.
Qed.
Lemma braces_heads b f rest h : braces_text b f -> heads h (b ++ rest) = h 123%N.
Proof. intros H; destruct H; reflexivity. Qed.
Lemma braces_no_by b f rest : braces_text b f -> no_by (b ++ rest).
Proof. intros H. unfold no_by. rewrite skip_none; rewrite (braces_heads b f rest _ H); reflexivity. Qed.
Lemma shape_fin s t : shape s -> fin (s ++ t) -> opens (s ++ t) -> shape (s ++ t).
Proof. intros (H & _) F O. split; [apply head_app, H|auto]. Qed.
Lemma called_app s t : called s -> called (s ++ t).
Proof. intros (n & u & -> & N). exists n, (u ++ t). rewrite <- app_assoc. auto. Qed.
Lemma coef_call_filter s v g1 l1 b f g2 l2 : call_ok s v -> opt_group_text g1 l1 -> braces_text b f -> opt_group_text g2 l2 ->
  coef_ok (s ++ g1 ++ b ++ g2) (with_groupby l2 (with_filter f (with_groupby l1 v))).
Proof.
  intros (G & Q & C & F & P) O1 Bt O2.
  assert (forall rest, coef_end rest -> parses (PRef Rcoefficient) ((s ++ g1 ++ b ++ g2) ++ rest)
     (PVal (with_groupby l2 (with_filter f (with_groupby l1 v)))) rest /\ good (with_groupby l2 (with_filter f (with_groupby l1 v)))) as K.
  { intros rest (E1 & E2 & E3 & E4). rewrite <- !app_assoc.
    destruct (p_function s v g1 l1 (b ++ g2 ++ rest)) as (Pf & G1); [|exact G|exact Q|exact O1| | |].
    { apply P. eapply group_no_paren; [exact O1|]. rewrite (braces_heads b f _ _ Bt). reflexivity. }
    { rewrite (braces_heads b f _ _ Bt). reflexivity. }
    { eapply braces_no_by, Bt. }
    apply p_target_function in Pf; [|exact C|apply group_query, Q].
    destruct (p_braces b f (g2 ++ rest) Bt) as (fs & p & Pb & Pk & Pp).
    destruct (p_opt_group g2 l2 rest O2 E1 E4) as (pg & Pg & Gg).
    destruct (p_filter _ _ _ _ _ _ _ _ _ _ Pf G1 (group_query l1 v Q) Pb Pk Pp Pg Gg) as (R & G2).
    split; [|exact G2]. destruct (called_heads s (g1 ++ b ++ g2 ++ rest) C) as (c & W & Hc).
    apply p_coef_filter; [| |exact R]; rewrite Hc; unfold word_start, ascii_letter in W.
    - destruct (is_digit c) eqn:D; [|reflexivity]. apply is_digit_iff in D. unfold ascii_digit in D. lia.
    - apply N.eqb_neq. unfold DQ. lia. }
  destruct (called_shape (s ++ g1 ++ b ++ g2)) as (Sh & M); [apply called_app, C| |].
  { apply fin_app, fin_app. eapply opt_group_fin; [eapply braces_fin, Bt|exact O2]. }
  split; [apply (K []); apply sum_end_nil|]. split; [exact Sh|]. split; [exact M|]. intros rest E. apply K, E.
Qed.
Lemma p_no_filter v : with_filter None v = v.
Proof. destruct v; reflexivity. Qed.
Lemma p_no_group v : with_groupby None v = v.
Proof. destruct v; reflexivity. Qed.
Lemma coef_call s v g l : call_ok s v -> opt_group_text g l -> coef_ok (s ++ g) (with_groupby l v).
Proof.
  intros (G & Q & C & F & P) O.
  assert (forall rest, coef_end rest -> parses (PRef Rcoefficient) ((s ++ g) ++ rest)
     (PVal (with_groupby l v)) rest /\ good (with_groupby l v)) as K.
  { intros rest (E1 & E2 & E3 & E4). rewrite <- !app_assoc.
    destruct (p_function s v g l rest) as (Pf & G1); [|exact G|exact Q|exact O|exact E1|exact E4|].
    { apply P. eapply group_no_paren; [exact O|exact E2]. }
    apply p_target_function in Pf; [|exact C|apply group_query, Q].
    destruct (p_filter _ _ _ [] [] None _ [] None _ Pf G1 (group_query l v Q)
       (p_no_braces rest E3) eq_refl eq_refl (p_opt_none _ _ (f_group rest E4)) eq_refl) as (R & G2).
    rewrite p_no_group, p_no_filter in R, G2.
    split; [|exact G2]. destruct (called_heads s (g ++ rest) C) as (c & W & Hc).
    apply p_coef_filter; [| |exact R]; rewrite Hc; unfold word_start, ascii_letter in W.
    - destruct (is_digit c) eqn:D; [|reflexivity]. apply is_digit_iff in D. unfold ascii_digit in D. lia.
    - apply N.eqb_neq. unfold DQ. lia. }
  destruct (called_shape (s ++ g)) as (Sh & M); [apply called_app, C|eapply opt_group_fin; eassumption|].
  split; [apply (K []); apply sum_end_nil|]. split; [exact Sh|]. split; [exact M|]. intros rest E. apply K, E.
Qed.
Lemma paren_shape t : fin (40%N :: t) -> shape (40%N :: t).
Proof. intros F. split; [left; exists 40%N, t; auto|]. split; [right; exists [], t; split; [reflexivity|constructor]|exact F]. Qed.
Lemma coef_paren_filter w1 e v w2 b f g l : white w1 -> sum_ok e v -> white w2 -> mql_query v ->
  braces_text b f -> opt_group_text g l ->
  coef_ok ($"(" ++ w1 ++ e ++ w2 ++ $")" ++ b ++ g) (with_groupby l (with_filter f v)).
Proof.
  intros B1 S B2 Q Bt O.
  assert (forall rest, coef_end rest -> parses (PRef Rcoefficient) (($"(" ++ w1 ++ e ++ w2 ++ $")" ++ b ++ g) ++ rest)
     (PVal (with_groupby l (with_filter f v))) rest /\ good (with_groupby l (with_filter f v))) as K.
  { intros rest (E1 & E2 & E3 & E4). rewrite <- !app_assoc.
    pose proof (p_target_nested w1 e v w2 (b ++ g ++ rest) B1 S B2 Q) as Pt.
    destruct (p_braces b f (g ++ rest) Bt) as (fs & p & Pb & Pk & Pp).
    destruct (p_opt_group g l rest O E1 E4) as (pg & Pg & Gg).
    destruct (p_filter _ _ _ _ _ _ _ _ _ _ Pt (proj1 S) Q Pb Pk Pp Pg Gg) as (R & G2).
    split; [|exact G2]. apply p_coef_filter; [reflexivity|reflexivity|exact R]. }
  split; [apply (K []); apply sum_end_nil|].
  split. { apply paren_shape. apply (fin_app [40%N]). do 4 apply fin_app.
           eapply opt_group_fin; [eapply braces_fin, Bt|exact O]. }
  split; [reflexivity|]. intros rest E. apply K, E.
Qed.
Lemma coef_paren w1 e v w2 g l : white w1 -> sum_ok e v -> white w2 -> mql_query v -> opt_group_text g l ->
  coef_ok ($"(" ++ w1 ++ e ++ w2 ++ $")" ++ g) (with_groupby l v).
Proof.
  intros B1 S B2 Q O.
  assert (forall rest, coef_end rest -> parses (PRef Rcoefficient) (($"(" ++ w1 ++ e ++ w2 ++ $")" ++ g) ++ rest)
     (PVal (with_groupby l v)) rest /\ good (with_groupby l v)) as K.
  { intros rest (E1 & E2 & E3 & E4). rewrite <- !app_assoc.
    pose proof (p_target_nested w1 e v w2 (g ++ rest) B1 S B2 Q) as Pt.
    destruct (p_opt_group g l rest O E1 E4) as (pg & Pg & Gg).
    assert (heads (N.eqb 123) (g ++ rest) = false) as NB.
    { destruct O as [|g' l' O]; [exact E3|].
      destruct O as [[|c w1'] ? ? B N _ _|[|c w1'] ? ? ? ? ? B N _ _ _ _]; try congruence;
        inversion B as [|? ? Sp _]; subst; apply space_num in Sp; cbn [app heads]; apply N.eqb_neq; lia. }
    destruct (p_filter _ _ _ [] [] None _ _ _ _ Pt (proj1 S) Q (p_no_braces _ NB) eq_refl eq_refl Pg Gg) as (R & G2).
    rewrite p_no_filter in R, G2.
    split; [|exact G2]. apply p_coef_filter; [reflexivity|reflexivity|exact R]. }
  split; [apply (K []); apply sum_end_nil|].
  split. { apply paren_shape. apply (fin_app [40%N]). do 3 apply fin_app.
           eapply opt_group_fin; [apply (fin_char 41%N); lia|exact O]. }
  split; [reflexivity|]. intros rest E. apply K, E.
Qed.

(** * Unary minus *)
Lemma unary_coef s v : coef_ok s v -> unary_ok s v.
Proof.
  intros (G & Sh & M & P). split; [exact G|]. split; [exact Sh|]. intros rest E.
  eapply p_ref with (cs := [PList []; PVal v]); [reflexivity| |reflexivity].
  cbn [grammar]. apply p_seq. eapply pa_cons; [apply p_opt_none, (f_chr Runary_op 45%N); [reflexivity|]|].
  { rewrite heads_app_ne; [exact M|]. destruct Sh as (_ & _ & (x & c & -> & _)). destruct x; discriminate. }
  eapply pa_cons; [apply P, E|apply pa_nil].
Qed.
Lemma minus_shape s : shape s -> shape ($"-" ++ s).
Proof.
  intros (_ & O & F). split; [left; exists 45%N, s; auto|]. split; [|apply fin_app, F].
  apply opens_app; [left; repeat constructor; discriminate|exact O].
Qed.
Lemma unary_op_minus s : parses (PRef Runary_op) (45%N :: s) (PStr ($"negate")) s.
Proof. apply (p_chr Runary_op 45%N); reflexivity. Qed.
Lemma unary_minus t : number_text t -> unary_ok ($"-" ++ t) (VObj (OFloat (flt_opp (float_of_text t)))).
Proof.
  intros H. destruct (coef_number t H) as (_ & Sh & _ & P). split; [exact I|]. split; [apply minus_shape, Sh|].
  intros rest E. eapply p_ref with (cs := [PList [PStr ($"negate")]; _]); [reflexivity| |].
  - cbn [grammar]. apply p_seq. eapply pa_cons; [apply p_opt, unary_op_minus|].
    eapply pa_cons; [apply P, E|apply pa_nil].
  - reflexivity.
Qed.
Lemma unary_negate s v : coef_ok s v -> mql_query v -> unary_ok ($"-" ++ s) (function ($"negate") [v] ONone).
Proof.
  intros (G & Sh & _ & P) Q. split; [apply function_good|]. split; [apply minus_shape, Sh|].
  intros rest E. eapply p_ref with (cs := [PList [PStr ($"negate")]; PVal v]); [reflexivity| |].
  - cbn [grammar]. apply p_seq. eapply pa_cons; [apply p_opt, unary_op_minus|].
    eapply pa_cons; [apply P, E|apply pa_nil].
  - destruct Q; reflexivity.
Qed.

(** * Products and sums *)
Lemma op_cases (o n : str) x nx y ny : In (o, n) [([x], nx); ([y], ny)] ->
  exists c, o = [c] /\ In (c, n) [(x, nx); (y, ny)].
Proof. intros [H|[H|[]]]; inversion H; subst; eexists; (split; [reflexivity|cbn; auto]). Qed.
Lemma op_calm w1 o w2 : white w1 -> In o [42; 43; 45; 47]%N -> white w2 -> calm (w1 ++ [o] ++ w2).
Proof.
  intros B1 I B2. apply calm_app; [apply blank_calm, B1|]. apply calm_app; [|apply blank_calm, B2].
  constructor; [|constructor]. unfold calm_char, clean_char. cbn in I. lia.
Qed.
Lemma product_one s v : unary_ok s v -> product_ok s v.
Proof. intros (G & S & P). split; [exact G|]. split; [exact S|]. apply chain_one; assumption. Qed.
Lemma product_op s v w1 o n w2 u x : product_ok s v -> white w1 -> In (o, n) [($"*", $"multiply"); ($"/", $"divide")] ->
  white w2 -> unary_ok u x -> product_ok (s ++ w1 ++ o ++ w2 ++ u) (function n [v; x] ONone).
Proof.
  intros (G & S & C) B1 I B2 (Gu & Su & Pu).
  apply (op_cases o n 42%N ($"multiply") 47%N ($"divide")) in I. destruct I as (c & -> & I).
  assert (In c [42; 43; 45; 47]%N /\ (forall t, coef_end (w1 ++ c :: t)) /\ mql_space c = false) as (Ic & Ec & Sc).
  { cbn in I. destruct I as [I|[I|[]]]; inversion I; subst; (split; [cbn; tauto|split; [|reflexivity]]);
      intros t; apply end_at; [exact B1|cbn; tauto|exact B1|cbn; tauto]. }
  split; [apply function_good|]. split.
  - replace (s ++ w1 ++ [c] ++ w2 ++ u) with (s ++ (w1 ++ [c] ++ w2) ++ u) by (rewrite <- !app_assoc; reflexivity).
    apply shape_join; [exact S|apply op_calm; assumption|exact Su].
  - apply chain_step; [exact C|exact B1|exact B2|exact Ec|exact Sc| | |exact Pu].
    + intros t. apply p_op. left. auto.
    + intros t. apply shape_space, Su.
Qed.
Lemma sum_one s v : product_ok s v -> sum_ok s v.
Proof.
  intros H. pose proof H as (G & S & P). split; [exact G|]. split; [exact S|]. apply chain_one; [exact G|].
  intros rest E. apply product_parse; assumption.
Qed.
Lemma sum_op s v w1 o n w2 u x : sum_ok s v -> white w1 -> In (o, n) [($"+", $"plus"); ($"-", $"minus")] ->
  white w2 -> product_ok u x -> sum_ok (s ++ w1 ++ o ++ w2 ++ u) (function n [v; x] ONone).
Proof.
  intros (G & S & C) B1 I B2 Pu. pose proof Pu as (Gu & Su & _).
  apply (op_cases o n 43%N ($"plus") 45%N ($"minus")) in I. destruct I as (c & -> & I).
  assert (In c [42; 43; 45; 47]%N /\ (forall t, pend (w1 ++ c :: t)) /\ mql_space c = false) as (Ic & Ec & Sc).
  { cbn in I. destruct I as [I|[I|[]]]; inversion I; subst; (split; [cbn; tauto|split; [|reflexivity]]);
      intros t; apply pend_at; auto. }
  split; [apply function_good|]. split.
  - replace (s ++ w1 ++ [c] ++ w2 ++ u) with (s ++ (w1 ++ [c] ++ w2) ++ u) by (rewrite <- !app_assoc; reflexivity).
    apply shape_join; [exact S|apply op_calm; assumption|exact Su].
  - apply chain_step; [exact C|exact B1|exact B2|exact Ec|exact Sc| | |].
    + intros t. apply p_op. right. auto.
    + intros t. apply shape_space, Su.
    + intros rest E. apply product_parse; assumption.
Qed.

(** * All texts *)
(** no expression is a metric without an aggregate *)
Lemma placed_filter f v : has_placeholder v = None -> has_placeholder (with_filter f v) = None.
Proof.
  intros H. destruct f, v; try exact H; try reflexivity. unfold has_placeholder in *. cbn.
  destruct (str_eqb _ _); [discriminate|reflexivity].
Qed.
Lemma placed_groupby l v : has_placeholder v = None -> has_placeholder (with_groupby l v) = None.
Proof.
  intros H. destruct l, v; try exact H; try reflexivity. unfold has_placeholder in *. cbn.
  destruct (str_eqb _ _); [discriminate|reflexivity].
Qed.
Lemma placed m n p f g : n <> placeholder_name -> has_placeholder (VTS (mkTS m n p f g)) = None.
Proof.
  intros H. unfold has_placeholder. cbn [ts_agg]. destruct (str_eqb n placeholder) eqn:E; [|reflexivity].
  apply str_eqb_eq in E. contradiction.
Qed.
Lemma sum_placed : forall s v, sum_text s v -> has_placeholder v = None.
Proof.
  apply (sum_ind' RT (fun s v _ => has_placeholder v = None) (fun s v _ => True) (fun s v _ => True)
    (fun s v _ => has_placeholder v = None) (fun s v _ => has_placeholder v = None)
    (fun s v _ => has_placeholder v = None) (fun s v _ => has_placeholder v = None)); intros; try exact I; try reflexivity;
    try apply placed_groupby; try apply placed_filter; try apply placed_groupby; try (apply placed; assumption); assumption.
Qed.
Theorem texts_ok :
  (forall s v, call_text s v -> call_ok s v) /\ (forall a ps, args_text a ps -> args_ok a ps)
  /\ (forall r vs, more_args r vs -> more_ok r vs) /\ (forall s v, coef_text s v -> coef_ok s v)
  /\ (forall s v, unary_text s v -> unary_ok s v) /\ (forall s v, product_text s v -> product_ok s v)
  /\ (forall s v, sum_text s v -> sum_ok s v).
Proof.
  apply (text_ind RT (fun s v _ => call_ok s v) (fun s v _ => args_ok s v) (fun s v _ => more_ok s v)
    (fun s v _ => coef_ok s v) (fun s v _ => unary_ok s v) (fun s v _ => product_ok s v) (fun s v _ => sum_ok s v)).
  - intros. apply call_aggregate; assumption.
  - intros. apply call_aggregate_params; assumption.
  - intros. apply call_function; assumption.
  - intros. apply call_function_params; assumption.
  - intros. apply args_one; try assumption. eapply sum_placed; eassumption.
  - intros. apply args_more; try assumption. eapply sum_placed; eassumption.
  - intros. apply more_one; assumption.
  - intros. apply more_more; assumption.
  - intros. apply coef_number; assumption.
  - intros. apply coef_call; assumption.
  - intros. apply coef_call_filter; assumption.
  - intros. apply coef_paren; assumption.
  - intros. apply coef_paren_filter; assumption.
  - intros. apply unary_coef; assumption.
  - intros. apply unary_minus; assumption.
  - intros. apply unary_negate; assumption.
  - intros. apply product_one; assumption.
  - intros. apply product_op; assumption.
  - intros. apply sum_one; assumption.
  - intros. apply sum_op; assumption.
Qed.

(** * Whole texts, white space around them *)
Lemma lstrip_app f w s : forallb f w = true -> lstrip f (w ++ s) = lstrip f s.
Proof.
  induction w as [|c w IH]; [reflexivity|]. cbn. destruct (f c); [|discriminate]. exact IH.
Qed.
Lemma blank_is_space w : white w -> forallb is_space w = true.
Proof.
  intros B. apply forallb_forall. intros c I. unfold white in B. rewrite Forall_forall in B. specialize (B c I).
  unfold is_space. destruct B as [B|(B & U)].
  - replace (c <? 128)%N with true by (symmetry; apply N.ltb_lt; lia). unfold in_range. rewrite !orb_true_iff, !andb_true_iff, !N.leb_le, N.eqb_eq. lia.
  - destruct (N.ltb_spec c 128); [|exact U]. unfold in_range. rewrite !orb_true_iff, !andb_true_iff, !N.leb_le, N.eqb_eq. lia.
Qed.
Lemma forallb_rev {A} (f : A -> bool) l : forallb f l = true -> forallb f (rev l) = true.
Proof. intros H. rewrite forallb_forall in *. intros x I. apply H, in_rev, I. Qed.
Lemma strip_blank w s w' : white w -> white w' -> fin s -> heads is_space s = false ->
  strip is_space (w ++ s ++ w') = s.
Proof.
  intros B B' (x & c & -> & Hc) Hh. unfold strip, rstrip.
  replace (rev (w ++ (x ++ [c]) ++ w')) with (rev w' ++ c :: rev (w ++ x))
    by (rewrite !rev_app_distr, <- !app_assoc; reflexivity).
  rewrite lstrip_app by (apply forallb_rev, blank_is_space, B').
  rewrite (lstrip_id is_space (c :: rev (w ++ x))) by exact Hc. cbn [rev]. rewrite rev_involutive, <- app_assoc.
  rewrite lstrip_app by (apply blank_is_space, B). apply lstrip_id. destruct (x ++ [c]); [exact I|exact Hh].
Qed.
Lemma head_is_space s : head_ok s -> heads is_space s = false.
Proof.
  intros [(c & t & -> & H)|(n & t & -> & (c & u & -> & W & _))]; cbn [app heads]; apply space_of_low.
  - unfold ascii_digit in H. lia.
  - apply word_start_range in W. lia.
Qed.
Theorem sum_ok_parse s v w w' : sum_ok s v -> mql_query v -> white w -> white w' -> parse_mql (w ++ s ++ w') = Ok v.
Proof.
  intros (G & (Hd & O & F) & C) Q B B'.
  pose proof (strip_blank w s w' B B' F (head_is_space s Hd)) as St.
  assert (parse_mql s = Ok v) as P.
  { apply parse_mql_ok.
    - rewrite <- (app_nil_r s) at 1. apply (strip_blank [] s []); [constructor|constructor|exact F|apply head_is_space, Hd].
    - rewrite <- (app_nil_r s) at 1. apply sum_parse; [split; [exact G|split; [split; auto|exact C]]|apply sum_end_nil].
    - destruct Q; exact I. }
  unfold parse_mql in *. rewrite St. rewrite <- P at 1.
  replace (strip is_space s) with s; [reflexivity|].
  symmetry. rewrite <- (app_nil_r s) at 1. apply (strip_blank [] s []); [constructor|constructor|exact F|apply head_is_space, Hd].
Qed.
Theorem parse_sum s v w w' : sum_text s v -> mql_query v -> white w -> white w' -> parse_mql (w ++ s ++ w') = Ok v.
Proof. intros H Q B B'. apply sum_ok_parse; try assumption. apply texts_ok, H. Qed.
End Read.
