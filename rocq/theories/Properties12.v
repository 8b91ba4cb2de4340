(** Property C63: the SnQL text determines the query. *)
From Verif Require Import PyBase PyFacts DateTime Objects Exprs Translate Optimizer Query SpecExpr SpecText SpecOccurs SpecQuery SpecSetters
  SpecRefs SpecOrder SpecLogic WfFacts PrintProps QueryProps SpecSnql SnqlFacts SnqlDenote SnqlQuery SpecAlike AlikeFacts
  ApiTac Concrete LiteralFacts.

(** going through the objects occurring in concrete objects and queries *)
Ltac walk :=
  repeat match goal with
  | H : False |- _ => destruct H
  | H : In _ [] |- _ => destruct H
  | H : In _ (_ :: _) |- _ => destruct H as [H|H]; [subst|]
  | H : ?x = ONone |- _ => is_var x; subst x
  | H : ?x = OLimit _ |- _ => is_var x; subst x
  | H : None = Some _ |- _ => discriminate H
  | H : occurs ?x ?o |- _ => assert_fails (is_var o); let o' := eval hnf in o in change (occurs x o') in H; inversion H; clear H; subst
  | H : c_entity _ = Some _ |- _ => progress cbn in H
  | H : list_or_tuple _ _ |- _ => inversion H; clear H; subst
  | H : ex _ |- _ => destruct H
  | H : _ /\ _ |- _ => destruct H
  | H : Some _ = Some _ |- _ => injection H as H; subst
  end.

Section P.
Context {RT : PyRT}.

(** ** C63 The SnQL text determines the query *)
(** names that are printed as they are contain no SnQL punctuation (SpecSnql.snql_names) *)
Definition plain_names (q : query) : Prop := forall o x, item_of o q -> occurs x o -> snql_names x.
(** the text is that of a SnQL tree which says what the query says *)
Theorem C63_text : forall q s, api_query q -> class_typed_query q -> plain_names q -> serialize q = Ok s ->
  exists q' l l' t, same_but_where q q' /\ filters q l /\ filters q' l' /\ Forall2 optimized_at l l'
    /\ denotes_query q' t /\ good_query t /\ text_of_query t = s.
Proof.
  intros q s A T N E. destruct (serialize_shows q s (api_wf_query q A) T (fun o I x O => N o x I O) E) as (q' & l & l' & t & _ & H). exists q', l, l', t. exact H.
Qed.
(** SnQL is unambiguous: the text determines the tree *)
Theorem C63_unambiguous : forall t t', good_query t -> good_query t' -> text_of_query t = text_of_query t' -> same_query t t'.
Proof. exact query_unique. Qed.
(** queries with one text are alike, apart from the rewriting of ORs in WHERE; missing: columns
    named like literals, functions without parameters, functions array, tuple and toDateTime
    (clear_query), names with punctuation (plain_names) *)
Theorem C63_same_text_partial : forall q1 q2 s, api_query q1 -> api_query q2 -> class_typed_query q1 -> class_typed_query q2 ->
  plain_names q1 -> plain_names q2 -> clear_query q1 -> clear_query q2 -> serialize q1 = Ok s -> serialize q2 = Ok s ->
  exists q1' q2' l1 l1' l2 l2', same_but_where q1 q1' /\ filters q1 l1 /\ filters q1' l1' /\ Forall2 optimized_at l1 l1'
    /\ same_but_where q2 q2' /\ filters q2 l2 /\ filters q2' l2' /\ Forall2 optimized_at l2 l2'
    /\ alike_query q1' q2'.
Proof.
  intros q1 q2 s A1 A2 T1 T2 N1 N2 C1 C2 E1 E2.
  destruct (serialize_shows q1 s (api_wf_query q1 A1) T1 (fun o I x O => N1 o x I O) E1) as (q1' & l1 & l1' & t1 & W1 & S1 & F1 & F1' & O1 & D1 & G1 & X1).
  destruct (serialize_shows q2 s (api_wf_query q2 A2) T2 (fun o I x O => N2 o x I O) E2) as (q2' & l2 & l2' & t2 & W2 & S2 & F2 & F2' & O2 & D2 & G2 & X2).
  exists q1', q2', l1, l1', l2, l2'. repeat (split; [assumption|]).
  assert (Q : same_query t2 t1) by (apply query_unique; congruence).
  apply (denotes_query_alike q1' t1); [exact W1|exact W2|exact (clear_where _ _ _ _ C1 S1 F1 F1' O1)|exact (clear_where _ _ _ _ C2 S2 F2 F2' O2)|exact D1|].
  eapply denotes_same; eassumption.
Qed.
Definition one_select (l : list obj) : query :=
  QBase (BEntity (mkEntity ($"e") None None None)) (upd CSelect (OList l) no_clauses).
Definition call (n : str) (l : list obj) : obj := OFunc true n KNone [] KList l None.
Definition col (n : str) : obj := OColumn (mkColumn n None None None).
(** without [clear_query] not: a column called NULL is printed like None *)
Theorem C63_same_text_refuted : exists q1 q2 s, api_query q1 /\ api_query q2 /\ class_typed_query q1 /\ class_typed_query q2
  /\ plain_names q1 /\ plain_names q2 /\ serialize q1 = Ok s /\ serialize q2 = Ok s
  /\ filters q1 [] /\ filters q2 [] /\ ~ alike_query q1 q2.
Proof.
  assert (N : forall y, y = ONone \/ y = col ($"NULL") -> plain_names (one_select [call ($"ff") [y]])).
  { intros y Y o x I O. destruct Y as [->| ->]; (inversion I as [|b c k z C| |]; subst; [walk; intros a H; discriminate H|];
    destruct k; unfold clause_item in C; cbn in C; walk; try exact Logic.I; repeat constructor; cbn; lia). }
  exists (one_select [call ($"ff") [ONone]]), (one_select [call ($"ff") [col ($"NULL")]]), ($"MATCH (e) SELECT ff(NULL)").
  split; [unfold one_select, call; api_query_tac|]. split; [unfold one_select, call, col; api_query_tac|].
  split; [intros []; cbn; auto; right; eexists; split; repeat constructor|].
  split; [intros []; cbn; auto; right; eexists; split; repeat constructor|].
  split; [apply N; auto|]. split; [apply N; auto|].
  split; [vm_compute; reflexivity|]. split; [vm_compute; reflexivity|].
  split; [left; auto|]. split; [left; auto|].
  intros H. inversion H as [? ? ? ? _ K| | |]; subst. specialize (K CSelect). cbn in K.
  inversion K as [k o o' X Y|k o o' l l' _ L L' F|k o o' l l' J| | | | | |]; subst.
  - destruct X as [X|X]; inversion X.
  - inversion L; inversion L'; subst. inversion F as [|? ? ? ? F1 _]; subst. inversion F1 as [| | | |? ? ? X| | | | |? ? ? ? X| ? ? ? ? ? ? ? ? ? ? ? ? _ _ G| |]; subst.
    + inversion X.
    + inversion X.
    + inversion G as [|? ? ? ? G1 _]; subst. inversion G1 as [| | | |? ? ? X| | | | |? ? ? ? X| | |]; subst; inversion X.
  - destruct J as [J|[J|[]]]; discriminate J.
Qed.
(** nor without [plain_names]: a function called "ff(a), gg" *)
Theorem C63_names_refuted : exists q1 q2 s, api_query q1 /\ api_query q2 /\ class_typed_query q1 /\ class_typed_query q2
  /\ serialize q1 = Ok s /\ serialize q2 = Ok s /\ filters q1 [] /\ filters q2 [] /\ ~ alike_query q1 q2.
Proof.
  exists (one_select [call ($"ff(a), gg") [col ($"b")]]), (one_select [call ($"ff") [col ($"a")]; call ($"gg") [col ($"b")]]), ($"MATCH (e) SELECT ff(a), gg(b)").
  split; [unfold one_select, call; api_query_tac|]. split; [unfold one_select, call, col; api_query_tac|].
  split; [intros []; cbn; auto; right; eexists; split; repeat constructor|].
  split; [intros []; cbn; auto; right; eexists; split; repeat constructor|].
  split; [vm_compute; reflexivity|]. split; [vm_compute; reflexivity|].
  split; [left; auto|]. split; [left; auto|].
  intros H. inversion H as [? ? ? ? _ K| | |]; subst. specialize (K CSelect). cbn in K.
  inversion K as [k o o' X Y|k o o' l l' _ L L' F|k o o' l l' J| | | | | |]; subst.
  - destruct X as [X|X]; inversion X.
  - inversion L; inversion L'; subst. inversion F as [|? ? ? ? F1 F2]; subst. inversion F2.
  - destruct J as [J|[J|[]]]; discriminate J.
Qed.
End P.

(** ** Non-trivial instances *)
#[local] Existing Instance demoRT.
Lemma demo_float_text f : exists c r, demo_float_repr f = c :: r /\ (c = 45 \/ 48 <= c <= 57 \/ demo_float_repr f = $"nan" \/ demo_float_repr f = $"inf")%N.
Proof.
  assert (D : forall n, exists c r, dec_of_N n = c :: r /\ (48 <= c <= 57)%N).
  { intros n. pose proof (dec_of_N_nonempty n) as N. pose proof (dec_of_N_digits n) as G. destruct (dec_of_N n) as [|c r]; [congruence|].
    exists c, r. split; [reflexivity|]. inversion G; subst. apply is_digit_range. assumption. }
  assert (S : forall k p m e, exists c r, shortest k p (FFin false m e) = c :: r /\ (48 <= c <= 57)%N).
  { induction k as [|k IH]; intros p m e.
    - cbn [shortest fmt_fixed app]. unfold fixed_digits. destruct (D (round_scaled m e p / 10 ^ p)%N) as (c & r & -> & H). eexists c, _. split; [reflexivity|exact H].
    - cbn [shortest]. destruct (flt_eqb _ _); [|apply IH].
      cbn [fmt_fixed app]. unfold fixed_digits. destruct (D (round_scaled m e p / 10 ^ p)%N) as (c & r & -> & H). eexists c, _. split; [reflexivity|exact H]. }
  destruct f as [|[]|neg m e]; try (eexists _, _; split; [reflexivity|]; cbn; tauto).
  unfold demo_float_repr. destruct (S 17%nat 1%N m e) as (c & r & -> & H). destruct neg; eexists _, _; (split; [reflexivity|]); [left; reflexivity|right; left; exact H].
Qed.
Lemma demo_clear_word (w : str) c r : w = c :: r -> (65 <= c)%N -> ~ In w [$"NULL"; $"TRUE"; $"FALSE"; $"nan"; $"inf"] ->
  ~ In w reserved /\ (forall z, w <> dec_of_Z z) /\ (forall f, w <> float_repr f).
Proof.
  intros E C N. split; [|split].
  - intros I. apply N. cbn in *. tauto.
  - intros z ->. destruct (dec_of_Z_cases z) as [(n & X & _)|(p & X & _)]; rewrite X in E.
    + pose proof (dec_of_N_digits n) as G. rewrite E in G. inversion G as [|? ? Y]; subst. apply is_digit_range in Y. lia.
    + injection E as <- _. lia.
  - intros f ->. change (@float_repr demoRT f) with (demo_float_repr f) in *. destruct (demo_float_text f) as (c' & r' & X & Y). rewrite E in X. injection X as -> ->.
    destruct Y as [Y|[Y|[Y|Y]]]; [lia|lia|apply N; rewrite Y; cbn; tauto..].
Qed.
Definition demo_c63 (sel : obj -> obj) (x w : obj) (n : pyint) : query :=
  QBase (BEntity (mkEntity ($"events") None (Some (flt_of_Z 1)) None))
    (upd CSelect (sel (OFunc true ($"f2") KNone [] KList [col ($"a"); x; ODateTime (mkDT (mkDate 2021 1 2) 3 4 5 0 None)] (Some ($"y"))))
    (upd CWhere (OList [w]) (upd CLimit (OLimit n)
    (upd COrderby (OList [OOrderBy (OFunc false ($"quantile") KList [OInt 5] KTuple [col ($"b")] None) DESC]) no_clauses)))).
Definition demo_q1 := demo_c63 (fun o => OList [o; col ($"c")]) (OStr ($"it's")) (OBoolC BOr OR KList [OCond (col ($"a")) EQ (OInt 1); OCond (col ($"a")) EQ (OInt 2)]) (PInt 1).
Definition demo_q2 := demo_c63 (fun o => OTuple [o; OAliased (mkColumn ($"c") None None None) None]) (OBytes ($"it's")) (OCond (col ($"a")) IN (OList [OInt 1; OInt 2])) (PBool true).
Definition demo_text := $"MATCH (events SAMPLE 1.0) SELECT f2(a, 'it\'s', toDateTime('2021-01-02T03:04:05')) AS `y`, c WHERE a IN array(1, 2) ORDER BY quantile(5)(b) DESC LIMIT 1".
Ltac clear_col := let w := fresh "w" in let E := fresh "E" in intros w E; cbn in E; subst w;
  eapply demo_clear_word; [reflexivity|lia|vm_compute; intuition congruence].
Ltac show_names :=
  let o := fresh "o" in let x := fresh "x" in let I := fresh "I" in let O := fresh "O" in let k := fresh "k" in let C := fresh "C" in
  intros o x I O; inversion I as [b c|b c k z C| |]; subst; [|destruct k; unfold clause_item in C; cbn in C]; walk;
  try exact Logic.I; try (cbn; intros; discriminate);
  try first [ (apply Forall_forall; intros; walk; cbn; lia) | (apply Forall_forall; intros; walk; repeat constructor) ].
Ltac show_clear :=
  let k := fresh "k" in let x := fresh "x" in let y := fresh "y" in let C := fresh "C" in let O := fresh "O" in
  split; [|exact Logic.I]; intros k x y C O; destruct k; unfold clause_item in C; cbn in C; walk; try exact Logic.I;
  first [ clear_col | (split; [discriminate|vm_compute; intuition congruence]) ].
Example C63_case : api_query demo_q1 /\ api_query demo_q2 /\ class_typed_query demo_q1 /\ class_typed_query demo_q2
  /\ plain_names demo_q1 /\ plain_names demo_q2 /\ clear_query demo_q1 /\ clear_query demo_q2
  /\ serialize demo_q1 = Ok demo_text /\ serialize demo_q2 = Ok demo_text.
Proof.
  split; [unfold demo_q1, demo_c63; api_query_tac|]. split; [unfold demo_q2, demo_c63; api_query_tac|].
  split; [intros []; cbn; auto; right; try (eexists; split; repeat constructor; fail); eexists; reflexivity|].
  split; [intros []; cbn; auto; right; try (eexists; split; repeat constructor; fail); eexists; reflexivity|].
  split; [show_names|]. split; [show_names|]. split; [show_clear|]. split; [show_clear|].
  split; vm_compute; reflexivity.
Qed.

Print Assumptions C63_text.
Print Assumptions C63_unambiguous.
Print Assumptions C63_same_text_partial.
Print Assumptions C63_same_text_refuted.
Print Assumptions C63_names_refuted.
