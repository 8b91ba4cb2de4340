(** C102: a string in a legacy body cannot break out of its place. *)
From Verif Require Import PyBase PyFacts DateTime Objects Exprs Query SpecExpr SpecQuery SpecOccurs SpecSnql SpecLogic SpecSwap SpecMetricsQuery
  Request Strptime Legacy SpecLegacy SpecBody SpecKeys SpecFromJson FromJsonFacts LegacyFacts ValidateProps EqValid SwapFacts SpecInject InjectFacts
  Metrics MetricsQuery Json SpecJson Properties6 Properties26 Properties27 Concrete ConcreteLegacy.

Section P.
Context {RT : PyRT} {ST : PyStr} {CV : PyConv}.

(** json_to_snql() does the same with both bodies: the same exception, or requests that are
    the same but for the strings, which are values of the query, in the same order *)
Theorem C102_request : forall l b b' entity, body_swap exp_swap l b b' ->
  (forall e, snd (json_to_snql b entity) = Raise e <-> snd (json_to_snql b' entity) = Raise e)
  /\ forall r, snd (json_to_snql b entity) = Ok r ->
       exists r', snd (json_to_snql b' entity) = Ok r' /\ requests_swap (swap_query l) r r'.
Proof.
  intros l b b' n H. pose proof (body_swapped exp_swap l b b' n (fun _ _ _ x => x) H) as P.
  destruct (snd (json_to_snql b n)) as [r|e], (snd (json_to_snql b' n)) as [r'|e']; cbn [rel] in P; try contradiction.
  - split; [split; discriminate|]. intros u E. injection E as <-. destruct P as (q & q' & Q & -> & S & _). eexists. split; [reflexivity|]. exists q, q'. auto.
  - subst. split; [reflexivity|discriminate].
Qed.
(** the texts: the strings are literals, and everything around them is the same *)
Theorem C102_print : decimal_digits -> forall l b b' entity r r' q q', decoded b -> decoded entity -> body_swap exp_swap l b b' ->
  snd (json_to_snql b entity) = Ok r -> snd (json_to_snql b' entity) = Ok r' -> rq_query r = RQuery q -> rq_query r' = RQuery q' ->
  (forall e, print q = Raise e <-> print q' = Raise e)
  /\ forall t, print q = Ok t -> exists t', print q' = Ok t' /\ text_swapped l t t'.
Proof.
  intros D l b b' n r r' q q' DB DE H E E' Q Q'. destruct (proj2 (C102_request l b b' n H) r E) as (r2 & E2 & q1 & q2 & Q1 & -> & S).
  rewrite E2 in E'. injection E' as <-. cbn [rq_query] in Q'. injection Q' as ->. rewrite Q1 in Q. injection Q as ->.
  destruct (json_to_snql b n) as (b1 & res) eqn:J. cbn [snd] in E. subst res.
  destruct (C80_query D _ _ _ _ DB DE J) as (q2 & Q2 & A & T & _). rewrite Q1 in Q2. injection Q2 as <-.
  apply C79_print; [exact A|apply class_seq_typed_query, T|exact S].
Qed.
(** one string *)
Theorem C102_one : decimal_digits -> forall s s' b b' entity r q t, decoded b -> decoded entity -> body_swap exp_swap [(s, s')] b b' ->
  snd (json_to_snql b entity) = Ok r -> rq_query r = RQuery q -> print q = Ok t ->
  exists r' q' pre post, snd (json_to_snql b' entity) = Ok r' /\ rq_query r' = RQuery q'
    /\ t = pre ++ text_of_string s ++ post /\ print q' = Ok (pre ++ text_of_string s' ++ post).
Proof.
  intros D s s' b b' n r q t DB DE H E Q Pt. destruct (proj2 (C102_request _ b b' n H) r E) as (r' & E' & q1 & q2 & Q1 & R & S).
  assert (rq_query r' = RQuery q2) as Q2 by (subst; reflexivity).
  destruct (proj2 (C102_print D _ b b' n r r' q q2 DB DE H E E' Q Q2) t Pt) as (t' & Pt' & X).
  destruct (one_literal s s' _ _ _ X eq_refl) as (pre & post & -> & ->). exists r', q2, pre, post. auto.
Qed.
(** serialize(), which merges conditions with the same left-hand side: when the left-hand
    sides of the conditions are the same in both bodies *)
Theorem C102_serialize : decimal_digits -> forall l b b' entity r r' q q', decoded b -> decoded b' -> decoded entity -> body_swap same_side l b b' ->
  snd (json_to_snql b entity) = Ok r -> snd (json_to_snql b' entity) = Ok r' -> rq_query r = RQuery q -> rq_query r' = RQuery q' ->
  (forall e, serialize q = Raise e <-> serialize q' = Raise e)
  /\ forall t, serialize q = Ok t -> exists t', serialize q' = Ok t' /\ text_swapped l t t'.
Proof.
  intros D l b b' n r r' q q' DB DB' DE H E E' Q Q'.
  assert (forall m x y, same_side m x y -> exp_swap m x y) as HL by (intros m x y (-> & ->); constructor).
  pose proof (body_swapped same_side l b b' n HL H) as P. rewrite E, E' in P. cbn [rel] in P. destruct P as (q1 & q2 & Q1 & -> & S & M).
  cbn [rq_query] in Q'. injection Q' as ->. rewrite Q1 in Q. injection Q as ->. specialize (M (fun _ _ _ x => x)).
  destruct (json_to_snql b n) as (b1 & res) eqn:J. cbn [snd] in E. subst res.
  destruct (json_to_snql b' n) as (b2 & res) eqn:J'. cbn [snd] in E'. subst res.
  destruct (C80_query D _ _ _ _ DB DE J) as (q2 & Q2 & A & T & _). rewrite Q1 in Q2. injection Q2 as <-.
  destruct (C80_query D _ _ _ _ DB' DE J') as (q2 & Q2 & A' & _). cbn [rq_query] in Q2. injection Q2 as <-.
  apply C79_serialize_partial; [exact A|exact A'|apply class_seq_typed_query, T|exact S|exact M].
Qed.
End P.

(** Non-vacuity: strings that try to end the literal in a quoted argument, in a condition,
    in a list of values of a tag (where datetime texts are texts), and in ORDER BY *)
#[local] Existing Instance demoRT.
#[local] Existing Instance demoCV.
#[local] Existing Instance demoST.
Definition c102_body (s1 s2 s3 s4 s5 : str) : obj := ODict
  [$"selected_columns"; $"aggregations"; $"conditions"; $"having"; $"orderby"; $"project"]
  [OList [OStr ($"a")];
   OList [OList [OStr ($"topK"); OList [OStr ($"b"); OStr ([39%N] ++ s1 ++ [39%N])]; OStr ($"n")]];
   OList [OList [OList [OStr ($"m"); OStr ($"LIKE"); OStr s2]; OList [OStr ($"m"); OStr ($"="); OInt 1]];
          OList [OStr ($"tags[x]"); OStr ($"IN"); OList [OStr ($"u"); OStr s3]]];
   OList [OList [OStr ($"n"); OStr ($"!="); OStr s4]];
   OList [OStr ($"-a"); OList [OStr ($"-f2"); OList [OStr ([39%N] ++ s5 ++ [39%N])]]];
   OInt 7].
Definition c102_evil : str := $"') OR 1 = 1 \".
Definition c102_left : obj := c102_body ($"p") ($"q") ($"2020-01-01T00:00:00") ($"s") ($"t").
Definition c102_right : obj := c102_body c102_evil c102_evil ($"v") [] c102_evil.
Definition c102_pairs : list (str * str) :=
  [($"p", c102_evil); ($"q", c102_evil); ($"2020-01-01T00:00:00", $"v"); ($"s", []); ($"t", c102_evil)].
Lemma c102_entry ks vs k v : lookup k ks vs = Some v -> dict_entry (ODict ks vs) k v.
Proof. intros E. exists ks, vs. split; [reflexivity|]. apply lookup_iff, E. Qed.
Lemma c102_no_key ks vs k : lookup k ks vs = None -> no_key (ODict ks vs) k.
Proof. intros E v (ks' & vs' & X & H). injection X as <- <-. apply lookup_iff in H. congruence. Qed.
Lemma c102_same ks vs vs' k : lookup k ks vs = lookup k ks vs' -> same_at (ODict ks vs) (ODict ks vs') k.
Proof.
  intros E v. split; intros (ks1 & vs1 & X & H); injection X as <- <-; apply lookup_iff in H; apply c102_entry; congruence.
Qed.
Example C102_bodies : body_swap same_side c102_pairs c102_left c102_right /\ body_swap exp_swap c102_pairs c102_left c102_right.
Proof.
  assert (forall L : list (str * str) -> obj -> obj -> Prop, (forall x, L [] x x) -> body_swap L c102_pairs c102_left c102_right) as B.
  { intros L HL. change c102_pairs with (([($"p", c102_evil)] ++ []) ++ [] ++ [($"q", c102_evil); ($"2020-01-01T00:00:00", $"v")] ++ [($"s", [])] ++ [($"t", c102_evil)]).
    constructor.
    - eexists _, _. reflexivity.
    - eexists _, _. reflexivity.
    - intros k N. apply c102_same. cbn [lookup].
      repeat match goal with |- context [str_eqb ?x k] => destruct (str_eqb x k) eqn:Ek; [first [reflexivity|exfalso; apply N; apply str_eqb_eq in Ek; subst k; cbn; tauto]|clear Ek] end.
      reflexivity.
    - left. do 2 eexists. split; [apply c102_entry; vm_compute; reflexivity|]. split; [apply c102_entry; vm_compute; reflexivity|].
      right. do 2 eexists. split; [reflexivity|]. split; [reflexivity|]. split; [|repeat constructor; eauto].
      apply (ess_cons [($"p", c102_evil)] []); [|constructor]. apply es_call. apply (ess_cons [] [($"p", c102_evil)]); [constructor|].
      apply (ess_cons [($"p", c102_evil)] []); [|constructor]. apply es_quoted. discriminate.
    - left. do 2 eexists. split; [apply c102_entry; vm_compute; reflexivity|]. split; [apply c102_entry; vm_compute; reflexivity|]. left. split; reflexivity.
    - right. split; [reflexivity|]. split; apply c102_no_key; vm_compute; reflexivity.
    - left. do 2 eexists. split; [apply c102_entry; vm_compute; reflexivity|]. split; [apply c102_entry; vm_compute; reflexivity|].
      right. do 2 eexists. split; [reflexivity|]. split; [reflexivity|].
      apply (fss_cons L [($"q", c102_evil)] [($"2020-01-01T00:00:00", $"v")]).
      + eapply fs_or; [constructor|constructor|]. apply (css_cons L [($"q", c102_evil)] []).
        * apply (cs_value L [] [($"q", c102_evil)] _ _ (OStr ($"m")) (OStr ($"m")) (OStr ($"LIKE")) (OStr ($"q")) (OStr c102_evil)); try constructor.
          -- intros [E|E]; discriminate E.
          -- apply HL.
          -- discriminate.
          -- right. split; vm_compute; reflexivity.
        * apply (css_cons L [] []); [|constructor]. apply (cs_value L [] [] _ _ (OStr ($"m")) (OStr ($"m")) (OStr ($"=")) (OInt 1) (OInt 1)); try constructor.
          -- intros [E|E]; discriminate E.
          -- apply HL.
      + apply (fss_cons L [($"2020-01-01T00:00:00", $"v")] []); [|constructor]. apply fs_one.
        * apply is_condition_yes. vm_compute. reflexivity.
        * apply (cs_value L [] [($"2020-01-01T00:00:00", $"v")] _ _ (OStr ($"tags[x]")) (OStr ($"tags[x]")) (OStr ($"IN")) (OList [OStr ($"u"); OStr ($"2020-01-01T00:00:00")]) (OList [OStr ($"u"); OStr ($"v")])); try constructor.
          -- intros [E|E]; discriminate E.
          -- apply HL.
          -- apply (ods_cons _ [] [($"2020-01-01T00:00:00", $"v")]); [constructor|]. apply (ods_cons _ [($"2020-01-01T00:00:00", $"v")] []); [|constructor].
             constructor; [discriminate|]. left. intros x Lx. left. inversion Lx; subst; [match goal with Q : quoted _ _ _ |- _ => destruct Q as [Q|(Q & _)]; discriminate Q end| |match goal with N : forall s, _ <> OStr s |- _ => elim (N _ eq_refl) end].
             match goal with M : mk_column _ _ = _ |- _ => vm_compute in M; injection M as <- end. eexists. split; [reflexivity|]. left. reflexivity.
    - left. do 2 eexists. split; [apply c102_entry; vm_compute; reflexivity|]. split; [apply c102_entry; vm_compute; reflexivity|].
      right. do 2 eexists. split; [reflexivity|]. split; [reflexivity|]. apply (fss_cons _ [($"s", [])] []); [|constructor]. apply fs_one.
      + apply is_condition_yes. vm_compute. reflexivity.
      + apply (cs_value _ [] [($"s", [])] _ _ (OStr ($"n")) (OStr ($"n")) (OStr ($"!=")) (OStr ($"s")) (OStr [])); try constructor.
        * intros [E|E]; discriminate E.
        * discriminate.
        * right. split; vm_compute; reflexivity.
    - left. do 2 eexists. split; [apply c102_entry; vm_compute; reflexivity|]. split; [apply c102_entry; vm_compute; reflexivity|].
      right. do 2 eexists. split; [reflexivity|]. split; [reflexivity|].
      apply (oss_cons [] [($"t", c102_evil)]); [constructor; left; eexists; reflexivity|]. apply (oss_cons [($"t", c102_evil)] []); [|constructor].
      apply (os_desc _ ($"-f2") ($"f2")); [exists 0%nat; split; [reflexivity|intros t E; discriminate E]|]. apply es_call.
      apply (ess_cons [($"t", c102_evil)] []); [|constructor]. apply es_quoted. discriminate. }
  split; apply B; intros x; [split; reflexivity|constructor].
Qed.
Definition c102_text (b : obj) : result str :=
  let! r := snd (json_to_snql b (OStr ($"events"))) in match rq_query r with RQuery q => serialize q | _ => Raise TypeError end.
Example C102_case : decimal_digits /\ decoded c102_left /\ decoded c102_right /\ decoded (OStr ($"events"))
  /\ c102_text c102_left = Ok ($"MATCH (events) SELECT topK(b, 'p') AS `n`, a WHERE project_id IN tuple(7) AND (m LIKE 'q' OR m = 1) AND tags[x] IN tuple('u', '2020-01-01T00:00:00') HAVING n != 's' ORDER BY a DESC, f2('t') DESC")
  /\ c102_text c102_right = Ok ($"MATCH (events) SELECT topK(b, '\') OR 1 = 1 \\') AS `n`, a WHERE project_id IN tuple(7) AND (m LIKE '\') OR 1 = 1 \\' OR m = 1) AND tags[x] IN tuple('u', 'v') HAVING n != '' ORDER BY a DESC, f2('\') OR 1 = 1 \\') DESC").
Proof.
  split; [intros c H; discriminate H|]. split; [decoded_tac|]. split; [decoded_tac|]. split; [decoded_tac|]. split; vm_compute; reflexivity.
Qed.
(** a datetime text that is compared with another column becomes a datetime *)
Example C102_datetime :
  let b s := ODict [$"selected_columns"; $"conditions"] [OList [OStr ($"a")]; OList [OList [OStr ($"m"); OStr ($"="); OStr s]]] in
  c102_text (b ($"x")) = Ok ($"MATCH (events) SELECT a WHERE m = 'x'")
  /\ c102_text (b ($"2020-01-01T00:00:00")) = Ok ($"MATCH (events) SELECT a WHERE m = toDateTime('2020-01-01T00:00:00')").
Proof. split; vm_compute; reflexivity. Qed.

Print Assumptions C102_request.
Print Assumptions C102_print.
Print Assumptions C102_one.
Print Assumptions C102_serialize.
