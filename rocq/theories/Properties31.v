(** C85: reformatting MQL texts. *)
From Verif Require Import PyBase PyFacts Objects SpecExpr Metrics SpecMetrics SpecMql Mql SpecSpaces SpaceFacts Concrete.

Section P.
Context {RT : PyRT}.

(** ** C85 Changing the white space between the parts of an MQL text does not change what
    parse_mql answers. *)
(** The full statement is [forall s t, reformatted s t -> parse_mql s = parse_mql t], see
    C85_refuted. It holds when the stretches with an at sign, that is, the unquoted metric
    identifiers with what follows them up to the next bracket or comma, are left alone: the same
    query, or the same exception. *)
Theorem C85_around_mris_partial : forall s t, reformatted_around_mris s t -> parse_mql s = parse_mql t.
Proof. exact parse_reformatted. Qed.
(** so it holds for every text without an at sign *)
Lemma alike_no_at s t : reformatted s t -> ~ In 64%N s -> reformatted_around_mris s t.
Proof.
  intros A. induction A as [x y X Y S|x y c s t X Y S C _ IH|x y q v s t X Y S Q _ IH|x y m s t X Y S M I _ IH]; intros N;
    rewrite ?in_app_iff in N; cbn [In] in N.
  - apply al_end; try assumption. split; [exact S|]. tauto.
  - apply al_bracket; try assumption; [split; [exact S|tauto]|tauto].
  - eapply al_quoted; [exact X|exact Y|tauto|exact Q|tauto].
  - apply al_ticks; try assumption; [split; [exact S|tauto]|apply IH; tauto].
Qed.
Theorem C85_no_at_partial : forall s t, reformatted s t -> ~ In 64%N s -> parse_mql s = parse_mql t.
Proof. intros s t A N. apply C85_around_mris_partial, alike_no_at; assumption. Qed.
Lemma words_refl x : same_words x x.
Proof.
  induction x as [|c x IH]; [constructor|]. destruct (mql_space c) eqn:E.
  - apply MqlExpr.mql_space_iff in E. apply (sw_gap [c] [c] x x); try discriminate; try exact IH; constructor; auto; constructor.
  - apply sw_char; [|exact IH]. intros K. apply MqlExpr.mql_space_iff in K. congruence.
Qed.

(** *** The full statement is false: white space after an unquoted metric identifier becomes a
    part of the identifier *)
Definition mri_text (w : str) : str := $"sum(d:a/b@c" ++ w ++ $")".
Theorem C85_refuted : exists s t v, reformatted s t /\ parse_mql s = Ok v /\ parse_mql t <> Ok v.
Proof.
  exists (mri_text ($" ")), (mri_text ($"  ")).
  assert (reformatted (mri_text ($" ")) (mri_text ($"  "))) as R.
  { apply (al_bracket same_words ($"sum") ($"sum") 40 ($"d:a/b@c )") ($"d:a/b@c  )")).
    - repeat constructor; cbn; intuition discriminate.
    - repeat constructor; cbn; intuition discriminate.
    - apply words_refl.
    - cbn. auto.
    - apply (al_bracket same_words ($"d:a/b@c ") ($"d:a/b@c  ") 41 [] []).
      + repeat constructor; cbn; intuition discriminate.
      + repeat constructor; cbn; intuition discriminate.
      + apply (words_app ($"d:a/b@c") ($"d:a/b@c") ($" ") ($"  ")); [apply words_refl|].
        apply (sw_gap [32%N] [32; 32]%N [] []); try discriminate; try apply sw_nil;
          repeat (apply Forall_cons; [unfold space_char; lia|]); apply Forall_nil.
      + cbn. auto.
      + apply al_end; constructor. }
  destruct (parse_mql (mri_text ($" "))) as [v|e] eqn:E.
  - exists v. split; [exact R|]. split; [reflexivity|]. intros K. rewrite <- E in K. vm_compute in K. discriminate K.
  - exfalso. vm_compute in E. discriminate E.
Qed.
End P.

(** ** A formula spread over several lines *)
#[local] Existing Instance demoRT.
Definition one_line : str :=
  $"sum(`d:a/b@c`){env:prod AND name:""x  y""} by (t, u) / max(c:d/e@f){a:[b, c]}".
Definition many_lines : str :=
  $"sum(`d:a/b@c`){env:prod" ++ [10; 32]%N ++ $"AND" ++ [10; 32]%N ++ $"name:""x  y""}" ++ [10; 32]%N ++ $"by" ++ [10; 32]%N ++ $"(t," ++ [10; 32]%N ++ $"u)" ++ [10; 32]%N ++ $"/"
  ++ [10; 32]%N ++ $"max(c:d/e@f){a:[b," ++ [10; 32]%N ++ $"c]}".
Ltac letters := repeat constructor; cbn; intuition discriminate.
Ltac gaps := first
  [ apply sw_nil
  | apply sw_char; [unfold space_char; let K := fresh in intros K; lia|gaps]
  | apply (sw_gap [32%N] [10; 32]%N);
      [repeat (apply Forall_cons; [unfold space_char; lia|]); apply Forall_nil
      |repeat (apply Forall_cons; [unfold space_char; lia|]); apply Forall_nil|discriminate|discriminate|gaps] ].
Ltac words := cbv [lit list_ascii_of_string map N_of_ascii N_of_digits app N.add N.mul Pos.add Pos.mul Pos.succ]; gaps.
Lemma c85_example : reformatted_around_mris one_line many_lines.
Proof.
  unfold reformatted_around_mris.
  apply (al_bracket _ ($"sum") ($"sum") 40%N); [letters|letters|split; [words|reflexivity]|cbn; tauto|].
  apply (al_ticks _ [] [] ($"d:a/b@c")); [letters|letters|split; [words|reflexivity]| | |].
  { repeat constructor; unfold pattern_char; cbn; try (intuition discriminate); lia. }
  { cbn. intuition discriminate. }
  apply (al_bracket _ [] [] 41%N); [letters|letters|split; [words|reflexivity]|cbn; tauto|].
  apply (al_bracket _ [] [] 123%N); [letters|letters|split; [words|reflexivity]|cbn; tauto|].
  apply (al_quoted _ ($"env:prod AND name:") ($"env:prod" ++ [10; 32]%N ++ $"AND" ++ [10; 32]%N ++ $"name:") ($"""x  y""") ($"x  y"));
    [letters|letters|split; [words|cbn; intuition discriminate]| |].
  { exists ($"x  y"). split; [reflexivity|]. repeat (apply qb_char; [discriminate|discriminate|]). constructor. }
  apply (al_bracket _ [] [] 125%N); [letters|letters|split; [words|reflexivity]|cbn; tauto|].
  apply (al_bracket _ ($" by ") ([10; 32]%N ++ $"by" ++ [10; 32]%N) 40%N); [letters|letters|split; [words|cbn; intuition discriminate]|cbn; tauto|].
  apply (al_bracket _ ($"t") ($"t") 44%N); [letters|letters|split; [words|reflexivity]|cbn; tauto|].
  apply (al_bracket _ ($" u") ([10; 32]%N ++ $"u") 41%N); [letters|letters|split; [words|cbn; intuition discriminate]|cbn; tauto|].
  apply (al_bracket _ ($" / max") ([10; 32]%N ++ $"/" ++ [10; 32]%N ++ $"max") 40%N);
    [letters|letters|split; [words|cbn; intuition discriminate]|cbn; tauto|].
  apply (al_bracket _ ($"c:d/e@f") ($"c:d/e@f") 41%N); [letters|letters|split; [words|reflexivity]|cbn; tauto|].
  apply (al_bracket _ [] [] 123%N); [letters|letters|split; [words|reflexivity]|cbn; tauto|].
  apply (al_bracket _ ($"a:") ($"a:") 91%N); [letters|letters|split; [words|reflexivity]|cbn; tauto|].
  apply (al_bracket _ ($"b") ($"b") 44%N); [letters|letters|split; [words|reflexivity]|cbn; tauto|].
  apply (al_bracket _ ($" c") ([10; 32]%N ++ $"c") 93%N); [letters|letters|split; [words|cbn; intuition discriminate]|cbn; tauto|].
  apply (al_bracket _ [] [] 125%N); [letters|letters|split; [words|reflexivity]|cbn; tauto|].
  apply al_end; [letters|letters|split; [words|reflexivity]].
Qed.
Example C85_example : parse_mql one_line = parse_mql many_lines /\ exists v, parse_mql one_line = Ok v.
Proof.
  split; [apply C85_around_mris_partial, c85_example|].
  destruct (parse_mql one_line) as [v|] eqn:E; [exists v; reflexivity|]. exfalso. vm_compute in E. discriminate E.
Qed.

Print Assumptions C85_around_mris_partial.
Print Assumptions C85_no_at_partial.
Print Assumptions C85_refuted.
