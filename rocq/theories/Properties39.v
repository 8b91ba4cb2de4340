(** Properties C99 and C100: expressions and the lists they were built from. *)
From Verif Require Import PyBase PyFacts DateTime Objects Exprs Translate Hash SpecHash HashFacts Nested SpecNested NestedFacts Concrete.

Section P.
Context {RT : PyRT}.

(** ** C99 An expression that has a hash never changes *)
(** whatever a program does next, with any list, the object is read as before *)
Theorem C99_never_changes : forall (HA : PyHash) n m cs cs' r o k,
  read m (run n [] cs) r = Some o -> py_hash o = Ok k -> read m (run n [] (cs ++ cs')) r = Some o.
Proof.
  intros HA n m cs cs' r o k R K. unfold run. rewrite fold_left_app. apply run_hashable; [|exact R].
  apply (mutable_iff o). eauto.
Qed.
(** and what is made with a constructor from things that have a hash has one: expressions built
    with tuples instead of lists *)
Theorem C99_made : forall (HA : PyHash) c vs o, made c vs = Ok o -> match c with Value _ | NewList _ => False | _ => True end ->
  (forall v, In v vs -> exists k, py_hash v = Ok k) -> exists k, py_hash o = Ok k.
Proof.
  intros HA c vs o M C V. apply (mutable_iff o). apply (made_hashable c vs o M C). intros v I. apply (mutable_iff v). apply V, I.
Qed.

(** ** C100 An expression is what its constructor was given *)
(** a constructor call that succeeds gives an object that is read as the value made of the values
    of the arguments; it stays so as long as no list is changed that the object reaches *)
Theorem C100_kept_partial : forall n cs c cs' vs o, changes c = None ->
  all_some (map (read n (run n [] cs)) (arguments c)) = Some vs -> made c vs = Ok o ->
  (forall d l, In d cs' -> changes d = Some l -> ~ reaches (run n [] (cs ++ [c])) (List.length (run n [] cs)) l) ->
  read (S n) (run n [] (cs ++ c :: cs')) (List.length (run n [] cs)) = Some o.
Proof.
  intros n cs c cs' vs o N A M U. destruct (make_ok n _ c vs o N A M) as (x & S & R).
  assert (E : run n [] (cs ++ [c]) = run n [] cs ++ [x]) by (unfold run at 1; rewrite fold_left_app; exact S).
  replace (cs ++ c :: cs') with ((cs ++ [c]) ++ cs') by (rewrite <- app_assoc; reflexivity).
  unfold run at 1. rewrite fold_left_app. apply run_unreached; [exact U|]. change (fold_left (step n) (cs ++ [c]) []) with (run n [] (cs ++ [c])).
  rewrite E. exact R.
Qed.
(** so programs that change no list can take expressions for values *)
Theorem C100_values_partial : forall n cs c cs' vs o, changes c = None -> (forall d, In d cs' -> changes d = None) ->
  all_some (map (read n (run n [] cs)) (arguments c)) = Some vs -> made c vs = Ok o ->
  read (S n) (run n [] (cs ++ c :: cs')) (List.length (run n [] cs)) = Some o.
Proof.
  intros n cs c cs' vs o N U A M. apply (C100_kept_partial n cs c cs' vs o N A M). intros d l I E. rewrite (U d I) in E. discriminate.
Qed.
(** any object, not only a new one, stays as it is until a list is changed that it reaches *)
Theorem C100_unreached_partial : forall n m cs cs' r o, read m (run n [] cs) r = Some o ->
  (forall d l, In d cs' -> changes d = Some l -> ~ reaches (run n [] cs) r l) ->
  read m (run n [] (cs ++ cs')) r = Some o.
Proof. intros n m cs cs' r o R U. unfold run. rewrite fold_left_app. apply run_unreached; assumption. Qed.
(** a constructor call that is refused changes nothing *)
Theorem C100_refused : forall n cs c vs e, changes c = None ->
  all_some (map (read n (run n [] cs)) (arguments c)) = Some vs -> made c vs = Raise e ->
  run n [] (cs ++ [c]) = run n [] cs.
Proof. intros n cs c vs e N A M. unfold run. rewrite fold_left_app. apply (make_raise n _ c vs e N A M). Qed.
(** a change of the list of parameters changes the function and its text, to one that the
    constructor refuses *)
Theorem C100_refuted : exists cs c d vs o o' t t', changes c = None
  /\ all_some (map (read 9 (run 9 [] cs)) (arguments c)) = Some vs /\ made c vs = Ok o
  /\ read 10 (run 9 [] (cs ++ [c])) (List.length (run 9 [] cs)) = Some o
  /\ read 10 (run 9 [] (cs ++ [c; d])) (List.length (run 9 [] cs)) = Some o'
  /\ visit false false o = Ok t /\ visit false false o' = Ok t' /\ t <> t'
  /\ exists f p a, o' = OFunc true f KNone [] KList p a
     /\ mk_function (OStr f) (OList p) (match a with Some a => OStr a | None => ONone end) = Raise InvalidFunctionError.
Proof.
  set (col := OColumn (mkColumn ($"a") None None None)).
  exists [Value (OStr ($"uniq")); Value col; NewList [1]; Value ONone; Value (OCond col EQ (OInt 1))], (NewFunction 0 2 3), (Change 2 [4]).
  do 5 eexists. split; [reflexivity|]. split; [reflexivity|]. split; [reflexivity|]. split; [reflexivity|]. split; [reflexivity|].
  split; [vm_compute; reflexivity|]. split; [vm_compute; reflexivity|]. split; [vm_compute; discriminate|].
  do 3 eexists. split; [reflexivity|]. reflexivity.
Qed.
End P.

(** * Cases *)
#[local] Existing Instance demoRT.
(** two conditions over one function in an And, once with a list, once with a tuple *)
Definition C100_program (conds : list ref -> call) : list call :=
  [Value (OStr ($"uniq")); Value (OColumn (mkColumn ($"a") None None None)); NewTuple [1]; Value ONone; NewFunction 0 2 3;   (* 4 *)
   Value (OOp GT); Value (OInt 1); NewCond 4 5 6;                                                                            (* 7 *)
   Value (OInt 2); NewCond 4 5 8;                                                                                            (* 9 *)
   conds [7; 9];                                                                                                             (* 10 *)
   NewBool BAnd 3 10; NewBool BOr 3 10;                                                                                      (* 11, 12 *)
   NewList [4]; NewFunction 0 13 3].                                                                                         (* 13, 14 *)
Definition C99_heap : heap := Eval vm_compute in run 9 [] (C100_program NewTuple).
Definition C100_heap : heap := Eval vm_compute in run 9 [] (C100_program NewList).
Lemma C99_run : run 9 [] (C100_program NewTuple) = C99_heap.
Proof. vm_compute. reflexivity. Qed.
Lemma C100_run : run 9 [] (C100_program NewList) = C100_heap.
Proof. vm_compute. reflexivity. Qed.
Example C99_case : exists o k, read 9 (run 9 [] (C100_program NewTuple)) 11 = Some o /\ py_hash (HA:=sum_hash) o = Ok k
  /\ visit false false o = Ok ($"(uniq(a) > 1 AND uniq(a) > 2)").
Proof. rewrite C99_run. do 2 eexists. split; [reflexivity|]. split; [vm_compute; reflexivity|]. vm_compute. reflexivity. Qed.
(** with the list, a change of it reaches both, but not the function in 14, whose own list can be
    changed without touching them *)
Example C100_case : exists o o', read 9 (run 9 [] (C100_program NewList)) 11 = Some o
  /\ read 9 (run 9 [] (C100_program NewList ++ [Change 10 [7; 7; 9]])) 11 = Some o' /\ o <> o'
  /\ read 9 (run 9 [] (C100_program NewList ++ [Change 13 []])) 11 = Some o
  /\ List.length (run 9 [] (C100_program NewList)) = 15.
Proof.
  unfold run. rewrite !fold_left_app. change (fold_left (step 9) (C100_program NewList) []) with (run 9 [] (C100_program NewList)). rewrite C100_run.
  do 2 eexists. split; [reflexivity|]. split; [reflexivity|]. split; [discriminate|]. split; reflexivity.
Qed.
Example C100_case_reach : reaches (run 9 [] (C100_program NewList)) 11 10 /\ ~ reaches (run 9 [] (C100_program NewList)) 11 13.
Proof.
  rewrite C100_run. split; [eapply R_step; [reflexivity|left; reflexivity|apply R_self]|].
  assert (K : forall a b, reaches C100_heap a b -> a <= 12 -> b <> 13).
  { induction 1 as [a|a c b x C I _ IH]; intros L; [lia|]. apply IH. clear IH.
    do 13 (destruct a as [|a]; [cbn in C; injection C as <-; cbn in I; lia|]). lia. }
  intros R. exact (K _ _ R ltac:(lia) eq_refl).
Qed.
(** refused: And with one condition *)
Example C100_case_refused : made (RT:=demoRT) (NewBool BAnd 3 2) [ONone; OTuple [OCond (OColumn (mkColumn ($"a") None None None)) EQ (OInt 1)]] = Raise InvalidConditionError.
Proof. reflexivity. Qed.

Print Assumptions C99_never_changes.
Print Assumptions C99_made.
Print Assumptions C100_kept_partial.
Print Assumptions C100_values_partial.
Print Assumptions C100_unreached_partial.
Print Assumptions C100_refused.
Print Assumptions C100_refuted.
