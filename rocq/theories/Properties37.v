(** Property C97: without assignments, objects of the metrics API that share parts behave as values. *)
From Verif Require Import PyBase PyFacts DateTime Objects Exprs Query Optimizer Metrics MetricsQuery Request Sharing SpecSharing SharingFacts
  SpecValues ValueFacts Concrete Properties6 Properties7 Properties36.
From Verif Require History.
From Coq Require Import Lia.

Section P.
Context {RT : PyRT} {ST : PyStr}.

(** ** C97 Without assignments, objects that share parts behave as values *)
(** a program of constructors, setters and questions gets from its next call what it would get
    if every argument were copied and serialize() changed nothing *)
Theorem C97_values : forall N cs c, (forall d, In d cs -> changes d = None) -> changes c = None ->
  (forall a m, c = Ask a m -> about_sending (run N [] cs) a m) -> List.length cs <= N ->
  told (answer_after N cs c) = told (snd (value_step (value_run [] cs) c)).
Proof.
  intros N cs c Nd Nc S L. rewrite <- (value_run_asks cs []).
  assert (answer_after N cs c = answer_after N (filter (fun c => negb (asks c)) cs) c) as ->.
  { destruct (asks c) eqn:A.
    - destruct c; try discriminate A. apply C95_asking_partial; [apply calm_asking, Nd|apply S; reflexivity].
    - apply C95_building_partial; [apply calm_asking, Nd|exact A]. }
  assert (List.length (filter (fun c => negb (asks c)) cs) <= List.length cs) as Lf.
  { clear. induction cs as [|c cs IH]; cbn; [lia|]. destruct (negb (asks c)); cbn; lia. }
  destruct (run_holds N (filter (fun c => negb (asks c)) cs) [] []) as (H & Lr).
  - exact nil_holds.
  - cbn. lia.
  - intros d I. apply filter_In in I as (I & _). apply Nd, I.
  - apply Forall_forall. intros d I. apply filter_In in I as (_ & E). destruct (asks d); [discriminate|reflexivity].
  - unfold answer_after. apply told_step; [exact H|cbn in Lr; lia|exact Nc].
Qed.
(** print() and str() of a MetricsQuery, too, as long as nothing was asked before *)
Theorem C97_print : forall N cs c, (forall d, In d cs -> changes d = None /\ asks d = false) -> changes c = None ->
  List.length cs <= N -> told (answer_after N cs c) = told (snd (value_step (value_run [] cs) c)).
Proof.
  intros N cs c Nd Nc L. destruct (run_holds N cs [] []) as (H & Lr).
  - exact nil_holds.
  - cbn. lia.
  - intros d I. apply Nd, I.
  - apply Forall_forall. intros d I. apply Nd, I.
  - unfold answer_after. apply told_step; [exact H|cbn in Lr; lia|exact Nc].
Qed.
End P.

(** * Cases *)
#[local] Existing Instance demoRT.
#[local] Existing Instance demoST.
(** objects are sent, then setters make others from them *)
Definition setter_program : list call :=
  demo_program ++
  [Ask 10 History.ToDict; Ask 12 History.Serialize;
   SetFilters 1 (Imm (VObj (OList [OCond (demo_col ($"team")) EQ (OStr ($"a"))])));    (* 17 *)
   SetMetric 17 (Imm (VMetric (mkMetric (Some ($"x.y")) None None)));                  (* 18 *)
   SetAggregate 18 (str_s ($"sum")) none_s;                                            (* 19 *)
   SetGroupby 19 (Imm (VObj (OList [demo_col ($"team")])));                            (* 20 *)
   NewList [Ref 20; Ref 20];                                                           (* 21 *)
   SetParameters 7 (Ref 21);                                                           (* 22 *)
   SetGroupby 22 (Imm (VObj (OList [demo_col ($"team")])));                            (* 23 *)
   SetUseCase 3 (str_s ($"other"));                                                    (* 24 *)
   SetField 5 FScope (Ref 24);                                                         (* 25 *)
   SetField 25 FQuery (Ref 23);                                                        (* 26 *)
   NewRequest (demo_rfields (Ref 26)) RFNone].                                         (* 27 *)
Example C97_case : forallb (fun d => match changes d with None => true | Some _ => false end) setter_program = true
  /\ List.length (run 30 [] setter_program) = 28
  /\ is_result (answer_after 30 setter_program (Ask 27 History.Serialize)) = true
  /\ is_result (snd (value_step (value_run [] setter_program) (Ask 27 History.Serialize))) = true.
Proof. repeat split; vm_compute; reflexivity. Qed.
(** the two differ as soon as a part is changed *)
Example C97_changed : told (answer_after 30 (demo_program ++ [Append 2 (Imm (VObj (OInt 5)))]) (Ask 10 History.Serialize))
  <> told (snd (value_step (value_run [] (demo_program ++ [Append 2 (Imm (VObj (OInt 5)))])) (Ask 10 History.Serialize))).
Proof. vm_compute. discriminate. Qed.

Print Assumptions C97_values.
Print Assumptions C97_print.
