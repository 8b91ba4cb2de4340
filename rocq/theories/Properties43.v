(** Property C104: repr(). *)
From Verif Require Import PyBase PyFacts DateTime Objects Exprs SpecExpr ExprProps Json Request SpecJson PyRepr SpecPyLit JsonFacts PyLitFacts TameFacts Concrete.
From Coq Require Import Lia.

Section P.
Context {RT : PyRT} {RE : PyRepr}.

(** ** C104 What print() of a delete query and repr() show is the object *)
Definition documented_delete (q : delete_query) : Prop := documented (dq_storage q) /\ documented (dq_columns q).
(** the text holds the two fields as Python literals *)
Theorem C104_delete_reads : forall q, documented_delete q -> exists a b,
  delete_print q = $"DeleteQuery(storage_name=" ++ a ++ $", columnsConditions=" ++ b ++ $")"
  /\ py_literal a (dq_storage q) /\ py_literal b (dq_columns q).
Proof. intros q (S & C). eexists _, _. split; [reflexivity|]. split; apply py_repr_ok; assumption. Qed.
(** a literal has one value *)
Theorem C104_one_value : forall t v v', py_literal t v -> py_literal t v' -> v = v'.
Proof. exact lit_one. Qed.
Theorem C104_delete_determined : forall q q', documented_delete q -> documented_delete q' -> delete_print q = delete_print q' -> q = q'.
Proof.
  intros [s c] [s' c'] (S & C) (S' & C') E. cbn [dq_storage dq_columns] in *. unfold delete_print in E. cbn [dq_storage dq_columns] in E.
  apply app_inv_head in E. apply py_repr_ok in S, S', C, C'.
  apply (lit_fun _ _ S _ s') in E as (_ & <- & E); [|exact S'|cbn; tauto|cbn; tauto].
  apply app_inv_head in E. apply (lit_fun _ _ C _ c') in E as (_ & <- & _); [|exact C'|cbn; tauto|cbn; tauto]. reflexivity.
Qed.
Theorem C104_one_line : forall q, documented_delete q -> no_controls (delete_print q).
Proof.
  intros q (S & C). unfold delete_print. apply Forall_app. split; [fine|]. apply Forall_app. split; [apply py_repr_fine, S|].
  apply Forall_app. split; [fine|]. apply Forall_app. split; [apply py_repr_fine, C|fine].
Qed.

(** entities and storages: the name, the alias and the text of the sample. No repr() of a float has
    a quote in it. *)
Definition built_entity (e : entity) : Prop := exists n a s d, mk_entity n a s d = Ok (OEntity e).
Definition built_storage (s : storage) : Prop := exists n x d, mk_storage n x d = Ok (OStorage s).
Definition no_quotes (s : str) : Prop := Forall (fun c => c <> SQ) s.
Lemma quote_split a b x y : no_quotes a -> no_quotes b -> a ++ SQ :: x = b ++ SQ :: y -> a = b /\ x = y.
Proof.
  intros A. revert b. induction A as [|c a C A IH]; intros b B E.
  - destruct B as [|d b D B]; [injection E; auto|]. injection E as <- _. congruence.
  - destruct B as [|d b D B]; [injection E as -> _; congruence|]. cbn in E. injection E as -> E. destruct (IH _ B E) as (-> & ->). auto.
Qed.
Lemma last_quote a b x y : no_quotes x -> no_quotes y -> a ++ SQ :: x = b ++ SQ :: y -> a = b /\ x = y.
Proof.
  intros X Y E. apply (f_equal (@rev N)) in E. rewrite !rev_app_distr in E. cbn [rev] in E. rewrite <- !app_assoc in E. cbn [app] in E.
  apply quote_split in E as (R & E); [|apply Forall_rev, X|apply Forall_rev, Y].
  apply (f_equal (@rev N)) in R, E. rewrite !rev_involutive in *. auto.
Qed.
Lemma name_plain n : entity_name n -> no_quotes n.
Proof.
  intros (b & nl & -> & _ & F & L). apply Forall_app. split.
  - revert F. apply Forall_impl. intros c C. unfold ascii_letter, SQ in *. destruct C; lia.
  - destruct L; subst; repeat constructor; discriminate.
Qed.
Definition sample_text (f : option flt) : str := match f with Some f => $", sample=" ++ float_repr f | None => [] end.
Lemma sample_end f f' : sample_text f ++ $")" = sample_text f' ++ $")" -> option_map float_repr f = option_map float_repr f'.
Proof.
  intros E. apply app_inv_tail in E. destruct f, f'; try discriminate E; [|reflexivity]. apply app_inv_head in E. cbn. congruence.
Qed.
Lemma sample_plain f : (forall f, no_quotes (float_repr f)) -> no_quotes (sample_text f ++ $")").
Proof.
  intros F. apply Forall_app. split; [|repeat constructor; discriminate]. destruct f; [|constructor].
  apply Forall_app. split; [repeat constructor; discriminate|apply F].
Qed.
Theorem C104_entity : (forall f, no_quotes (float_repr f)) -> forall e e', built_entity e -> built_entity e' ->
  entity_repr e = entity_repr e' ->
  e_name e = e_name e' /\ e_alias e = e_alias e' /\ option_map float_repr (e_sample e) = option_map float_repr (e_sample e').
Proof.
  intros F e e' B B' E.
  assert (N : forall x, built_entity x -> no_quotes (e_name x)).
  { intros x (n & a & s & d & X). unfold mk_entity in X. apply bind_Ok in X as (w & W & X). apply check_word_Ok in W as (_ & W).
    apply bind_Ok in X as (s' & _ & X). apply bind_Ok in X as (a' & _ & X). apply bind_Ok in X as (d' & _ & X). injection X as <-. apply name_plain, W. }
  unfold entity_repr in E. fold (sample_text (e_sample e)) in E. fold (sample_text (e_sample e')) in E.
  apply app_inv_head in E. cbn [lit] in E. apply quote_split in E as (EN & E); [|apply N, B|apply N, B']. split; [exact EN|].
  destruct (e_alias e) as [a|], (e_alias e') as [a'|].
  - rewrite <- !app_assoc in E. apply app_inv_head in E. apply last_quote in E as (-> & E); [|apply sample_plain, F|apply sample_plain, F].
    split; [reflexivity|]. apply sample_end, E.
  - exfalso. destruct (e_sample e'); discriminate E.
  - exfalso. destruct (e_sample e); discriminate E.
  - split; [reflexivity|]. apply sample_end, E.
Qed.
Theorem C104_storage : forall s s', built_storage s -> built_storage s' -> storage_repr s = storage_repr s' ->
  st_name s = st_name s' /\ option_map float_repr (st_sample s) = option_map float_repr (st_sample s').
Proof.
  intros e e' B B' E.
  assert (N : forall x, built_storage x -> no_quotes (st_name x)).
  { intros x (n & s & d & X). unfold mk_storage in X. apply bind_Ok in X as (w & W & X). apply check_word_Ok in W as (_ & W).
    apply bind_Ok in X as (s' & _ & X). apply bind_Ok in X as (d' & _ & X). injection X as <-. apply name_plain, W. }
  unfold storage_repr in E. fold (sample_text (st_sample e)) in E. fold (sample_text (st_sample e')) in E.
  apply app_inv_head in E. apply quote_split in E as (EN & E); [|apply N, B|apply N, B']. split; [exact EN|]. apply sample_end, E.
Qed.
End P.

(** Non-vacuity *)
#[local] Existing Instance demoRT.
#[local] Instance demoRE : PyRepr := { uni_printable := fun c => negb (N.eqb c 133); repr_other := fun _ => $"?" }.
Definition c104_delete : delete_query := mkDelete (OStr ($"search_issues"))
  (ODict [$"group_id"; $"it's"] [OList [OInt (-7); OStr ($"a""b'c\d" ++ [10; 7; 133; 8364]%N)]; OTuple [OBool true]]).
Example C104_case : documented_delete c104_delete
  /\ delete_print c104_delete = $"DeleteQuery(storage_name='search_issues', columnsConditions={'group_id': [-7, 'a""b\'c\\d\n\x07\x85" ++ [8364%N] ++ $"'], ""it's"": (True,)})".
Proof.
  split; [|vm_compute; reflexivity]. split; cbn [dq_storage dq_columns c104_delete].
  - constructor. repeat constructor.
  - constructor; [reflexivity|repeat constructor; cbn; intuition discriminate|repeat constructor|]. repeat constructor.
Qed.
Lemma demo_float_quotes f : no_quotes (@float_repr demoRT f).
Proof.
  assert (P : forall s, plain_text s -> no_quotes s).
  { intros s. apply Forall_impl. intros c H ->. apply H. cbn. tauto. }
  change (no_quotes (demo_float_repr f)). destruct f as [|[]|neg m e]; [repeat constructor; discriminate..|].
  unfold demo_float_repr. apply Forall_app. split; [destruct neg; repeat constructor; discriminate|].
  generalize 17%nat as k, 1%N as p. induction k as [|k IH]; intros p; cbn [shortest]; [apply P, fixed_plain|].
  destruct (flt_eqb _ _); [apply P, fixed_plain|apply IH].
Qed.
Definition c104_entity : entity := mkEntity ($"events") (Some ($"it's")) (Some (flt_of_Z 1)) None.
Example C104_entity_case : built_entity c104_entity /\ entity_repr c104_entity = $"Entity('events', alias='it's', sample=1.0)"
  /\ (forall f, no_quotes (@float_repr demoRT f)).
Proof.
  split; [exists (OStr ($"events")), (OStr ($"it's")), (OFloat (flt_of_Z 1)), ONone; vm_compute; reflexivity|].
  split; [vm_compute; reflexivity|]. exact demo_float_quotes.
Qed.
Example C104_storage_case : built_storage (mkStorage ($"errors_ro") None None) /\ storage_repr (mkStorage ($"errors_ro") None None) = $"STORAGE('errors_ro')".
Proof. split; [exists (OStr ($"errors_ro")), ONone, ONone; vm_compute; reflexivity|vm_compute; reflexivity]. Qed.

Print Assumptions C104_delete_reads.
Print Assumptions C104_one_value.
Print Assumptions C104_delete_determined.
Print Assumptions C104_one_line.
Print Assumptions C104_entity.
Print Assumptions C104_storage.
