(** The lemmas that C12, C13, C15, C16, C17 quote. *)
From Verif Require Import PyBase PyFacts Regex DateTime Objects Exprs Translate SpecExpr ExprFacts SpecText SpecTime SpecBool
  SpecOccurs TextFacts LiteralFacts DateFacts TimeProps SampleFacts BoolFacts TameFacts WfFacts.

Section TP.
Context {RT : PyRT}.
Lemma c12_read al s : exists text, visit false al (OStr s) = Ok text
  /\ forall rest, read_quoted 39 (text ++ rest) = Some (s, rest).
Proof. exists (quoted false s). split; [reflexivity|]. apply (quoted_read false). Qed.
Lemma c12_shape al s : exists body, visit false al (OStr s) = Ok ($"'" ++ body ++ $"'") /\ ~ In 10%N body.
Proof. exists (escape false s). split; [reflexivity|]. apply escape_no_nl. Qed.

Lemma mapM_Forall2 {A B} (f : A -> result B) l : forall r, mapM f l = Ok r -> Forall2 (fun x y => f x = Ok y) l r.
Proof.
  induction l as [|x l IH]; cbn; intros r E; [injection E as <-; constructor|].
  apply bind_Ok in E as (y & E1 & E). apply bind_Ok in E as (ys & E2 & E). injection E as <-. constructor; auto.
Qed.
Lemma c13_nested al l : Forall plain_value l -> exists ts,
  Forall2 (fun v t => visit false al v = Ok t) l ts
  /\ visit false al (OList l) = Ok ($"array(" ++ join ($", ") ts ++ $")")
  /\ visit false al (OTuple l) = Ok ($"tuple(" ++ join ($", ") ts ++ $")").
Proof.
  intros P. destruct (mapM_total (visit false al) l) as [ts E].
  { eapply Forall_impl; [|exact P]. intros v Hv. apply plain_prints, Hv. }
  exists ts. split; [apply mapM_Forall2, E|].
  assert (S1 : scalar (OList l)) by (apply plain_scalar; constructor; exact P).
  assert (S2 : scalar (OTuple l)) by (apply plain_scalar; constructor; exact P).
  apply is_scalar_true in S1, S2. rewrite visit_list, visit_tuple, S1, S2, E. split; reflexivity.
Qed.

Lemma c15_instant t : real_datetime t -> exists i, instant t i /\ forall j, instant t j -> j = i.
Proof.
  intros H. apply real_datetime_iff in H. exists (instant_us t).
  split; [apply instant_iff; [apply H|reflexivity]|]. intros j Hj. apply instant_iff in Hj; [exact Hj|apply H].
Qed.

Lemma check_word_str o e n : check_word o e = Ok n -> o = OStr n.
Proof.
  destruct o; try discriminate. cbn [check_word]. destruct (re_matches _ _); [|discriminate].
  intros E. injection E as <-. reflexivity.
Qed.
Lemma c16_refuses f : ~ not_le_zero f -> forall name alias dm,
  mk_entity name alias (OFloat f) dm = Raise InvalidEntityError
  /\ mk_storage name (OFloat f) dm = Raise InvalidStorageError.
Proof.
  intros H name alias dm.
  assert (L : flt_le0 f = true).
  { destruct f as [|neg|neg m e]; cbn in *; [tauto|destruct neg; tauto|].
    destruct neg; [reflexivity|]. destruct (N.eqb_spec m 0); [reflexivity|tauto]. }
  unfold mk_entity, mk_storage. cbn [check_sample]. rewrite L.
  destruct name; cbn [check_word bind]; auto. destruct (re_matches word_name_re s); auto.
Qed.
Lemma c16_positive m e : m <> 0%N ->
  exists d num p, decimal_text d num p /\ nearest num p m e /\ ((0 < num)%N <-> not_tiny m e)
  /\ (forall name alias dm o al, mk_entity name alias (OFloat (FFin false m e)) dm = Ok o ->
        exists n pre, name = OStr n /\ (al = false -> pre = [])
          /\ visit false al o = Ok ($"(" ++ pre ++ n ++ $" SAMPLE " ++ d ++ $")"))
  /\ (forall name dm o al, mk_storage name (OFloat (FFin false m e)) dm = Ok o ->
        exists n, name = OStr n
          /\ visit false al o = Ok ($"STORAGE(" ++ n ++ $" SAMPLE " ++ d ++ $")")).
Proof.
  intros Hm. destruct (sample_text m e Hm) as (d & num & p & E & H1 & H2 & H3).
  exists d, num, p. repeat (split; [assumption|]). split.
  - intros name alias dm o al H. unfold mk_entity in H.
    apply bind_Ok in H as (n & En & H). apply bind_Ok in H as (s & Es & H).
    apply bind_Ok in H as (a & _ & H). apply bind_Ok in H as (dm' & _ & H). injection H as <-.
    unfold check_sample in Es. destruct (flt_le0 _); [discriminate|]. injection Es as <-.
    cbn [visit]. unfold tr_entity. cbn [e_alias e_name e_sample]. rewrite E.
    exists n, (match a with Some a => if al then a ++ $": " else [] | None => [] end).
    split; [apply check_word_str in En; exact En|].
    split; [intros ->; destruct a; reflexivity|]. rewrite <- !app_assoc. reflexivity.
  - intros name dm o al H. unfold mk_storage in H.
    apply bind_Ok in H as (n & En & H). apply bind_Ok in H as (s & Es & H).
    apply bind_Ok in H as (dm' & _ & H). injection H as <-.
    unfold check_sample in Es. destruct (flt_le0 _); [discriminate|]. injection Es as <-.
    cbn [visit]. unfold tr_storage. cbn [st_name st_sample]. rewrite E.
    exists n. split; [apply check_word_str in En; exact En|]. rewrite <- !app_assoc. reflexivity.
Qed.
Lemma c16_witness : exists f g h o1 o2 o3,
  mk_entity (OStr ($"e")) ONone (OFloat f) ONone = Ok o1 /\ visit false false o1 = Ok ($"(e SAMPLE nan)")
  /\ mk_entity (OStr ($"e")) ONone (OFloat g) ONone = Ok o2 /\ visit false false o2 = Ok ($"(e SAMPLE inf)")
  /\ mk_entity (OStr ($"e")) ONone (OFloat h) ONone = Ok o3 /\ visit false false o3 = Ok ($"(e SAMPLE 0.000000)").
Proof.
  exists FNan, (FInf false), (FFin false 1 (-30)). eexists _, _, _. repeat (split; [vm_compute; reflexivity|]). vm_compute; reflexivity.
Qed.
Lemma c17_atoms al a t : api a -> (exists l o r, a = OCond l o r) ->
  (forall x, occurs x a -> plain_names x) -> visit false al a = Ok t -> atom_text t.
Proof.
  intros A (l & p & r & ->) P E. eapply tame_atom; [|exact E]. split; [apply api_wf, A|exact P].
Qed.
End TP.
