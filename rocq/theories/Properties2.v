(** C12-C17: printing of values, samples and boolean structure.
    Only theorem statements; the proofs are in TextFacts.v, LiteralFacts.v, TimeProps.v,
    SampleFacts.v, BoolFacts.v, TameFacts.v. *)
From Verif Require Import PyBase DateTime Objects Exprs Translate SpecExpr SpecText SpecTime SpecBool
  SpecOccurs TextFacts LiteralFacts TimeProps SampleFacts BoolFacts TameFacts TextProps Concrete.

Section P.
Context {RT : PyRT}.

(** ** C12 SnQL string literals are self-delimiting and decode to the original text *)
Theorem C12_string_reads_back : forall al s, exists text, visit false al (OStr s) = Ok text
  /\ forall rest, read_quoted 39 (text ++ rest) = Some (s, rest).
Proof. exact c12_read. Qed.
Theorem C12_string_delimited : forall al s, exists body, visit false al (OStr s) = Ok ($"'" ++ body ++ $"'")
  /\ ~ In 10%N body.
Proof. exact c12_shape. Qed.

(** ** C13 Printed SnQL literals, arrays and tuples can be read back uniquely *)
Theorem C13_unique : forall al v v' r r', plain_value v -> plain_value v' -> ends_number r -> ends_number r' ->
  exists t t', visit false al v = Ok t /\ visit false al v' = Ok t' /\
    (t ++ r = t' ++ r' -> v = v' /\ r = r').
Proof. exact c13_lemma. Qed.
Theorem C13_nested : forall al l, Forall plain_value l -> exists ts,
  Forall2 (fun v t => visit false al v = Ok t) l ts
  /\ visit false al (OList l) = Ok ($"array(" ++ join ($", ") ts ++ $")")
  /\ visit false al (OTuple l) = Ok ($"tuple(" ++ join ($", ") ts ++ $")").
Proof. exact c13_nested. Qed.

(** ** C14 Bytes print as the string they encode *)
Theorem C14_bytes_text : forall mql al s, forallb scalar_value s = true ->
  visit mql al (OBytes (utf8_encode s)) = visit mql al (OStr s).
Proof. exact c14_text. Qed.
Theorem C14_bytes_refused : forall mql al b,
  (forall s, forallb scalar_value s = true -> b <> utf8_encode s) ->
  visit mql al (OBytes b) = Raise UnicodeDecodeError.
Proof. exact c14_refuse. Qed.

(** ** C15 Timezone-aware datetimes are printed as the same instant in UTC *)
Theorem C15_aware : forall mql al t off, real_datetime t -> dt_tz t = Some off ->
  (exists u i iso, real_datetime u /\ dt_tz u = None /\ instant t i /\ instant u i /\ iso_text u iso
     /\ visit mql al (ODateTime t) = Ok ($"toDateTime('" ++ iso ++ $"')"))
  \/ (visit mql al (ODateTime t) = Raise OverflowError
      /\ forall u i, real_datetime u -> dt_tz u = None -> instant t i -> ~ instant u i).
Proof. exact c15_aware. Qed.
Theorem C15_naive : forall mql al t, real_datetime t -> dt_tz t = None ->
  exists iso, visit mql al (ODateTime t) = Ok ($"toDateTime('" ++ iso ++ $"')") /\ iso_text t iso.
Proof. exact c15_naive. Qed.
Theorem C15_date : forall mql al d, real_date d ->
  exists iso, visit mql al (ODate d) = Ok ($"toDateTime('" ++ iso ++ $"')") /\ iso_date_text d iso.
Proof. exact c15_date. Qed.
Theorem C15_instant_exists : forall t, real_datetime t -> exists i, instant t i
  /\ forall j, instant t j -> j = i.
Proof. exact c15_instant. Qed.

(** ** C16 A sampled entity/storage prints a positive sample rate.
    Missing: nan and infinity are accepted and printed as such, and a positive sample up to
    0.0000005 prints as 0.000000. *)
Theorem C16_sample_positive_partial : forall m e, m <> 0%N ->
  exists d num p, decimal_text d num p /\ nearest num p m e /\ ((0 < num)%N <-> not_tiny m e)
  /\ (forall name alias dm o al, mk_entity name alias (OFloat (FFin false m e)) dm = Ok o ->
        exists n pre, name = OStr n /\ (al = false -> pre = [])
          /\ visit false al o = Ok ($"(" ++ pre ++ n ++ $" SAMPLE " ++ d ++ $")"))
  /\ (forall name dm o al, mk_storage name (OFloat (FFin false m e)) dm = Ok o ->
        exists n, name = OStr n
          /\ visit false al o = Ok ($"STORAGE(" ++ n ++ $" SAMPLE " ++ d ++ $")")).
Proof. exact c16_positive. Qed.
Theorem C16_sample_refuses : forall f, ~ not_le_zero f -> forall name alias dm,
  mk_entity name alias (OFloat f) dm = Raise InvalidEntityError
  /\ mk_storage name (OFloat f) dm = Raise InvalidStorageError.
Proof. exact c16_refuses. Qed.
Theorem C16_sample_positive_refuted : exists f g h o1 o2 o3,
  mk_entity (OStr ($"e")) ONone (OFloat f) ONone = Ok o1 /\ visit false false o1 = Ok ($"(e SAMPLE nan)")
  /\ mk_entity (OStr ($"e")) ONone (OFloat g) ONone = Ok o2 /\ visit false false o2 = Ok ($"(e SAMPLE inf)")
  /\ mk_entity (OStr ($"e")) ONone (OFloat h) ONone = Ok o3 /\ visit false false o3 = Ok ($"(e SAMPLE 0.000000)").
Proof. exact c16_witness. Qed.

(** ** C17 The boolean structure of a printed condition can be read back *)
Theorem C17_structure_unique : forall s t t', reads s t -> reads s t' -> t = t'.
Proof. intros s t t' H. exact (reads_unique s t H t'). Qed.
Theorem C17_list_unique : forall s ts ts', reads_list s ts -> reads_list s ts' -> ts = ts'.
Proof. exact reads_list_unique. Qed.
Theorem C17_printed_structure : forall al c s, api c -> a_condition c ->
  (forall a t, atom_in a c -> visit false al a = Ok t -> atom_text t) ->
  visit false al c = Ok s ->
  exists t, shape (fun o text => visit false al o = Ok text) c t /\ reads s t.
Proof. exact c17_general. Qed.
Theorem C17_printed_structure_plain : forall al c s, api c -> a_condition c ->
  (forall x, occurs x c -> plain_names x) -> visit false al c = Ok s ->
  exists t, shape (fun o text => visit false al o = Ok text) c t /\ reads s t.
Proof. exact c17_plain. Qed.
Theorem C17_plain_names_suffice : forall al a t, api a -> (exists l o r, a = OCond l o r) ->
  (forall x, occurs x a -> plain_names x) -> visit false al a = Ok t -> atom_text t.
Proof. exact c17_atoms. Qed.

End P.

#[local] Existing Instance demoRT.
Example C12_case : visit false false (OStr ($"it's" ++ [10%N])) = Ok ($"'it\'s\n'").
Proof. reflexivity. Qed.
Example C13_case : plain_value (OList [OInt (-3); OTuple [OStr ($"a, b"); ONone]])
  /\ visit false false (OList [OInt (-3); OTuple [OStr ($"a, b"); ONone]])
     = Ok ($"array(-3, tuple('a, b', NULL))").
Proof. split; [repeat constructor|reflexivity]. Qed.
Example C14_case : visit false false (OBytes [226; 130; 172]%N) = Ok [39; 8364; 39]%N
  /\ visit false false (OBytes [255]%N) = Raise UnicodeDecodeError.
Proof. split; vm_compute; reflexivity. Qed.
Example C15_case : visit false false (ODateTime (mkDT (mkDate 2024 2 29) 23 30 0 5 (Some (-3600000000)%Z)))
  = Ok ($"toDateTime('2024-03-01T00:30:00.000005')")
  /\ visit false false (ODateTime (mkDT (mkDate 1 1 1) 0 0 0 0 (Some 3600000000%Z))) = Raise OverflowError.
Proof. split; vm_compute; reflexivity. Qed.
(* 0.1 as a binary float *)
Example C16_case : exists o, mk_entity (OStr ($"e")) ONone (OFloat (FFin false 3602879701896397 (-55))) ONone = Ok o
  /\ visit false false o = Ok ($"(e SAMPLE 0.100000)") /\ not_tiny 3602879701896397 (-55).
Proof. eexists. split; [reflexivity|]. split; vm_compute; reflexivity. Qed.
Definition col_a : obj := OColumn (mkColumn ($"a") None None None).
Definition cond_ab : obj :=
  OBoolC BOr OR KList [OCond col_a EQ (OStr ($") AND (")); OBoolC BAnd AND KList
    [OCond col_a LT (OInt 1); OCond col_a IS_NULL ONone]].
Lemma col_a_api : api col_a.
Proof. eapply (api_column (OStr ($"a")) ONone); [|constructor|reflexivity]. constructor. repeat constructor. Qed.
Example C17_case_api : api cond_ab /\ a_condition cond_ab.
Proof.
  assert (K : forall p r o, api r -> mk_condition col_a (OOp p) r = Ok o -> api o).
  { intros p r o R E. eapply api_condition; [exact col_a_api|constructor|exact R|exact E]. }
  split; [|constructor].
  apply (api_or (OList [OCond col_a EQ (OStr ($") AND (")); OBoolC BAnd AND KList
    [OCond col_a LT (OInt 1); OCond col_a IS_NULL ONone]])); [|reflexivity].
  constructor. constructor; [|constructor; [|constructor]].
  - eapply (K EQ (OStr _)); [|reflexivity]. constructor. repeat constructor.
  - apply (api_and (OList [OCond col_a LT (OInt 1); OCond col_a IS_NULL ONone])); [|reflexivity]. constructor. constructor; [|constructor; [|constructor]].
    + eapply (K LT (OInt 1)); [|reflexivity]. constructor.
    + eapply (K IS_NULL ONone); [|reflexivity]. constructor.
Qed.
Example C17_case : (forall x, occurs x cond_ab -> plain_names x)
  /\ visit false false cond_ab = Ok ($"(a = ') AND (' OR (a < 1 AND a IS NULL))").
Proof.
  split; [|reflexivity].
  assert (P : forall x y, occurs x y -> (y = cond_ab \/ y = col_a \/ (exists o r, y = OCond col_a o r /\ is_literal r = true /\ (forall f, r <> OFloat f))
     \/ (is_literal y = true /\ forall f, y <> OFloat f) \/ y = OBoolC BAnd AND KList
    [OCond col_a LT (OInt 1); OCond col_a IS_NULL ONone]) -> plain_names x).
  { intros x y H. induction H; intros D.
    - destruct D as [->|[->|[(o & r & -> & _)|[(D & E)| ->]]]]; try exact I; [split; discriminate|].
      destruct x; try discriminate D; try exact I. elim (E f eq_refl).
    - destruct D as [D|[D|[(? & ? & D & _)|[(D & E)|D]]]]; discriminate D.
    - destruct D as [D|[D|[(? & ? & D & _)|[(D & E)|D]]]]; discriminate D.
    - destruct D as [D|[D|[(? & ? & D & _)|[(D & E)|D]]]]; discriminate D.
    - destruct D as [D|[D|[(? & ? & D & _)|[(D & E)|D]]]]; discriminate D.
    - destruct D as [D|[D|[(? & ? & D & _)|[(D & E)|D]]]]; discriminate D.
    - destruct D as [D|[D|[(o' & r' & D & _)|[(D & E)|D]]]]; try discriminate D. injection D as -> -> ->.
      apply IHoccurs. auto.
    - destruct D as [D|[D|[(o' & r' & D & L & F)|[(D & E)|D]]]]; try discriminate D. injection D as -> -> ->.
      apply IHoccurs. auto 6.
    - apply IHoccurs. destruct D as [D|[D|[(o' & r' & D & L & F)|[(D & E)|D]]]]; try discriminate D;
        injection D as -> -> -> ->; cbn in H; destruct H as [<-|[<-|[]]];
        try (right; right; left; eexists _, _; split; [reflexivity|split; [reflexivity|discriminate]]).
      auto 8.
    - destruct D as [D|[D|[(? & ? & D & _)|[(D & E)|D]]]]; discriminate D.
    - destruct D as [D|[D|[(? & ? & D & _)|[(D & E)|D]]]]; discriminate D.
    - destruct D as [D|[D|[(? & ? & D & _)|[(D & E)|D]]]]; discriminate D.
    - destruct D as [D|[D|[(? & ? & D & _)|[(D & E)|D]]]]; discriminate D.
    - destruct D as [D|[D|[(? & ? & D & _)|[(D & E)|D]]]]; discriminate D.
    - destruct D as [D|[D|[(? & ? & D & _)|[(D & E)|D]]]]; discriminate D.
    - destruct D as [D|[D|[(? & ? & D & _)|[(D & E)|D]]]]; try discriminate D. injection D as ->. discriminate H. }
  intros x H. apply (P x cond_ab H). auto.
Qed.

Print Assumptions C12_string_reads_back.
Print Assumptions C12_string_delimited.
Print Assumptions C13_unique.
Print Assumptions C13_nested.
Print Assumptions C14_bytes_text.
Print Assumptions C14_bytes_refused.
Print Assumptions C15_aware.
Print Assumptions C15_naive.
Print Assumptions C15_date.
Print Assumptions C15_instant_exists.
Print Assumptions C16_sample_positive_partial.
Print Assumptions C16_sample_refuses.
Print Assumptions C16_sample_positive_refuted.
Print Assumptions C17_structure_unique.
Print Assumptions C17_list_unique.
Print Assumptions C17_printed_structure.
Print Assumptions C17_printed_structure_plain.
Print Assumptions C17_plain_names_suffice.
