(** Property C70: the text of a request determines the request. *)
From Verif Require Import PyBase PyFacts DateTime Objects Exprs SpecExpr Translate Optimizer Query SpecQuery SpecRefs SpecOrder SpecLogic SpecSnql SpecAlike
  Metrics SpecMetrics SpecMql MetricsFacts Mql MetricsQuery MetricsQueryFacts SpecMetricsQuery IsoFacts SpecTime
  Json Request SpecRequest RequestFacts SpecJson JsonFacts SpecSame SameFacts Concrete
  Properties6 Properties7 Properties8 Properties10 Properties12.
Require Import Permutation Lia.

Section P.
Context {RT : PyRT} {ST : PyStr}.

Lemma payload_plain r r' d : request_to_dict r = (r', Ok d) -> plain_request r -> plain_data d.
Proof.
  intros H O. apply to_dict_entries in H as ((ks & vs & -> & N & L) & E).
  assert (forall k v, payload_entry r k v -> Forall scalar_value k) as CK.
  { intros k v P. apply scalar_b. destruct P; try reflexivity. destruct H0; reflexivity. }
  assert (forall k v, In (k, v) (combine ks vs) -> Forall scalar_value k /\ plain_data v) as A.
  { intros k v I. assert (payload_entry r k v) as X.
    { apply E. exists ks, vs. split; [reflexivity|]. apply In_entry; assumption. }
    split; [apply (CK k v X)|apply (O k v X)]. }
  clear -A L. constructor; [auto| |]; revert vs L A; induction ks as [|k ks IH]; intros [|v vs] L A; cbn in *; try discriminate; constructor.
  - eapply A. left. reflexivity.
  - apply (IH vs); auto.
  - eapply A. left. reflexivity.
  - apply (IH vs); auto.
Qed.
Lemma plain_is_ordinary r : plain_request r -> ordinary_request r.
Proof. intros H k v P. apply plain_ordinary, (H k v P). Qed.
Lemma payload_same r1 r2 r1' r2' s k v : request_serialize r1 = (r1', Ok s) -> request_serialize r2 = (r2', Ok s) ->
  plain_request r1 -> plain_request r2 -> payload_entry r1 k v -> exists v', payload_entry r2 k v' /\ same_data v v'.
Proof.
  intros H1 H2 P1 P2 E.
  destruct (C61_same_text_partial _ _ _ _ _ H1 H2 (plain_is_ordinary _ P1) (plain_is_ordinary _ P2)) as (d1 & d2 & j & T1 & T2 & J1 & J2).
  pose proof (json_same d1 d2 j (payload_plain _ _ _ T1 P1) (payload_plain _ _ _ T2 P2) J1 J2) as S.
  destruct (C51_payload _ _ _ T1) as (_ & E1). destruct (C51_payload _ _ _ T2) as ((ks & vs & -> & N & _) & E2).
  destruct (dict_same _ _ k v S) as (v' & D & V).
  - intros ks0 vs0 X. injection X as <- <-. exact N.
  - apply E1, E.
  - exists v'. split; [apply E2, D|exact V].
Qed.
Ltac by_key H := inversion H; subst; try reflexivity; try (match goal with F : flag_of _ _ _ |- _ => inversion F; fail end).
Lemma entry_app r v : payload_entry r ($"app_id") v -> v = rq_app r.
Proof. intros H. by_key H. Qed.
Lemma entry_parent r v : payload_entry r ($"parent_api") v -> v = rq_parent r.
Proof. intros H. by_key H. Qed.
Lemma entry_tenants r v : payload_entry r ($"tenant_ids") v -> v = rq_tenants r.
Proof. intros H. by_key H. Qed.
Lemma entry_dataset r v : payload_entry r ($"dataset") v -> v = rq_dataset r.
Proof. intros H. by_key H. Qed.
Lemma entry_flag r f n v w : flag_of f n w -> payload_entry r n v -> exists b, v = OBool b /\ flag_given r n b.
Proof.
  intros F H. inversion H; subst; try (inversion F; fail). exists b. split; [reflexivity|]. exists f0. auto.
Qed.
Lemma serialized_valid r r' s : request_serialize r = (r', Ok s) -> valid_request r.
Proof.
  intros H. apply request_validate_iff. unfold request_serialize, request_to_dict in H. destruct (request_validate r) as [[]|]; [reflexivity|discriminate].
Qed.
Lemma same_sequence x y l : same_data x y -> sequence_of x l -> exists l', sequence_of y l' /\ Forall2 same_data l l'.
Proof.
  intros H S. inversion H as [| |? ? ? ? X| |? ? ? ? X Y F|]; subst; try (inversion S; fail).
  - inversion S; subst; inversion X.
  - inversion S; subst; inversion X; subst; eauto.
Qed.

(** ** C70 The text of a request determines the request *)
(** requests with the same text have the same application, parent, tenants, flags, the same
    kind of query with the same text (and the same context or conditions), and, unless they
    are delete requests, the same dataset; missing: payloads with NaN, infinities or halves
    of surrogate pairs, for which C61 is false *)
Theorem C70_same_request_partial : forall r1 r2 r1' r2' s, request_serialize r1 = (r1', Ok s) -> request_serialize r2 = (r2', Ok s) ->
  plain_request r1 -> plain_request r2 -> same_request r1 r2.
Proof.
  assert (forall r1 r2 r1' r2' s, request_serialize r1 = (r1', Ok s) -> request_serialize r2 = (r2', Ok s) ->
    plain_request r1 -> plain_request r2 -> forall n b, flag_given r1 n b -> flag_given r2 n b) as FL.
  { intros r1 r2 r1' r2' s H1 H2 P1 P2 n b (f & E & F).
    destruct (payload_same _ _ _ _ _ _ _ H1 H2 P1 P2 (pe_flag _ f n b E F)) as (v & V & D). apply same_bool in D. subst v.
    destruct (entry_flag _ _ _ _ _ F V) as (b' & X & G). injection X as <-. exact G. }
  intros r1 r2 r1' r2' s H1 H2 P1 P2.
  pose proof (fun k v => payload_same _ _ _ _ _ k v H1 H2 P1 P2) as S.
  pose proof (fun k v => payload_same _ _ _ _ _ k v H2 H1 P2 P1) as S'.
  destruct (serialized_valid _ _ _ H1) as ((bd & nd & D1 & _) & (ba & na & A1 & _) & (pa & PA & _) & _).
  split; [|split; [|split; [|split; [|split]]]].
  - intros N. destruct (S _ _ (pe_dataset r1 N)) as (v & V & D). apply entry_dataset in V. subst v. rewrite D1 in *. apply same_str in D. auto.
  - destruct (S _ _ (pe_app r1)) as (v & V & D). apply entry_app in V. subst v. rewrite A1 in *. apply same_str in D. auto.
  - destruct (S _ _ (pe_parent r1)) as (v & V & D). apply entry_parent in V. subst v. rewrite PA in *. apply same_str in D. auto.
  - destruct (S _ _ (pe_tenants r1)) as (v & V & D). apply entry_tenants in V. subst v. exact D.
  - intros n b. split; eapply FL; eassumption.
  - assert (forall r r' s, request_serialize r = (r', Ok s) ->
      (exists q t, rq_query r = RQuery q /\ serialize q = Ok t) \/ (exists q t c, rq_query r = RMetrics q /\ snd (mq_serialize q) = Ok (t, c))
      \/ (exists q, rq_query r = RDelete q)) as K.
    { clear. intros r r' s H. unfold request_serialize, request_to_dict in H. destruct (request_validate r) as [[]|]; [|discriminate].
      destruct (rflags_to_dict _); [|discriminate]. destruct (rq_query r) as [q|q|q|o].
      - destruct (serialize q) eqn:E; [|discriminate]. left. eauto.
      - destruct (mq_serialize q) as [q' [[t c]|]] eqn:E; [|discriminate]. right; left. exists q, t, c. rewrite E. auto.
      - eauto.
      - discriminate. }
    destruct (K _ _ _ H1) as [(q & t & Q & E)|[(q & t & c & Q & E)|(q & Q)]];
    destruct (K _ _ _ H2) as [(q' & t' & Q' & E')|[(q' & t' & c' & Q' & E')|(q' & Q')]]; rewrite Q, Q'.
    + destruct (S _ _ (pe_snql r1 q t Q E)) as (v & V & D). apply same_str in D. subst v. inversion V; subst; try congruence.
      econstructor; [exact E|congruence].
    + destruct (S' _ _ (pe_mql_context r2 q' t' c' Q' E')) as (v & V & D). exfalso. inversion V; subst; try congruence.
      match goal with F : flag_of _ _ _ |- _ => inversion F end.
    + destruct (S _ _ (pe_snql r1 q t Q E)) as (v & V & D). apply same_str in D. subst v. exfalso. inversion V; subst; congruence.
    + destruct (S _ _ (pe_mql_context r1 q t c Q E)) as (v & V & D). exfalso. inversion V; subst; try congruence.
      match goal with F : flag_of _ _ _ |- _ => inversion F end.
    + destruct (S _ _ (pe_mql r1 q t c Q E)) as (v & V & D). apply same_str in D. subst v.
      assert (t' = t) as -> by (inversion V; subst; congruence).
      destruct (S _ _ (pe_mql_context r1 q t c Q E)) as (v & W & D). econstructor; [exact E|exact E'|].
      inversion W; subst; try (match goal with F : flag_of _ _ _ |- _ => inversion F end; fail).
      replace c' with v by congruence. exact D.
    + destruct (S _ _ (pe_mql r1 q t c Q E)) as (v & V & D). apply same_str in D. subst v. exfalso. inversion V; subst; congruence.
    + destruct (S' _ _ (pe_snql r2 q' t' Q' E')) as (v & V & D). apply same_str in D. subst v. exfalso. inversion V; subst; congruence.
    + destruct (S' _ _ (pe_mql r2 q' t' c' Q' E')) as (v & V & D). apply same_str in D. subst v. exfalso. inversion V; subst; congruence.
    + destruct (S _ _ (pe_delete r1 q Q)) as (v & V & D).
      assert (v = ODict [$"columns"] [dq_columns q']) as ->.
      { inversion V; subst; try congruence. match goal with F : flag_of _ _ _ |- _ => inversion F end. }
      constructor. destruct (dict_same _ _ ($"columns") (dq_columns q) D) as (w & (ks & vs & X & Y) & W).
      * intros ks vs X. injection X as <- <-. constructor; [intros []|constructor].
      * exists [$"columns"], [dq_columns q]. split; [reflexivity|]. left. auto.
      * injection X as <- <-. destruct Y as [(_ & ->)|(_ & [])]. exact W.
Qed.

(** what the text leaves open: the dataset and the storage of a delete request, which are
    not in the payload *)
Theorem C70_dataset_refuted : exists r1 r2 s, plain_request r1 /\ plain_request r2
  /\ snd (request_serialize r1) = Ok s /\ snd (request_serialize r2) = Ok s
  /\ rq_dataset r1 <> rq_dataset r2
  /\ exists q1 q2, rq_query r1 = RDelete q1 /\ rq_query r2 = RDelete q2 /\ dq_storage q1 <> dq_storage q2.
Proof.
  assert (forall d st, plain_request (mkRequest (OStr d) (OStr ($"app")) (RDelete (mkDelete (OStr st) (ODict [$"id"] [OList [OInt 1]]))) RFNone (OStr ($"api")) (ODict [] []))) as P.
  { intros d st k v H. inversion H; subst; cbn in *; try discriminate.
    - match goal with E : RDelete _ = RDelete _ |- _ => injection E as <- end. repeat constructor.
    - exfalso. match goal with X : ~ _ |- _ => apply X end. eexists. reflexivity.
    - constructor. apply scalar_b. reflexivity.
    - repeat constructor.
    - constructor. apply scalar_b. reflexivity. }
  exists (mkRequest (OStr ($"events")) (OStr ($"app")) (RDelete (mkDelete (OStr ($"errors")) (ODict [$"id"] [OList [OInt 1]]))) RFNone (OStr ($"api")) (ODict [] [])),
    (mkRequest (OStr ($"search_issues")) (OStr ($"app")) (RDelete (mkDelete (OStr ($"issues")) (ODict [$"id"] [OList [OInt 1]]))) RFNone (OStr ($"api")) (ODict [] [])). eexists.
  split; [apply P|]. split; [apply P|]. split; [vm_compute; reflexivity|]. split; [vm_compute; reflexivity|]. split; [discriminate|].
  eexists _, _. split; [reflexivity|]. split; [reflexivity|]. discriminate.
Qed.

(** with C63: requests with SnQL queries and the same text have alike queries *)
Theorem C70_snql_partial : forall r1 r2 r1' r2' s q1 q2, request_serialize r1 = (r1', Ok s) -> request_serialize r2 = (r2', Ok s) ->
  plain_request r1 -> plain_request r2 -> rq_query r1 = RQuery q1 -> rq_query r2 = RQuery q2 ->
  api_query q1 -> api_query q2 -> class_typed_query q1 -> class_typed_query q2 ->
  plain_names q1 -> plain_names q2 -> clear_query q1 -> clear_query q2 ->
  exists q1' q2' l1 l1' l2 l2', same_but_where q1 q1' /\ filters q1 l1 /\ filters q1' l1' /\ Forall2 optimized_at l1 l1'
    /\ same_but_where q2 q2' /\ filters q2 l2 /\ filters q2' l2' /\ Forall2 optimized_at l2 l2'
    /\ alike_query q1' q2'.
Proof.
  intros r1 r2 r1' r2' s q1 q2 H1 H2 P1 P2 Q1 Q2 A1 A2 T1 T2 N1 N2 C1 C2.
  destruct (C70_same_request_partial _ _ _ _ _ H1 H2 P1 P2) as (_ & _ & _ & _ & _ & S). rewrite Q1, Q2 in S. inversion S; subst.
  eapply C63_same_text_partial; eassumption.
Qed.

(** metrics queries with the same text and context have the same settings; a query given as an
    object and its text say the same, see C43 and C44 *)
Lemma same_or_none {A} (k : A -> obj) x y : (forall u v, same_data (k u) (k v) -> u = v) -> (forall u, k u <> ONone) ->
  same_data (SpecMetricsQuery.or_none k x) (SpecMetricsQuery.or_none k y) -> x = y.
Proof.
  intros J N H. destruct x as [x|], y as [y|]; cbn in H; [f_equal; apply J, H| | |reflexivity].
  - inversion H as [E| |? ? ? ? X Y| |? ? ? ? X Y|]; try (inversion Y; fail). elim (N x); auto.
  - apply same_none in H. elim (N _ H).
Qed.
Lemma same_int_text i j : same_data (int_text i) (int_text j) -> i = j.
Proof.
  destruct i as [z|b], j as [z'|b']; cbn; intros H.
  - apply same_int in H. congruence.
  - inversion H as [| |? ? ? ? X Y| |? ? ? ? X Y|]; subst; inversion Y.
  - apply same_bool in H. discriminate.
  - apply same_bool in H. congruence.
Qed.
Lemma same_ints l l' : same_data (OList (map int_text l)) (OList (map int_text l')) -> l = l'.
Proof.
  intros H. apply (same_sequence _ _ (map int_text l)) in H as (m & S & F); [|constructor]. inversion S; subst. clear S.
  revert l' F. induction l as [|x l IH]; intros [|y l'] F; inversion F; subst; [reflexivity|]. f_equal; [apply same_int_text; assumption|auto].
Qed.
Ltac distinct_keys := repeat constructor; cbn; intuition discriminate.
Theorem C70_settings : forall s s' d d', shows_settings s d -> shows_settings s' d' -> same_data d d' -> same_settings s s'.
Proof.
  assert (forall ks vs k v v', entry k ks vs v -> entry k ks vs v' -> v = v') as EF.
  { induction ks as [|k' ks IH]; intros [|w vs] k v v'; cbn; try contradiction. intros [(-> & ->)|(N & A)] [(E & ->)|(N' & B)]; try congruence. eauto. }
  assert (forall d d' l, dict_keys d' l -> NoDup l -> same_data d d' -> forall k v v', dict_entry d k v -> dict_entry d' k v' -> same_data v v') as DF.
  { intros d d' l (vs & ->) N S k v v' D D'. destruct (dict_same _ _ k v S) as (w & W & X); [|exact D|].
    - intros ks vs0 E. injection E as <- <-. exact N.
    - destruct W as (ks & vs1 & E & W), D' as (ks' & vs2 & E' & D'). injection E as <- <-. injection E' as <- <-. rewrite <- (EF _ _ _ _ _ W D'). exact X. }
  assert (forall x y, same_data (OStr x) (OStr y) -> x = y) as SS by (intros x y H; apply same_str in H; congruence).
  intros s s' d d' (_ & (a & A & A') & (b & B & B') & (c & C & C') & (e & D & D') & E & F & G & H)
    (K & (a2 & A2 & A2') & (b2 & B2 & B2') & (c2 & C2 & C2') & (e2 & D2 & D2') & E2 & F2 & G2 & H2) S.
  assert (forall k v v', dict_entry d k v -> dict_entry d' k v' -> same_data v v') as L by (eapply DF; [exact K|distinct_keys|exact S]).
  destruct C' as (_ & I1 & I2 & I3 & I4), C2' as (KC & J1 & J2 & J3 & J4).
  destruct D' as (_ & X1 & X2 & X3), D2' as (KD & Y1 & Y2 & Y3).
  assert (forall k v v', dict_entry c k v -> dict_entry c2 k v' -> same_data v v') as LC by (eapply DF; [exact KC|distinct_keys|apply (L _ _ _ C C2)]).
  assert (forall k v v', dict_entry e k v -> dict_entry e2 k v' -> same_data v v') as LD by (eapply DF; [exact KD|distinct_keys|apply (L _ _ _ D D2)]).
  assert (forall i, int_text i <> ONone) as IN by (intros []; discriminate).
  split; [|split; [|split; [|split; [|split; [|split; [|split; [|split; [|split; [|split]]]]]]]]].
  - pose proof (SS _ _ (L _ _ _ A A2)) as ->. exact (full_iso_fun _ _ _ A' A2').
  - pose proof (SS _ _ (L _ _ _ B B2)) as ->. exact (full_iso_fun _ _ _ B' B2').
  - pose proof (same_ints _ _ (LD _ _ _ X1 Y1)) as Z1. pose proof (same_ints _ _ (LD _ _ _ X2 Y2)) as Z2.
    pose proof (same_or_none OStr _ _ SS ltac:(discriminate) (LD _ _ _ X3 Y3)) as Z3. destruct (se_scope s), (se_scope s'); cbn in *. congruence.
  - exact (same_or_none int_text _ _ same_int_text IN (L _ _ _ E E2)).
  - exact (same_or_none int_text _ _ same_int_text IN (L _ _ _ F F2)).
  - refine (same_or_none OBool _ _ _ ltac:(discriminate) (L _ _ _ G G2)). intros u v X. apply same_bool in X. congruence.
  - exact (same_or_none int_text _ _ same_int_text IN (LC _ _ _ I1 J1)).
  - eapply same_or_none; [| |exact (LC _ _ _ I3 J3)]; [intros [] [] X; apply SS in X; (reflexivity || discriminate X)|discriminate].
  - eapply same_or_none; [| |exact (LC _ _ _ I4 J4)]; [intros [] [] X; apply SS in X; (reflexivity || discriminate X)|discriminate].
  - exact (LC _ _ _ I2 J2).
  - exact (L _ _ _ H H2).
Qed.
Theorem C70_metrics_partial : forall r1 r2 r1' r2' s q1 q2 s1 s2, request_serialize r1 = (r1', Ok s) -> request_serialize r2 = (r2', Ok s) ->
  plain_request r1 -> plain_request r2 -> rq_query r1 = RMetrics q1 -> rq_query r2 = RMetrics q2 ->
  has_settings q1 s1 -> has_settings q2 s2 -> real_datetime (se_start s1) -> real_datetime (se_end s1) ->
  real_datetime (se_start s2) -> real_datetime (se_end s2) ->
  same_settings s1 s2
  /\ forall v1 v2, mq_query (after_serialize q1) = v1 -> mq_query (after_serialize q2) = v2 ->
     mql_query v1 -> mql_query v2 -> mql_value v1 -> mql_value v2 ->
     exists v, mv_eq v (conj_value v1) = true /\ mv_eq v (conj_value v2) = true.
Proof.
  intros r1 r2 r1' r2' s q1 q2 s1 s2 H1 H2 P1 P2 Q1 Q2 S1 S2 R1 R2 R3 R4.
  destruct (C70_same_request_partial _ _ _ _ _ H1 H2 P1 P2) as (_ & _ & _ & _ & _ & S). rewrite Q1, Q2 in S.
  inversion S as [|? ? m c1 c2 E1 E2 D|]; subst.
  destruct (mq_serialize q1) as [q1' o1] eqn:F1. destruct (mq_serialize q2) as [q2' o2] eqn:F2. cbn in E1, E2. subst o1 o2. split.
  - eapply C70_settings; [exact (C50_context _ _ _ _ _ F1 S1 R1 R2)|exact (C50_context _ _ _ _ _ F2 S2 R3 R4)|exact D].
  - unfold after_serialize. rewrite F1, F2. cbn [fst]. intros v1 v2 V1 V2 M1 M2 L1 L2.
    assert (forall q q' c v, mq_serialize q = (q', Ok (m, c)) -> mq_query q' = v -> mql_query v -> mql_value v ->
      exists w, parse_mql m = Ok w /\ mv_eq w (conj_value v) = true) as K.
    { clear. intros q q' c v F V M L. apply serialize_parts in F as (_ & _ & _ & _ & F). unfold mq_payload in F. rewrite V in F.
      apply bind_Ok in F as (t & T & F). assert (t = m) as ->.
      { repeat (apply bind_Ok in F as (? & _ & F)). congruence. }
      destruct M as [x|n pk ps a f g].
      - inversion L; subst. destruct (C43_timeseries x) as (t' & x' & P' & R & Q'); [assumption|].
        change (print_ts x = Ok m) in T. rewrite T in P'. injection P' as <-. exists (VTS x'). auto.
      - destruct (C44_formula n pk ps a f g L) as (t' & w & P' & R & Q').
        change (print_mval (VFormula n pk ps a f g) = Ok m) in T. rewrite T in P'. injection P' as <-. exists w. auto. }
    destruct (K _ _ _ _ F1 V1 M1 L1) as (w & W & X). destruct (K _ _ _ _ F2 V2 M2 L2) as (w' & W' & X').
    exists w. split; [exact X|]. congruence.
Qed.
End P.

(** ** Concrete cases: requests that differ, with the same text *)
#[local] Existing Instance demoRT.
#[local] Existing Instance demoST.
Definition c70_flags : flags := mkFlags ONone ONone (OBool true) ONone ONone ONone.
Definition c70_request (q : rquery) (f : flags) (t : obj) : request :=
  mkRequest (OStr ($"events")) (OStr ($"app")) q (RFlags f) (OStr ($"api")) (ODict [$"ids"] [t]).
Definition c70_snql_1 := c70_request (RQuery demo_q1) c70_flags (OList [OInt 1; OStr ($"x")]).
Definition c70_snql_2 := c70_request (RQuery demo_q2) c70_flags (OTuple [OInt 1; OStr ($"x")]).
Definition c70_query (t : timeseries) : mquery := demo_query demo_ix (VTS t).
Definition c70_mql_1 := c70_request (RMetrics (c70_query demo_series)) c70_flags (OList [OInt 1]).
Definition c70_mql_2 := c70_request (RMetrics (c70_query demo_series)) c70_flags (OTuple [OInt 1]).
Ltac plain_tac :=
  let k := fresh "k" in let v := fresh "v" in let H := fresh "H" in
  intros k v H; inversion H; subst; cbn in *; try discriminate;
  repeat match goal with
  | E : RFlags _ = RFlags _ |- _ => injection E as <-
  | E : RQuery _ = RQuery _ |- _ => injection E as <-
  | E : RMetrics _ = RMetrics _ |- _ => injection E as <-
  | E : Ok _ = Ok _ |- _ => injection E as <-
  end;
  repeat (match goal with
  | |- plain_data (OFloat _) => fail 1
  | |- Forall scalar_value _ => apply scalar_b; vm_compute; reflexivity
  | |- _ => constructor
  end).
Example C70_snql_case :
  (exists s, request_serialize c70_snql_1 = (c70_snql_1, Ok s) /\ request_serialize c70_snql_2 = (c70_snql_2, Ok s))
  /\ plain_request c70_snql_1 /\ plain_request c70_snql_2 /\ c70_snql_1 <> c70_snql_2.
Proof.
  assert (forall s, s = demo_text -> Forall scalar_value s) as D by (intros s ->; apply scalar_b; vm_compute; reflexivity).
  assert (forall s, serialize demo_q1 = Ok s -> Forall scalar_value s) as A.
  { intros s E. apply D. assert (serialize demo_q1 = Ok demo_text) as X by (vm_compute; reflexivity). congruence. }
  assert (forall s, serialize demo_q2 = Ok s -> Forall scalar_value s) as B.
  { intros s E. apply D. assert (serialize demo_q2 = Ok demo_text) as X by (vm_compute; reflexivity). congruence. }
  split; [eexists; split; vm_compute; reflexivity|].
  split; [|split; [|discriminate]]; plain_tac; eauto.
Qed.
Example C70_mql_case :
  (exists r1 r2 s, request_serialize c70_mql_1 = (r1, Ok s) /\ request_serialize c70_mql_2 = (r2, Ok s))
  /\ plain_request c70_mql_1 /\ plain_request c70_mql_2 /\ c70_mql_1 <> c70_mql_2
  /\ mq_query (after_serialize (c70_query demo_series)) = VTS demo_series
  /\ mql_value (VTS demo_series)
  /\ exists s, has_settings (c70_query demo_series) s /\ real_datetime (se_start s) /\ real_datetime (se_end s).
Proof.
  assert (forall s c, snd (mq_serialize (c70_query demo_series)) = Ok (s, c) -> Forall scalar_value s /\ plain_data c) as A.
  { intros s c E.
    assert (exists t d, snd (mq_serialize (c70_query demo_series)) = Ok (t, d) /\ Forall scalar_value t /\ plain_data d) as (t & d & X & Y).
    { eexists _, _; split; [vm_compute; reflexivity|]. split; [apply scalar_b; vm_compute; reflexivity|].
      repeat (match goal with |- Forall scalar_value _ => apply scalar_b; vm_compute; reflexivity | |- _ => constructor end). }
    rewrite E in X. injection X as -> ->. exact Y. }
  split; [eexists _, _, _; split; vm_compute; reflexivity|].
  assert (forall x, plain_data x -> plain_request (c70_request (RMetrics (c70_query demo_series)) c70_flags x)) as B.
  { intros x PX k v H. inversion H as [f n b F G|q s Q E|q s c Q E|q s c Q E|q Q| | | |]; subst; try discriminate Q.
    - constructor.
    - injection Q as <-. apply A in E. constructor. tauto.
    - injection Q as <-. apply A in E. tauto.
    - constructor. apply scalar_b. reflexivity.
    - constructor. apply scalar_b. reflexivity.
    - constructor; [reflexivity|repeat constructor; apply scalar_b; reflexivity|repeat constructor; exact PX].
    - constructor. apply scalar_b. reflexivity. }
  split; [apply B; repeat constructor|]. split; [apply B; repeat constructor|]. split; [discriminate|]. split; [vm_compute; reflexivity|].
  split; [constructor; apply demo_series_ok|].
  exists (mkSet (mkDT (mkDate 2023 5 1) 8 30 0 0 None) (mkDT (mkDate 2023 5 2) 8 30 0 0 (Some 19800000000%Z)) demo_rollup demo_scope (Some (PInt 100)) None None
    ([$"transaction.duration"], [OInt 7])).
  split; [repeat split|]. split; (split; [split; [cbn; lia|split; [cbn; lia|exists 31%Z; split; [constructor; cbn; tauto|cbn; lia]]]|]); cbn; lia.
Qed.

Print Assumptions C70_same_request_partial.
Print Assumptions C70_dataset_refuted.
Print Assumptions C70_snql_partial.
Print Assumptions C70_settings.
Print Assumptions C70_metrics_partial.
