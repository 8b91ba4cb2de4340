(** Property C110: the rows a delete request deletes. *)
From Verif Require Import PyBase PyFacts DateTime Objects Exprs SpecExpr Translate Query Metrics MetricsQuery SpecMetricsQuery Json Request SpecRequest RequestFacts SpecJson JsonFacts SpecSame SameFacts SpecServer SpecDelete Concrete
  Properties6 Properties8 Properties10 Properties18 Properties44.
Require Import Permutation Lia.

Section P.
Context {RT : PyRT} {ST : PyStr}.

Lemma entry_in c ks : NoDup ks -> forall vs v, In (c, v) (combine ks vs) <-> entry c ks vs v.
Proof.
  induction 1 as [|k ks NI N IH]; intros [|w vs] v; cbn [combine entry]; try (split; contradiction || (intros []); fail).
  split.
  - intros [E|I]; [injection E as <- <-; auto|]. right. split; [|apply IH, I]. intros ->. apply NI. eapply in_combine_l, I.
  - intros [(-> & ->)|(NE & E)]; [left; reflexivity|right; apply IH, E].
Qed.
Lemma combine_json ks vs js c v : Forall2 is_json vs js -> In (c, v) (combine ks vs) -> exists j, In (utf16 c, j) (combine (map utf16 ks) js) /\ is_json v j.
Proof.
  intros F. revert ks. induction F as [|v0 j0 vs js J F IH]; intros [|k ks] I; try contradiction. cbn [map combine] in *.
  destruct I as [E|I]; [injection E as -> ->; exists j0; split; [left; reflexivity|exact J]|]. destruct (IH ks I) as (j & X & Y). exists j. split; [right; exact X|exact Y].
Qed.
Lemma combine_back ks vs js u j : Forall2 is_json vs js -> In (u, j) (combine (map utf16 ks) js) -> exists c v, u = utf16 c /\ In c ks /\ In (c, v) (combine ks vs) /\ is_json v j.
Proof.
  intros F. revert ks. induction F as [|v0 j0 vs js J F IH]; intros [|k ks] I; try contradiction. cbn [map combine] in *.
  destruct I as [E|I]; [injection E as <- <-; exists k, v0; repeat split; auto; left; reflexivity|].
  destruct (IH ks I) as (c & v & X & Y & Z & W). exists c, v. repeat split; auto; right; assumption.
Qed.
Lemma F2_in_r {A B} (R : A -> B -> Prop) l m y : Forall2 R l m -> In y m -> exists x, In x l /\ R x y.
Proof. induction 1 as [|a b l m H _ IH]; [intros []|]. intros [<-|I]; [exists a; split; [left; reflexivity|exact H]|]. destruct (IH I) as (x & X & Y). exists x. split; [right|]; assumption. Qed.
Lemma F2_in_l {A B} (R : A -> B -> Prop) l m x : Forall2 R l m -> In x l -> exists y, In y m /\ R x y.
Proof. induction 1 as [|a b l m H _ IH]; [intros []|]. intros [<-|I]; [exists b; split; [left; reflexivity|exact H]|]. destruct (IH I) as (y & X & Y). exists y. split; [right|]; assumption. Qed.

(** ** C110 A delete request deletes exactly the rows it describes *)
Theorem C110_rows : forall r r' s q row, request_serialize r = (r', Ok s) -> plain_request r -> rq_query r = RDelete q -> documented_columns (dq_columns q) ->
  texts_fine row -> (deletes s row <-> asks_to_delete (dq_columns q) row).
Proof.
  intros r r' s q row H P Q (ks & vs & EC & ND & DV) TF.
  pose proof (pe_delete r q Q) as PE. destruct (C105_members r r' s _ _ H P PE) as (j & RJ & J & U). pose proof (P _ _ PE) as PD. rewrite EC in *.
  inversion J as [| | | | | | |? ? js ms LE JS PM]; subst. inversion JS as [|? jc ? ? JC JN]; subst. inversion JN; subst. cbn [map combine] in PM.
  apply Permutation_sym, Permutation_length_1_inv in PM. subst ms.
  inversion JC as [| | | | | | |? ? js cols LC JV PC]; subst.
  inversion PD as [| | | | | | |? ? _ _ PV]; subst. inversion PV as [|? ? PD2 _]; subst. inversion PD2 as [| | | | | | |? ? LK SK PV2]; subst.
  assert (EN : forall c v, dict_entry (ODict ks vs) c v <-> In (c, v) (combine ks vs)).
  { intros c v. rewrite entry_in by exact ND. split; [intros (a & b & X & Y); injection X as <- <-; exact Y|intros Y; exists ks, vs; auto]. }
  assert (CELL : forall v u c, plain_data v -> is_json v u -> documented_value v -> (json_cell u (row c) <-> cell_is v (row c))).
  { intros v u c PV' IJ [(z & ->)|(w & ->)]; inversion IJ; subst.
    - split; intros X; inversion X; subst; constructor.
    - inversion PV'; subst. split; intros X; inversion X as [|w' E1 E2]; subst; [|constructor].
      assert (w' = w) as ->; [|constructor]. apply utf16_inj; [eapply TF; symmetry; exact E2|assumption|assumption]. }
  split.
  - intros (cols' & RC & D). apply U in RC. assert (cols' = cols) as -> by congruence. intros c l E. apply EN in E.
    destruct (combine_json _ _ _ _ _ JV E) as (j & I & IJ). assert (IC : In (utf16 c, j) cols) by (eapply Permutation_in; [apply Permutation_sym, PC|exact I]).
    assert (SC : Forall scalar_value c) by (rewrite Forall_forall in SK; apply SK; eapply in_combine_l, E).
    destruct (D c j SC IC) as (us & u & -> & IU & CU). inversion IJ as [| | | | |? ? F| |]; subst.
    destruct (F2_in_r _ _ _ _ F IU) as (v & IV & VJ). exists v. split; [exact IV|].
    pose proof (in_combine_r _ _ _ _ E) as IL. rewrite Forall_forall in PV2, DV. pose proof (PV2 _ IL) as PL. inversion PL; subst.
    destruct (DV _ IL) as (l0 & EL & DL). injection EL as <-. rewrite Forall_forall in DL. 
    apply (CELL v u c); auto. match goal with H : Forall plain_data l |- _ => rewrite Forall_forall in H; apply H, IV end.
  - intros A. exists cols. split; [exact RJ|]. intros c j SC I. apply (Permutation_in _ PC) in I.
    destruct (combine_back _ _ _ _ _ JV I) as (c' & v & EU & IK & IV & IJ).
    assert (c = c') as <-. { apply utf16_inj; auto. rewrite Forall_forall in SK. apply SK, IK. }
    pose proof (in_combine_r _ _ _ _ IV) as IL. rewrite Forall_forall in PV2, DV. destruct (DV _ IL) as (l & -> & DL). pose proof (PV2 _ IL) as PL. inversion PL; subst.
    destruct (A c l) as (v & Iv & CV); [apply EN, IV|]. inversion IJ as [| | | | |? us F| |]; subst.
    destruct (F2_in_l _ _ _ _ F Iv) as (u & IU & VJ). exists us, u. split; [reflexivity|]. split; [exact IU|].
    apply (CELL v u c); auto; [match goal with H : Forall plain_data l |- _ => rewrite Forall_forall in H; apply H, Iv end|rewrite Forall_forall in DL; apply DL, Iv].
Qed.
(** at least one column is restricted to listed values, so there are rows that stay *)
Lemma fresh_int l : exists z, ~ In (OInt z) l.
Proof.
  assert (X : exists m, forall z, In (OInt z) l -> (z < m)%Z).
  { induction l as [|o l (m & IH)]; [exists 0%Z; intros z []|]. destruct o; try (exists m; intros y [E|I]; [discriminate E|apply IH, I]).
    exists (Z.max m (z + 1)). intros y [E|I]; [injection E as ->; lia|]. pose proof (IH y I). lia. }
  destruct X as (m & X). exists m. intros I. pose proof (X m I). lia.
Qed.
Theorem C110_bounded : forall r r' s q, request_serialize r = (r', Ok s) -> plain_request r -> rq_query r = RDelete q -> documented_columns (dq_columns q) ->
  exists c l, dict_entry (dq_columns q) c (OList l) /\ l <> []
    /\ (forall row, texts_fine row -> deletes s row -> exists v, In v l /\ cell_is v (row c))
    /\ exists row, texts_fine row /\ ~ deletes s row.
Proof.
  intros r r' s q H P Q D. pose proof D as (ks & vs & EC & ND & DV).
  assert (B : deletes_something_bounded (dq_columns q)).
  { pose proof (proj1 (C52_all_outputs r) s) as V. rewrite H in V. specialize (V eq_refl). unfold valid_request in V. rewrite Q in V. apply delete_validate_iff, V. }
  destruct B as (ks' & vs' & EC' & NE & SZ). rewrite EC in EC'. injection EC' as <- <-.
  assert (LK : List.length ks = List.length vs).
  { pose proof (P _ _ (pe_delete r q Q)) as PD. rewrite EC in PD. inversion PD as [| | | | | | |? ? _ _ PV]; subst. inversion PV as [|? ? PD2 _]; subst. inversion PD2; assumption. }
  destruct ks as [|c ks]; [congruence|]. destruct vs as [|v vs]; [discriminate LK|].
  inversion DV as [|? ? (l & -> & DL) _]; subst. inversion SZ as [|? ? (n & S & N) _]; subst. inversion S; subst.
  assert (E : dict_entry (dq_columns q) c (OList l)) by (rewrite EC; eexists _, _; split; [reflexivity|]; left; auto).
  exists c, l. split; [exact E|]. split; [intros ->; cbn in N; lia|]. split.
  - intros row TF DR. apply (C110_rows r r' s q row H P Q D TF) in DR. apply DR, E.
  - destruct (fresh_int l) as (z & NZ). exists (fun _ => CInt z). assert (TF : texts_fine (fun _ => CInt z)) by (intros ? ? X; discriminate X).
    split; [exact TF|]. intros DR. apply (C110_rows r r' s q _ H P Q D TF) in DR. destruct (DR c l E) as (v & I & X). inversion X; subst. exact (NZ I).
Qed.
(** more columns or shorter lists delete fewer rows *)
Theorem C110_narrows : forall r1 r1' s1 q1 r2 r2' s2 q2, request_serialize r1 = (r1', Ok s1) -> plain_request r1 -> rq_query r1 = RDelete q1 -> documented_columns (dq_columns q1) ->
  request_serialize r2 = (r2', Ok s2) -> plain_request r2 -> rq_query r2 = RDelete q2 -> documented_columns (dq_columns q2) ->
  (forall c l, dict_entry (dq_columns q1) c (OList l) -> exists l', dict_entry (dq_columns q2) c (OList l') /\ incl l' l) ->
  forall row, texts_fine row -> deletes s2 row -> deletes s1 row.
Proof.
  intros r1 r1' s1 q1 r2 r2' s2 q2 H1 P1 Q1 D1 H2 P2 Q2 D2 N row TF X.
  apply (C110_rows r2 r2' s2 q2 row H2 P2 Q2 D2 TF) in X. apply (C110_rows r1 r1' s1 q1 row H1 P1 Q1 D1 TF).
  intros c l E. destruct (N c l E) as (l' & E' & I). destruct (X c l' E') as (v & V & C). exists v. split; [apply I, V|exact C].
Qed.
End P.

(** Non-vacuity: the example of the documentation *)
#[local] Existing Instance demoRT.
#[local] Existing Instance demoST.
Definition c110_columns : obj := ODict [$"id"; $"status"] [OList [OInt 1; OInt 2; OInt 3]; OList [OStr ($"failed")]].
Definition c110_request : request := c70_request (RDelete (mkDelete (OStr ($"st")) c110_columns)) c70_flags (OList [OInt 1]).
Definition c110_row (z : Z) : table_row := fun c => if str_eqb c ($"id") then CInt z else if str_eqb c ($"status") then CText ($"failed") else CNull.
Example C110_case : (exists r' s, request_serialize c110_request = (r', Ok s) /\ deletes s (c110_row 2) /\ ~ deletes s (c110_row 4))
  /\ plain_request c110_request /\ documented_columns c110_columns /\ texts_fine (c110_row 2).
Proof.
  assert (P : plain_request c110_request).
  { assert (PC : plain_data (ODict [$"columns"] [c110_columns])).
    { unfold c110_columns. repeat (match goal with |- Forall scalar_value _ => apply scalar_b; vm_compute; reflexivity | |- _ => constructor end). }
    intros k v H. inversion H as [f n b F G|q s Q E|q s c Q E|q s c Q E|q Q| | | |]; subst; try discriminate Q.
    - constructor.
    - injection Q as <-. exact PC.
    - constructor. apply scalar_b. reflexivity.
    - constructor. apply scalar_b. reflexivity.
    - constructor; [reflexivity|repeat constructor; apply scalar_b; reflexivity|repeat constructor].
    - constructor. apply scalar_b. reflexivity. }
  assert (D : documented_columns c110_columns).
  { exists [$"id"; $"status"], [OList [OInt 1; OInt 2; OInt 3]; OList [OStr ($"failed")]]. split; [reflexivity|]. split.
    - repeat constructor; cbn; intuition discriminate.
    - apply Forall_cons; [|apply Forall_cons; [|apply Forall_nil]]; eexists; (split; [reflexivity|]);
        repeat (apply Forall_cons; [first [left; eexists; reflexivity|right; eexists; reflexivity]|]); apply Forall_nil. }
  assert (TF : forall z, texts_fine (c110_row z)).
  { intros z c s E. unfold c110_row in E. destruct (str_eqb c _); [discriminate E|]. destruct (str_eqb c _); [|discriminate E]. injection E as <-. apply scalar_b. vm_compute. reflexivity. }
  assert (S : exists r' s, request_serialize c110_request = (r', Ok s)) by (eexists _, _; vm_compute; reflexivity).
  destruct S as (r' & s & S).
  split; [|auto]. exists r', s. split; [exact S|].
  assert (EN : forall c l, dict_entry c110_columns c (OList l) -> c = $"id" /\ l = [OInt 1; OInt 2; OInt 3] \/ c = $"status" /\ l = [OStr ($"failed")]).
  { intros c l (ks & vs & E & X). injection E as <- <-. cbn [entry] in X. destruct X as [(-> & E)|(_ & [(-> & E)|(_ & [])])]; injection E as ->; auto. }
  split.
  - apply (C110_rows _ _ _ _ _ S P eq_refl D (TF 2%Z)). intros c l E. destruct (EN c l E) as [(-> & ->)|(-> & ->)].
    + exists (OInt 2). split; [right; left; reflexivity|constructor].
    + exists (OStr ($"failed")). split; [left; reflexivity|constructor].
  - intros X. apply (C110_rows _ _ _ _ _ S P eq_refl D (TF 4%Z)) in X.
    destruct (X ($"id") [OInt 1; OInt 2; OInt 3]) as (v & I & C).
    + eexists _, _. split; [reflexivity|]. left. auto.
    + cbn in C. inversion C; subst. cbn in I. intuition discriminate.
Qed.

Print Assumptions C110_rows.
Print Assumptions C110_bounded.
Print Assumptions C110_narrows.
