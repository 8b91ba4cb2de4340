(** C63, second part: objects standing for one tree are alike. *)
From Coq Require Import ZifyN ZifyNat.
From Verif Require Import PyBase PyFacts DateTime SpecTime Objects SpecExpr SpecText SpecOccurs SpecQuery SpecSetters SpecRefs SpecOrder SpecLogic Query TextProps WfFacts PrintProps SetterProps OptFacts QueryProps
  SpecSnql SnqlFacts SnqlDenote SnqlQuery SpecAlike.

Section A.
Context {RT : PyRT}.

(** ** dates *)
Lemma numeral_inj w z z' s : numeral w z s -> numeral w z' s -> z = z'.
Proof. intros (_ & _ & <-) (_ & _ & <-). reflexivity. Qed.
Lemma app_len_inj {A} (a a' b b' : list A) : List.length a = List.length a' -> a ++ b = a' ++ b' -> a = a' /\ b = b'.
Proof.
  revert a'. induction a as [|x a IH]; intros [|y a'] L E; try discriminate L; [auto|].
  injection E as -> E. injection L as L. destruct (IH _ L E) as [-> ->]. auto.
Qed.
Lemma iso_date_inj d d' s : iso_date_text d s -> iso_date_text d' s -> d = d'.
Proof.
  intros (y & m & a & -> & Y & M & A) (y' & m' & a' & E & Y' & M' & A').
  apply app_len_inj in E as [<- E]; [|destruct Y, Y'; congruence]. injection E as E.
  apply app_len_inj in E as [<- E]; [|destruct M, M'; congruence]. injection E as <-.
  destruct d, d'. cbn in *. f_equal; eapply numeral_inj; eassumption.
Qed.
Lemma iso_inj t t' s : iso_text t s -> iso_text t' s -> dt_tz t = None -> dt_tz t' = None -> t = t'.
Proof.
  intros (y & m & a & h & mi & se & fr & -> & Y & M & A & H & MI & SE & FR) (y' & m' & a' & h' & mi' & se' & fr' & E & Y' & M' & A' & H' & MI' & SE' & FR') Z Z'.
  apply app_len_inj in E as [<- E]; [|destruct Y, Y'; congruence]. injection E as E.
  apply app_len_inj in E as [<- E]; [|destruct M, M'; congruence]. injection E as E.
  apply app_len_inj in E as [<- E]; [|destruct A, A'; congruence]. injection E as E.
  apply app_len_inj in E as [<- E]; [|destruct H, H'; congruence]. injection E as E.
  apply app_len_inj in E as [<- E]; [|destruct MI, MI'; congruence]. injection E as E.
  apply app_len_inj in E as [<- <-]; [|destruct SE, SE'; congruence].
  assert (dt_us t = dt_us t').
  { destruct FR as [[-> ->]|(N & u & -> & U)], FR' as [[-> E]|(N' & u' & E & U')]; try discriminate E; [reflexivity|].
    injection E as <-. eapply numeral_inj; eassumption. }
  destruct t as [[? ? ?] ? ? ? ? ?], t' as [[? ? ?] ? ? ? ? ?]. cbn in *. subst. f_equal; [f_equal|..]; eapply numeral_inj; eassumption.
Qed.
Lemma iso_date_time d t s : iso_date_text d s -> iso_text t s -> False.
Proof.
  intros (y & m & a & -> & Y & M & A) (y' & m' & a' & h' & mi' & se' & fr' & E & Y' & M' & A' & _).
  apply app_len_inj in E as [<- E]; [|destruct Y, Y'; congruence]. injection E as E.
  apply app_len_inj in E as [<- E]; [|destruct M, M'; congruence]. injection E as E.
  rewrite <- (app_nil_r a) in E. apply app_len_inj in E as [_ E]; [discriminate E|destruct A, A'; congruence].
Qed.

(** ** expressions *)
Definition all_clear al (o : obj) : Prop := forall x, occurs x o -> clear al x.
Lemma clear_sub al o x : all_clear al o -> (forall y, occurs y x -> occurs y o) -> all_clear al x.
Proof. intros A H y O. apply A, H, O. Qed.
Definition settled al (e : expr) : Prop := forall o o', wf o -> wf o' -> all_clear al o -> all_clear al o' ->
  denotes al o e -> denotes al o' e -> alike al o o'.
Lemma alike_all al es : Forall (settled al) es -> forall l l', Forall wf l -> Forall wf l' ->
  (forall x, In x l -> all_clear al x) -> (forall x, In x l' -> all_clear al x) ->
  Forall2 (denotes al) l es -> Forall2 (denotes al) l' es -> Forall2 (alike al) l l'.
Proof.
  induction 1 as [|e es H _ IH]; intros l l' W W' C C' D D'; inversion D; subst; inversion D'; subst; constructor; inversion W; inversion W'; subst.
  - eapply H; eauto; [apply C|apply C']; left; reflexivity.
  - eapply IH; eauto; intros; [apply C|apply C']; right; assumption.
Qed.
Lemma given_inj ik ik' pk pk' is is' ps ps' : pk <> KNone -> pk' <> KNone -> (ik = KNone -> is = []) -> (ik' = KNone -> is' = []) ->
  given ik is ++ given pk ps = given ik' is' ++ given pk' ps' -> (ik = KNone <-> ik' = KNone) /\ is = is' /\ ps = ps'.
Proof.
  intros N N' K K' E. destruct pk; [congruence|..]; destruct pk'; try congruence; destruct ik, ik'; cbn in E; try discriminate E;
    injection E as E; subst; split; [split; congruence|..]; try (split; congruence); split; auto; rewrite K, K' by reflexivity; reflexivity.
Qed.
(* a plain word *)
Inductive plain (al : bool) : obj -> str -> option str -> Prop :=
| pl_none : plain al ONone ($"NULL") None
| pl_true : plain al (OBool true) ($"TRUE") None
| pl_false : plain al (OBool false) ($"FALSE") None
| pl_int z : plain al (OInt z) (dec_of_Z z) None
| pl_float f : plain al (OFloat f) (float_repr f) None
| pl_column o w a : column_like al o w a -> plain al o w a.
Lemma reserved_Z z : ~ In (dec_of_Z z) reserved.
Proof.
  intros I. destruct (LiteralFacts.dec_of_Z_cases z) as [(n & E & _)|(p & E & _)]; rewrite E in I.
  - pose proof (dec_of_N_digits n) as D. assert (N : dec_of_N n <> []) by apply dec_of_N_nonempty.
    destruct I as [I|[I|[I|[]]]]; rewrite <- I in D; inversion D as [|? ? X]; subst; discriminate X.
  - destruct I as [I|[I|[I|[]]]]; discriminate I.
Qed.
Lemma column_like_clear al o w a : all_clear al o -> column_like al o w a ->
  ~ In w reserved /\ (forall z, w <> dec_of_Z z) /\ (forall f, w <> float_repr f).
Proof.
  intros C H. destruct H as [c w W|c w a W]; refine (C (OColumn c) _ w W); [constructor|]. apply oc_aliased. constructor.
Qed.
Lemma plain_alike al o o' w a : all_clear al o -> all_clear al o' -> plain al o w a -> plain al o' w a -> alike al o o'.
Proof.
  intros C C' P P'.
  assert (IN : forall s, In s reserved -> forall z, dec_of_Z z <> s). { intros s I z <-. exact (reserved_Z z I). }
  assert (FN : forall f, all_clear al (OFloat f) -> forall s, In s reserved -> float_repr f <> s).
  { intros f A s I <-. exact (proj1 (A _ (oc_self _)) I). }
  assert (FZ : forall f, all_clear al (OFloat f) -> forall z, float_repr f <> dec_of_Z z).
  { intros f A. exact (proj2 (A _ (oc_self _))). }
  assert (CN : forall x v b, all_clear al x -> column_like al x v b -> forall s, In s reserved -> v <> s).
  { intros x v b A L s I <-. exact (proj1 (column_like_clear _ _ _ _ A L) I). }
  assert (CZ : forall x v b, all_clear al x -> column_like al x v b -> forall z, v <> dec_of_Z z).
  { intros x v b A L. exact (proj1 (proj2 (column_like_clear _ _ _ _ A L))). }
  assert (CF : forall x v b, all_clear al x -> column_like al x v b -> forall z, v <> float_repr z).
  { intros x v b A L. exact (proj2 (proj2 (column_like_clear _ _ _ _ A L))). }
  assert (R1 : In ($"NULL") reserved) by (left; reflexivity).
  assert (R2 : In ($"TRUE") reserved) by (right; left; reflexivity).
  assert (R3 : In ($"FALSE") reserved) by (right; right; left; reflexivity).
  inversion P; subst; inversion P'; subst; try constructor; try congruence;
    try (exfalso; match goal with
      | E : dec_of_Z ?z = ?s |- False => exact (IN s ltac:(assumption) z E)
      | E : ?s = dec_of_Z ?z |- False => exact (IN s ltac:(assumption) z (eq_sym E))
      | E : float_repr ?f = dec_of_Z ?z |- False => exact (FZ f ltac:(assumption) z E)
      | E : dec_of_Z ?z = float_repr ?f |- False => exact (FZ f ltac:(assumption) z (eq_sym E))
      | E : float_repr ?f = ?s |- False => exact (FN f ltac:(assumption) s ltac:(assumption) E)
      | E : ?s = float_repr ?f |- False => exact (FN f ltac:(assumption) s ltac:(assumption) (eq_sym E))
      | L : column_like al ?x (dec_of_Z _) _ |- False => exact (CZ x _ _ ltac:(assumption) L _ eq_refl)
      | L : column_like al ?x (float_repr _) _ |- False => exact (CF x _ _ ltac:(assumption) L _ eq_refl)
      | L : column_like al ?x ?s _ |- False => exact (CN x _ _ ltac:(assumption) L s ltac:(assumption) eq_refl)
      end).
  - match goal with E : dec_of_Z _ = dec_of_Z _ |- _ => apply dec_of_Z_inj in E; subst end. constructor.
  - eapply ak_column; eassumption.
Qed.
(* what a tree without arguments, a call and the other trees come from *)
Lemma denotes_word al o w gs a : all_clear al o -> denotes al o (EWord w gs a) ->
  (gs = [] /\ plain al o w a)
  \/ (exists d iso, o = ODate d /\ w = $"toDateTime" /\ gs = [[EText iso]] /\ a = None /\ iso_date_text d iso)
  \/ (exists t u i iso, o = ODateTime t /\ w = $"toDateTime" /\ gs = [[EText iso]] /\ a = None
        /\ instant t i /\ real_datetime u /\ dt_tz u = None /\ instant u i /\ iso_text u iso)
  \/ (exists l es, o = OList l /\ w = $"array" /\ gs = [es] /\ a = None /\ Forall2 (denotes al) l es)
  \/ (exists l es, o = OTuple l /\ w = $"tuple" /\ gs = [es] /\ a = None /\ Forall2 (denotes al) l es)
  \/ (exists f ik il pk pl is ps, o = OFunc f w ik il pk pl a /\ gs = given ik is ++ given pk ps
        /\ Forall2 (denotes al) il is /\ Forall2 (denotes al) pl ps).
Proof.
  intros C D. inversion D; subst; try (left; split; [reflexivity|constructor]; fail).
  - right; left. eauto 8.
  - right; right; left. eauto 14.
  - do 3 right; left. eauto 8.
  - do 4 right; left. eauto 8.
  - left. split; [reflexivity|]. apply pl_column. constructor. assumption.
  - left. split; [reflexivity|]. apply pl_column. constructor. assumption.
  - do 5 right. eauto 12.
Qed.
Lemma func_groups al f n ik il pk pl a is ps : all_clear al (OFunc f n ik il pk pl a) -> given ik is ++ given pk ps <> [] /\ ~ In n [$"array"; $"tuple"; $"toDateTime"].
Proof.
  intros C. destruct (C _ (oc_self _)) as [N M]. split; [|exact M]. destruct pk; [congruence|destruct ik; discriminate..].
Qed.
Lemma denotes_alike al e : settled al e.
Proof.
  induction e as [w gs a IH| | |ids b IH] using expr_ind'; intros o o' W W' C C' D D'.
  - apply denotes_word in D; [|exact C]. apply denotes_word in D'; [|exact C'].
    assert (FG : forall x f ik il pk pl is ps, all_clear al x -> x = OFunc f w ik il pk pl a -> gs = given ik is ++ given pk ps ->
      gs <> [] /\ ~ In w [$"array"; $"tuple"; $"toDateTime"]).
    { intros x f ik il pk pl is ps A -> ->. eapply func_groups, A. }
    destruct D as [[G P]|[(d & iso & E & Ew & G & Ea & T)|[(t & u & i & iso & E & Ew & G & Ea & T1 & T2 & T3 & T4 & T5)
        |[(l & es & E & Ew & G & Ea & F)|[(l & es & E & Ew & G & Ea & F)|(f & ik & il & pk & pl & is & ps & E & G & F1 & F2)]]]]];
    destruct D' as [[G' P']|[(d' & iso' & E' & Ew' & G' & Ea' & T')|[(t' & u' & i' & iso' & E' & Ew' & G' & Ea' & T1' & T2' & T3' & T4' & T5')
        |[(l' & es' & E' & Ew' & G' & Ea' & F')|[(l' & es' & E' & Ew' & G' & Ea' & F')|(f' & ik' & il' & pk' & pl' & is' & ps' & E' & G' & F1' & F2')]]]]];
    try (rewrite G in G'; discriminate G'); try (rewrite Ew in Ew'; discriminate Ew');
    try (exfalso; destruct (FG _ _ _ _ _ _ _ _ C E G) as [X Y]; first [exact (X G')|apply Y; rewrite Ew'; cbn; tauto]; fail);
    try (exfalso; destruct (FG _ _ _ _ _ _ _ _ C' E' G') as [X Y]; first [exact (X G)|apply Y; rewrite Ew; cbn; tauto]; fail).
    + eapply plain_alike; eassumption.
    + rewrite G in G'. injection G' as <-. subst o o'. rewrite (iso_date_inj d d' iso T T'). constructor.
    + rewrite G in G'. injection G' as <-. exfalso. eapply iso_date_time; eassumption.
    + rewrite G in G'. injection G' as <-. exfalso. eapply iso_date_time; eassumption.
    + rewrite G in G'. injection G' as <-. subst o o'. pose proof (iso_inj u u' iso T5 T5' T3 T3') as <-.
      destruct (c15_instant u T2) as (j & _ & J). rewrite (J _ T4) in T1. rewrite (J _ T4') in T1'. econstructor; eassumption.
    + rewrite G in G'. injection G' as <-. subst o o'. rewrite G in IH. inversion IH; subst. inversion W; inversion W'; subst. constructor.
      eapply alike_all; eauto; intros x Hx; [apply (clear_sub al _ _ C)|apply (clear_sub al _ _ C')]; intros; econstructor; eassumption.
    + rewrite G in G'. injection G' as <-. subst o o'. rewrite G in IH. inversion IH; subst. inversion W; inversion W'; subst. constructor.
      eapply alike_all; eauto; intros x Hx; [apply (clear_sub al _ _ C)|apply (clear_sub al _ _ C')]; intros; econstructor; eassumption.
    + subst o o'. rewrite G in G'. 
      assert (K : (ik = KNone <-> ik' = KNone) /\ is = is' /\ ps = ps').
      { apply (given_inj ik ik' pk pk'); [exact (proj1 (C _ (oc_self _)))|exact (proj1 (C' _ (oc_self _)))| | |exact G'].
        - intros ->. inversion W; subst. assert (il = []) as -> by auto. inversion F1. reflexivity.
        - intros ->. inversion W'; subst. assert (il' = []) as -> by auto. inversion F1'. reflexivity. }
      destruct K as (K & <- & <-). rewrite G in IH. apply Forall_app in IH as [IH1 IH2].
      inversion W; inversion W'; subst. constructor; [exact K| |].
      * destruct ik as [| | | |].
        { assert (il = []) as -> by auto. assert (ik' = KNone) as -> by (apply K; reflexivity). assert (il' = []) as -> by auto. constructor. }
        all: inversion IH1; subst; eapply alike_all; eauto; intros x Hx;
          [apply (clear_sub al _ _ C)|apply (clear_sub al _ _ C')]; intros; eapply oc_init; eassumption.
      * assert (IP : Forall (settled al) ps). { pose proof (proj1 (C _ (oc_self _))). destruct pk; [congruence|inversion IH2; assumption..]. }
        eapply alike_all; eauto; intros x Hx; [apply (clear_sub al _ _ C)|apply (clear_sub al _ _ C')]; intros; eapply oc_param; eassumption.
  - apply (ak_text al o o' s); [inversion D|inversion D']; subst; constructor; assumption.
  - inversion D; subst; inversion D'; subst. constructor.
  - inversion D; subst; inversion D'; subst. inversion W; inversion W'; subst. constructor.
    apply IH; auto; [apply (clear_sub al _ _ C)|apply (clear_sub al _ _ C')]; intros; constructor; assumption.
Qed.

(** ** conditions and clauses *)
Lemma alike_list al es l l' : Forall wf l -> Forall wf l' -> Forall (all_clear al) l -> Forall (all_clear al) l' ->
  Forall2 (denotes al) l es -> Forall2 (denotes al) l' es -> Forall2 (alike al) l l'.
Proof.
  rewrite !Forall_forall. intros W W' C C'. apply (alike_all al es); auto using denotes_alike; apply Forall_forall; auto using denotes_alike.
Qed.
Lemma denotes_cond_alike al t : forall o o', wf o -> wf o' -> all_clear al o -> all_clear al o' ->
  denotes_cond al o t -> denotes_cond al o' t -> alike_cond al o o'.
Proof.
  induction t as [e op r|op ts IH] using cond_ind'; intros o o' W W' C C' D D'; inversion D; subst; inversion D'; subst;
    inversion W; inversion W'; subst.
  - apply akc_unary; [|assumption]. eapply denotes_alike; eauto; [apply (clear_sub al _ _ C)|apply (clear_sub al _ _ C')]; intros; apply oc_lhs; assumption.
  - apply akc_binary; (eapply denotes_alike; eauto; [apply (clear_sub al _ _ C)|apply (clear_sub al _ _ C')]; intros; (apply oc_lhs + apply oc_rhs); assumption).
  - constructor.
    match goal with A : Forall2 _ l ts, B : Forall2 _ l0 ts |- _ => rename A into A1; rename B into A2 end.
    assert (O1 : forall x, In x l -> all_clear al x). { intros x Hx. apply (clear_sub al _ _ C). intros; eapply oc_cond; eassumption. }
    assert (O2 : forall x, In x l0 -> all_clear al x). { intros x Hx. apply (clear_sub al _ _ C'). intros; eapply oc_cond; eassumption. }
    assert (V1 : Forall wf l) by assumption. assert (V2 : Forall wf l0) by assumption.
    clear -IH A1 A2 O1 O2 V1 V2. revert l l0 A1 A2 O1 O2 V1 V2. induction IH as [|t ts H _ IH]; intros l l' A1 A2 O1 O2 V1 V2; inversion A1; inversion A2; subst; constructor; inversion V1; inversion V2; subst.
    + apply H; auto; [apply O1|apply O2]; left; reflexivity.
    + apply IH; auto; intros; [apply O1|apply O2]; right; assumption.
Qed.
Lemma number_word_inj n n' : number_word n = number_word n' -> int_value n = int_value n'.
Proof. intros E. apply dec_of_Z_inj in E. exact E. Qed.
Lemma count_word_inj n n' : count_word n = count_word n' -> n = n'.
Proof.
  intros E. destruct n as [z|b], n' as [z'|b']; cbn [count_word] in E.
  - apply dec_of_Z_inj in E. congruence.
  - exfalso. destruct (LiteralFacts.dec_of_Z_cases z) as [(m & X & _)|(p & X & _)]; rewrite X in E.
    + pose proof (dec_of_N_digits m) as D. rewrite E in D. destruct b'; inversion D as [|? ? Y]; discriminate Y.
    + destruct b'; discriminate E.
  - exfalso. destruct (LiteralFacts.dec_of_Z_cases z') as [(m & X & _)|(p & X & _)]; rewrite X in E.
    + pose proof (dec_of_N_digits m) as D. rewrite <- E in D. destruct b; inversion D as [|? ? Y]; discriminate Y.
    + destruct b; discriminate E.
  - destruct b, b'; try discriminate E; reflexivity.
Qed.
Lemma denotes_part_alike al k p : forall o o', wf o -> wf o' ->
  (forall x, clause_item k o x -> all_clear al x) -> (forall x, clause_item k o' x -> all_clear al x) ->
  denotes_part al k o p -> denotes_part al k o' p -> alike_clause al k o o'.
Proof.
  intros o o' W W' C C' D D'.
  assert (LI : forall sep u m, snql_separator k = Some sep -> list_or_tuple u m -> (forall x, clause_item k u x -> all_clear al x) -> Forall (all_clear al) m).
  { intros sep u m S L A. apply Forall_forall. intros x Hx. apply A. unfold clause_item. rewrite S. eauto. }
  destruct D as [k|k o L|k o x l es K L F|k o x l ts K L F|o x l xs L F|kk cols n ws F|n|n|n|b].
  - inversion D'; subst; apply akl_absent; (left; reflexivity) || (right; assumption).
  - inversion D'; subst; apply akl_absent; (left; reflexivity) || (right; assumption).
  - inversion D' as [ | |k' u y m es' K' L' F'| | | | | | |]; subst.
    assert (S : exists sep, snql_separator k = Some sep) by (cbn in K; destruct K as [<-|[<-|[<-|[]]]]; eexists; reflexivity).
    destruct S as [sep S]. eapply akl_exprs; [exact K|exact L|exact L'|].
    apply (alike_list al es); eauto using lt_wf.
  - inversion D' as [ | | |k' u y m es' K' L' F'| | | | | |]; subst.
    assert (S : exists sep, snql_separator k = Some sep) by (cbn in K; destruct K as [<-|[<-|[]]]; eexists; reflexivity).
    destruct S as [sep S]. eapply akl_conds; [exact K|exact L|exact L'|].
    pose proof (LI _ _ _ S L C) as C1. pose proof (LI _ _ _ S L' C') as C2. pose proof (lt_wf _ _ L W) as W1. pose proof (lt_wf _ _ L' W') as W2.
    clear -C1 C2 W1 W2 F F'. revert F' C1 C2 W1 W2. generalize (y :: m). induction F as [|c t l1 ts H _ IH]; intros l2 F' C1 C2 W1 W2; inversion F'; subst; constructor;
      inversion C1; inversion C2; inversion W1; inversion W2; subst; [eapply denotes_cond_alike; eassumption|auto].
  - inversion D' as [ | | | |u y m es' L' F'| | | | |]; subst. eapply akl_orders; [exact L|exact L'|].
    pose proof (LI _ _ _ eq_refl L C) as C1. pose proof (LI _ _ _ eq_refl L' C') as C2. pose proof (lt_wf _ _ L W) as W1. pose proof (lt_wf _ _ L' W') as W2.
    clear -C1 C2 W1 W2 F F'. revert F' C1 C2 W1 W2. generalize (y :: m). induction F as [|c t l1 ts H _ IH]; intros l2 F' C1 C2 W1 W2; inversion F' as [|c2 t2 l3 ts2 H2 F2]; subst; constructor;
      inversion C1; inversion C2; inversion W1 as [|? ? V1]; inversion W2 as [|? ? V2]; subst; [|auto].
    destruct H as [e1 t1 d DE]. inversion H2; subst. inversion V1; inversion V2; subst. constructor.
    eapply denotes_alike; eauto; [eapply clear_sub; [match goal with A : all_clear al (OOrderBy e1 d) |- _ => exact A end|]
      |eapply clear_sub; [match goal with A : all_clear al (OOrderBy o d) |- _ => exact A end|]]; intros; constructor; assumption.
  - inversion D' as [ | | | | |kk' cols' n' ws' F' Y Z Q| | | |]; subst. apply count_word_inj in Q. subst n'. apply akl_limitby.
    clear -F F'. revert cols' F'. induction F as [|c w l ws H _ IH]; intros cols' F'; inversion F'; subst; constructor; eauto.
  - inversion D'; subst; [match goal with L : list_or_tuple _ [] |- _ => inversion L end + idtac..]. apply akl_limit, number_word_inj. congruence.
  - inversion D'; subst; [match goal with L : list_or_tuple _ [] |- _ => inversion L end + idtac..]. apply akl_offset, number_word_inj. congruence.
  - inversion D'; subst; [match goal with L : list_or_tuple _ [] |- _ => inversion L end + idtac..]. apply akl_granularity, number_word_inj. congruence.
  - inversion D' as [ | | | | | | | | |b']; subst. destruct b, b'; try congruence; try discriminate; apply akl_totals.
Qed.
Lemma denotes_ent_alike e e' t : denotes_ent e t -> denotes_ent e' t -> alike_entity e e' /\ e_alias e = e_alias e'.
Proof. intros D D'. inversion D; subst. inversion D'; subst. split; [split; [reflexivity|eexists; cbn; eauto]|reflexivity]. Qed.
Lemma denotes_query_alike q t : forall q', wf_query q -> wf_query q' -> clear_query q -> clear_query q' ->
  denotes_query q t -> denotes_query q' t -> alike_query q q'.
Proof.
  intros q' W W' C C' D. revert q' W W' C C'. induction D as [e n a s cl parts DE DP|st s cl parts DS DP|kk rels ts cl parts DR DP|i t cl parts DI IH DP];
    intros q' W W' C C' D'; inversion D'; subst; destruct W as [W1 W2], W' as [W1' W2'], C as [C1 C2], C' as [C1' C2'].
  - constructor.
    + inversion DE; subst. match goal with H : denotes_ent _ (Ent _ n s) |- _ => inversion H; subst end. split; [reflexivity|]. exists s. auto.
    + intros k. eapply denotes_part_alike; eauto; intros x Hx y; [eapply C1|eapply C1']; exact Hx.
  - constructor; [congruence|eexists; eauto|].
    intros k. eapply denotes_part_alike; eauto; intros x Hx y; [eapply C1|eapply C1']; exact Hx.
  - constructor.
    + match goal with H : Forall2 denotes_rel _ ts |- _ => clear -DR H end.
      match goal with H : Forall2 denotes_rel ?l ts |- Forall2 _ _ ?l => revert l H end.
      induction DR as [|r t l ts X _ IH]; intros l' H; inversion H as [|r2 ? ? ? Y]; subst; constructor; [|auto].
      destruct X as [a n b ta tb A B]. inversion Y as [a' n' b' ta' tb' A' B']; subst.
      destruct (denotes_ent_alike _ _ _ A A'), (denotes_ent_alike _ _ _ B B'). split; [reflexivity|]. auto.
    + intros k. eapply denotes_part_alike; eauto; intros x Hx y; [eapply C1|eapply C1']; exact Hx.
  - constructor.
    + apply IH; auto.
    + intros k. eapply denotes_part_alike; eauto; intros x Hx y; [eapply C1|eapply C1']; exact Hx.
Qed.

(** ** serialize() *)
Lemma merged_clear al c c' : mergeable c -> merged c c' -> all_clear al c -> all_clear al c'.
Proof.
  intros M D N. inversion D as [cls k lhs rhs rest]; subst. inversion M as [? ? ? ? ? F]; subst.
  assert (R : forall r, In r (rhs :: map rhs_of rest) -> exists y, In y (OCond lhs EQ rhs :: rest) /\ forall x, occurs x r -> occurs x y).
  { intros r [<-|I].
    - exists (OCond lhs EQ rhs). split; [left; reflexivity|]. intros; apply oc_rhs; assumption.
    - apply in_map_iff in I as (y & <- & I). rewrite Forall_forall in F. destruct (F y I) as (l & r & -> & _).
      exists (OCond l EQ r). split; [right; exact I|]. intros; apply oc_rhs; assumption. }
  intros x O. inversion O as [| | | | | |? ? ? ? O1|? ? ? ? O1| | | | | | | |]; subst; [exact I| |].
  - apply N. econstructor; [left; reflexivity|]. apply oc_lhs, O1.
  - inversion O1 as [|? y ? I O2| | | | | | | | | | | | | |]; subst; [exact I|].
    destruct (R y I) as (z & Iz & Oz). apply N. econstructor; [exact Iz|]. apply Oz, O2.
Qed.
Lemma clear_where q q' l l' : clear_query q -> same_but_where q q' -> filters q l -> filters q' l' -> Forall2 optimized_at l l' -> clear_query q'.
Proof.
  intros C [SM SC] FL FL' O.
  assert (J : joins q' = joins q /\ match q' with QSub i _ => clear_query i | _ => True end).
  { destruct q as [b c|i c], q' as [b' c'|i' c']; cbn in SM; try discriminate SM; injection SM as SM.
    - destruct b, b'; try discriminate SM; auto.
    - subst i'. split; [reflexivity|apply C]. }
  destruct J as [J CI].
  assert (CC : forall k x y, clause_item k (get k (q_clauses q)) x -> occurs y x -> clear (joins q) y) by (destruct q; apply C).
  assert (NL : forall x, In x l -> all_clear (joins q) x).
  { intros x Hx y. apply (CC CWhere). destruct FL as [[_ ->]|L]; [destruct Hx|]. exists l. auto. }
  assert (NL' : forall x, In x l' -> all_clear (joins q) x).
  { clear -O NL. induction O as [|c c' l l' H _ IH]; intros x Hx; [destruct Hx|]. destruct Hx as [<-|Hx].
    - assert (NC : all_clear (joins q) c) by (apply NL; left; reflexivity). destruct H as [[M D]|[_ ->]]; [eapply merged_clear; eassumption|exact NC].
    - apply IH; auto. intros; apply NL; right; assumption. }
  assert (K : forall k x y, clause_item k (get k (q_clauses q')) x -> occurs y x -> clear (joins q') y).
  { intros k x y I. rewrite J. destruct (clause_dec CWhere k) as [<-|NE].
    - destruct I as (m & L & I). apply NL'. destruct FL' as [[E _]|L']; [cbn [get] in L; rewrite E in L; inversion L|].
      cbn [get] in L. destruct L; inversion L'; subst; exact I.
    - rewrite SC in I by auto. exact (CC k x y I). }
  destruct q'; (split; [exact K|exact CI]).
Qed.
End A.
