(** Proofs about programs without changes: the heap of Sharing.v holds the values of SpecValues.v *)
From Verif Require Import PyBase PyFacts Objects Exprs Query Optimizer Metrics MetricsQuery Request Sharing SpecSharing SharingFacts SpecValues.
From Verif Require History.
From Coq Require Import Lia.

Section F.
Context {RT : PyRT} {ST : PyStr}.

(** an object that refers only to older ones *)
Definition below (a : nat) (s : slot) : Prop :=
  match s with Ref b => b < a | Own _ => False | _ => True end.
(** the thing that an object is *)
Definition cell_thing (w : world) (k : cell) (x : thing) : Prop :=
  match k, x with
  | KList l, XList y => y = collect (map (val w) l)
  | KDict ks vs, XVal y => y = match collect (map (obj_val w) vs) with Some os => Some (VObj (ODict ks os)) | None => None end
  | KTimeseries m a p f g, XVal y =>
      y = match val w m, val w a, as_opt_l (val w p), as_opt_l (val w f), as_opt_l (val w g) with
          | Some (VMetric m), Some (VObj (OStr a)), Some p, Some f, Some g => Some (VTS (mkTS m a p f g))
          | _, _, _, _, _ => None
          end
  | KFormula n p a f g, XVal y =>
      y = match obj_val w n, params_val w p, obj_val w a, obj_val w f, obj_val w g with
          | Some x, Some (k, ps), Some a, Some f, Some g => Some (VFormula x (Some k) ps a f g)
          | _, _, _, _, _ => None
          end
  | KScope o p u, XVal y =>
      y = match as_il (val w o), as_il (val w p), as_os (val w u) with
          | Some o, Some p, Some u => Some (VScope (mkScope o p u))
          | _, _, _ => None
          end
  | KMetrics f, XMetrics g => forall x, g x = val w (f x)
  | KDelete st c, XDelete x y => x = obj_val w st /\ y = obj_val w c
  | KRequest r fl, XRequest y =>
      y = match obj_val w (r RDataset), obj_val w (r RApp), query_val w (r RQueryF), obj_val w (r RParent), obj_val w (r RTenants) with
          | Some d, Some a, Some q, Some p, Some t => Some (mkRequest d a q fl p t)
          | _, _, _, _, _ => None
          end
  | _, _ => False
  end.
Definition holds (h : heap) (w : world) : Prop :=
  List.length w = List.length h
  /\ forall a k, nth_error h a = Some k ->
     (exists x, nth_error w a = Some x /\ cell_thing w k x) /\ forall s, In s (parts k) -> below a s.

Lemma nil_holds : holds [] [].
Proof. split; [reflexivity|]. intros [|a] k; discriminate. Qed.
Lemma as_o_bind x : as_o x = opt_bind x as_obj.
Proof. destruct x as [[]|]; reflexivity. Qed.
Lemma collect_obj l (w : world) : collect (map (obj_val w) l)
  = match collect (map (val w) l) with Some vs => collect (map as_obj vs) | None => None end.
Proof.
  unfold obj_val. induction l as [|s l IH]; cbn; [reflexivity|]. destruct (val w s) as [v|]; cbn.
  - rewrite IH. destruct (collect (map (val w) l)) as [vs|]; cbn; [reflexivity|]. destruct (as_obj v); reflexivity.
  - reflexivity.
Qed.
Lemma in_parts_mfield f x : In (f x) (parts (KMetrics f)).
Proof. cbn. destruct x; auto 12. Qed.
Lemma below_le a b s : a <= b -> below a s -> below b s.
Proof. destruct s; cbn; intros; auto; lia. Qed.

(** ** Reading an object gives its value *)
Lemma read_val h w : holds h w -> forall n a s, a <= n -> below a s -> read n h s = val w s.
Proof.
  intros [L H]. induction n as [|n IH]; intros a s La B.
  - destruct s as [v|q|b|k]; cbn in *; (reflexivity || (exfalso; lia)).
  - destruct s as [v|q|b|k]; cbn [read val]; [reflexivity|reflexivity| |destruct B]. cbn [below] in B. cbn [cell_of].
    destruct (nth_error h b) as [k|] eqn:E.
    2:{ destruct (nth_error w b) eqn:E2; [|reflexivity]. assert (b < List.length w) by (apply nth_error_Some; congruence). apply nth_error_None in E. lia. }
    destruct (H b k E) as ((x & Ex & Cx) & Bk). rewrite Ex.
    assert (forall s, In s (parts k) -> read n h s = val w s) as R.
    { intros s I. apply (IH b); [lia|]. apply Bk, I. }
    assert (forall s, In s (parts k) -> as_o (read n h s) = obj_val w s) as Ro.
    { intros s I. unfold obj_val. rewrite (R s I). apply as_o_bind. }
    destruct k as [l|ks vs|m a0 p f g|m p a0 f g|o p u|f|st c|r fl]; destruct x as [y|y|y|y z|y]; try (exfalso; exact Cx); cbn [parts] in R, Ro; cbn [cell_thing] in Cx; try subst y.
    + assert (map (fun x => as_o (read n h x)) l = map (obj_val w) l) as -> by (apply map_ext_in; exact Ro).
      rewrite collect_obj. unfold list_value, opt_bind. destruct (collect (map (val w) l)); [|reflexivity]. reflexivity.
    + assert (map (fun x => as_o (read n h x)) vs = map (obj_val w) vs) as -> by (apply map_ext_in; exact Ro). reflexivity.
    + rewrite !R by (cbn; auto 6). reflexivity.
    + rewrite !Ro by (cbn; auto 6).
      assert (params_of (read n h) h p = params_val w p) as ->; [|reflexivity].
      specialize (Bk p). cbn [parts In] in Bk. assert (below b p) as Bp by (apply Bk; auto). clear Bk.
      unfold params_of, params_val. destruct p as [v|q|c|k]; cbn [cell_of]; [|reflexivity| |destruct Bp].
      * destruct v as [[]| | | | |]; reflexivity.
      * destruct (nth_error h c) as [k|] eqn:Ec.
        2:{ destruct (nth_error w c) eqn:E2; [|reflexivity]. assert (c < List.length w) by (apply nth_error_Some; congruence). apply nth_error_None in Ec. lia. }
        destruct (H c k Ec) as ((x & Ex' & Cx) & Bk). rewrite Ex'.
        destruct k as [l|? ?|? ? ? ? ?|? ? ? ? ?|? ? ?|?|? ?|? ?]; destruct x as [y|y|y|y z|y]; try (exfalso; exact Cx); cbn [cell_thing] in Cx; try subst y; try reflexivity.
        assert (map (read n h) l = map (val w) l) as ->; [|destruct (collect (map (val w) l)); reflexivity].
        apply map_ext_in. intros s I. apply (IH c); [cbn in Bp; lia|]. apply Bk, I.
    + rewrite !R by (cbn; auto). reflexivity.
    + reflexivity.
    + reflexivity.
    + reflexivity.
Qed.
Lemma known_arg h w s : holds h w -> known w s = arg h s.
Proof. intros [L _]. destruct s; cbn; rewrite ?L; reflexivity. Qed.
Lemma arg_below h s : arg h s = true -> below (List.length h) s.
Proof. destruct s; cbn; intros; auto; [apply Nat.ltb_lt; assumption|discriminate]. Qed.
Lemma read_all N h w s : holds h w -> List.length h <= N -> arg h s = true -> get N h s = val w s.
Proof. intros H L A. unfold get. eapply read_val; [exact H|exact L|apply arg_below, A]. Qed.
Lemma read_all_o N h w s : holds h w -> List.length h <= N -> arg h s = true -> get_o N h s = obj_val w s.
Proof. intros H L A. unfold get_o, obj_val. rewrite (read_all N h w s H L A). apply as_o_bind. Qed.

(** ** New objects do not change the value of the others *)
Lemma nth_app {A} (l : list A) x a : a < List.length l -> nth_error (l ++ [x]) a = nth_error l a.
Proof. intros L. apply nth_error_app1, L. Qed.
Lemma val_app w x s : below (List.length w) s -> val (w ++ [x]) s = val w s.
Proof. destruct s; cbn; intros; try reflexivity. rewrite nth_app by assumption. reflexivity. Qed.
Lemma obj_val_app w x s : below (List.length w) s -> obj_val (w ++ [x]) s = obj_val w s.
Proof. intros B. unfold obj_val. rewrite val_app by exact B. reflexivity. Qed.
Lemma params_val_app w x s : below (List.length w) s -> params_val (w ++ [x]) s = params_val w s.
Proof. destruct s; cbn; intros; try reflexivity. rewrite nth_app by assumption. reflexivity. Qed.
Lemma query_val_app w x s : below (List.length w) s -> query_val (w ++ [x]) s = query_val w s.
Proof. destruct s; cbn; intros; try reflexivity. rewrite nth_app by assumption. reflexivity. Qed.
Lemma cell_thing_app w x k y : (forall s, In s (parts k) -> below (List.length w) s) -> cell_thing w k y -> cell_thing (w ++ [x]) k y.
Proof.
  intros B. destruct k as [l|ks vs|m a0 p f g|m a0 p f g|o p u|f|st c|r fl]; destruct y as [y|y|y|y z|y]; try (intros []; fail); cbn [parts] in B; cbn [cell_thing].
  - intros ->. f_equal. apply map_ext_in. intros s I. symmetry. apply val_app, B, I.
  - intros ->. assert (map (obj_val (w ++ [x])) vs = map (obj_val w) vs) as ->; [|reflexivity].
    apply map_ext_in. intros s I. apply obj_val_app, B, I.
  - rewrite !val_app by (apply B; cbn; auto 6). auto.
  - rewrite !obj_val_app, params_val_app by (apply B; cbn; auto 6). auto.
  - rewrite !val_app by (apply B; cbn; auto 6). auto.
  - intros E z. rewrite E. symmetry. apply val_app, B. apply (in_parts_mfield f).
  - rewrite !obj_val_app by (apply B; cbn; auto 6). auto.
  - rewrite !obj_val_app, query_val_app by (apply B; cbn; auto 6). auto.
Qed.
Lemma new_holds h w k x : holds h w -> (forall s, In s (parts k) -> arg h s = true) -> cell_thing w k x -> holds (h ++ [k]) (w ++ [x]).
Proof.
  intros [L H] B C. split; [rewrite !app_length, L; reflexivity|]. intros a k0 E.
  destruct (Nat.lt_ge_cases a (List.length h)) as [La|La].
  - rewrite nth_app in E by exact La. destruct (H a k0 E) as ((y & Ey & Cy) & Bk). split; [|exact Bk]. exists y. split.
    + rewrite nth_app by lia. exact Ey.
    + apply cell_thing_app; [|exact Cy]. intros s I. eapply below_le; [|apply Bk, I]. lia.
  - assert (a = List.length h) as ->.
    { assert (a < List.length (h ++ [k])) as La2 by (apply nth_error_Some; congruence). rewrite app_length in La2. cbn in La2. lia. }
    rewrite nth_error_app2, Nat.sub_diag in E by lia. cbn in E. injection E as <-. split.
    + exists x. split; [rewrite <- L, nth_error_app2, Nat.sub_diag by lia; reflexivity|].
      apply cell_thing_app; [|exact C]. intros s I. rewrite L. apply arg_below, B, I.
    + intros s I. apply arg_below, B, I.
Qed.

(** ** One call *)
Definition in_sync (x : heap * answer) (y : world * answer) : Prop := holds (fst x) (fst y) /\ snd x = snd y.
Lemma sync_bad h w v : holds h w -> in_sync (h, v) (w, v).
Proof. intros H. split; [exact H|reflexivity]. Qed.
Lemma sync_new h w k x : holds h w -> (forall s, In s (parts k) -> arg h s = true) -> cell_thing w k x -> in_sync (new h k) (make w x).
Proof. intros H A C. split; [apply new_holds; assumption|]. cbn. f_equal. symmetry. apply H. Qed.
Lemma sync_checked {A} h w (r : result A) k F : holds h w -> (forall s, In s (parts k) -> arg h s = true) ->
  (forall v, r = Ok v -> cell_thing w k (F v)) -> in_sync (checked h r k) (make_if w r F).
Proof. intros H B C. destruct r as [v|e]; cbn [checked make_if]; [apply sync_new; auto|apply sync_bad, H]. Qed.

Lemma ts_slots w m a p f g t : cell_thing w (KTimeseries m a p f g) (XVal (Some (VTS t))) <->
  val w m = Some (VMetric (ts_metric t)) /\ val w a = Some (VObj (OStr (ts_agg t)))
  /\ as_opt_l (val w p) = Some (ts_params t) /\ as_opt_l (val w f) = Some (ts_filters t) /\ as_opt_l (val w g) = Some (ts_groupby t).
Proof.
  cbn [cell_thing]. split.
  - intros E. destruct (val w m) as [[]|]; try discriminate E. destruct (val w a) as [[[]| | | | |]|]; try discriminate E.
    destruct (as_opt_l (val w p)); [|discriminate E]. destruct (as_opt_l (val w f)); [|discriminate E]. destruct (as_opt_l (val w g)); [|discriminate E].
    injection E as ->. repeat split; reflexivity.
  - intros (-> & -> & -> & -> & ->). destruct t; reflexivity.
Qed.
Lemma scope_slots w o p u t : cell_thing w (KScope o p u) (XVal (Some (VScope t))) <->
  as_il (val w o) = Some (ms_orgs t) /\ as_il (val w p) = Some (ms_projects t) /\ as_os (val w u) = Some (ms_usecase t).
Proof.
  cbn [cell_thing]. split.
  - intros E. destruct (as_il (val w o)); [|discriminate E]. destruct (as_il (val w p)); [|discriminate E]. destruct (as_os (val w u)); [|discriminate E].
    injection E as ->. repeat split; reflexivity.
  - intros (-> & -> & ->). destruct t; reflexivity.
Qed.
Lemma obj_val_eq w s o : obj_val w s = Some o -> val w s = Some (VObj o).
Proof. unfold obj_val. destruct (val w s) as [[]|]; cbn; intros E; try discriminate; injection E as ->; reflexivity. Qed.
Lemma opt_back f o e x : as_opt_list f o e = Ok x -> as_opt_l (Some (VObj o)) = Some x.
Proof.
  destruct o; cbn; try discriminate; [intros E; injection E as <-; reflexivity|].
  destruct (forallb f l); cbn; [|discriminate]. intros E. injection E as <-. reflexivity.
Qed.
Lemma ts_back m a p f g t : mk_timeseries m a p f g = Ok t ->
  m = VMetric (ts_metric t) /\ a = OStr (ts_agg t) /\ as_opt_l (Some (VObj p)) = Some (ts_params t)
  /\ as_opt_l (Some (VObj f)) = Some (ts_filters t) /\ as_opt_l (Some (VObj g)) = Some (ts_groupby t).
Proof.
  unfold mk_timeseries. destruct m; try discriminate. destruct (metric_validate m); cbn; [|discriminate]. destruct a; try discriminate.
  destruct (as_opt_list is_literal p _) eqn:E1; cbn; [|discriminate]. destruct (as_opt_list is_condition_obj f _) eqn:E2; cbn; [|discriminate].
  destruct (as_opt_list is_groupable g _) eqn:E3; cbn; [|discriminate]. intros E. injection E as <-. cbn [ts_metric ts_agg ts_params ts_filters ts_groupby].
  repeat split; eapply opt_back; eassumption.
Qed.
Lemma of_opt_back x y : as_opt_l (Some (VObj (obj_of_opt OList x))) = Some y -> y = x.
Proof. destruct x; cbn; intros E; injection E as <-; reflexivity. Qed.
Lemma ints_back o l : as_ints o = Ok l -> as_il (Some (VObj o)) = Some l.
Proof. destruct o; cbn; try discriminate. destruct (all_ints _); [|discriminate]. intros E. injection E as <-. reflexivity. Qed.
Lemma ints_same l l' : as_il (Some (VObj (ints_obj l))) = Some l' -> l' = l.
Proof.
  cbn. revert l'. induction l as [|i l IH]; cbn; intros l' E; [injection E as <-; reflexivity|].
  destruct (all_ints (map obj_of_pyint l)) as [r|]; destruct i; cbn in E; try discriminate E; injection E as <-; rewrite (IH r eq_refl); reflexivity.
Qed.
Lemma scope_back o p u t : mk_scope o p u = Ok t -> as_il (Some (VObj o)) = Some (ms_orgs t)
  /\ as_il (Some (VObj p)) = Some (ms_projects t) /\ as_os (Some (VObj u)) = Some (ms_usecase t).
Proof.
  unfold mk_scope. destruct (as_ints o) eqn:E1; cbn; [|discriminate]. destruct (as_ints p) eqn:E2; cbn; [|discriminate].
  destruct (as_opt_str u _) eqn:E3; cbn; [|discriminate]. intros E. injection E as <-. cbn.
  split; [apply ints_back, E1|]. split; [apply ints_back, E2|]. destruct u; cbn in E3; try discriminate; injection E3 as <-; reflexivity.
Qed.

Lemma nth_both h w a : holds h w -> match nth_error h a with
  | Some k => exists x, nth_error w a = Some x /\ cell_thing w k x
  | None => nth_error w a = None
  end.
Proof.
  intros [L H]. destruct (nth_error h a) as [k|] eqn:E; [apply (H a k E)|]. apply nth_error_None in E. apply nth_error_None. lia.
Qed.
Lemma not_arg h w s : holds h w -> arg h s = false -> val w s = None /\ params_val w s = None.
Proof.
  intros H A. destruct s as [v|q|a|k]; cbn in *; try discriminate; [|split; reflexivity]. apply Nat.ltb_ge in A.
  assert (nth_error w a = None) as ->; [|split; reflexivity]. apply nth_error_None. destruct H as [L _]. lia.
Qed.
Lemma nth_get N h w a k : holds h w -> List.length h <= N -> nth_error h a = Some k -> get N h (Ref a) = val w (Ref a).
Proof.
  intros H L E. eapply read_all; [exact H|exact L|]. cbn. apply Nat.ltb_lt, nth_error_Some. congruence.
Qed.
Lemma params_get N h w s : holds h w -> List.length h <= N -> arg h s = true -> params_of (get N h) h s = params_val w s.
Proof.
  intros H L A. unfold params_of, params_val. destruct s as [v|q|a|k]; cbn [cell_of]; [|reflexivity| |discriminate].
  - destruct v as [[]| | | | |]; reflexivity.
  - pose proof (nth_both h w a H) as K. destruct (nth_error h a) as [k|] eqn:E; [|rewrite K; reflexivity]. destruct K as (x & -> & C).
    destruct k as [l|? ?|? ? ? ? ?|? ? ? ? ?|? ? ?|?|? ?|? ?]; destruct x as [y|y|y|y z|y]; try (exfalso; exact C); try reflexivity.
    cbn in C. subst y. assert (map (get N h) l = map (val w) l) as ->; [|destruct (collect (map (val w) l)); reflexivity].
    apply map_ext_in. intros s I. destruct H as [L' H]. destruct (H a _ E) as (_ & B). unfold get.
    eapply read_val with (a := a); [split; assumption| |apply B, I]. assert (a < List.length h) by (apply nth_error_Some; congruence). lia.
Qed.

Lemma forallb_known h w l : holds h w -> forallb (known w) l = forallb (arg h) l.
Proof. intros H. induction l as [|s l IH]; cbn; [reflexivity|]. rewrite (known_arg h w s H), IH. reflexivity. Qed.
Lemma forallb_known_f {X} (f : X -> slot) h w l : holds h w -> forallb (fun x => known w (f x)) l = forallb (fun x => arg h (f x)) l.
Proof. intros H. induction l as [|s l IH]; cbn; [reflexivity|]. rewrite (known_arg h w _ H), IH. reflexivity. Qed.
Lemma forallb_in h l s : forallb (arg h) l = true -> In s l -> arg h s = true.
Proof. intros F I. rewrite forallb_forall in F. apply F, I. Qed.
Lemma all_mfields h f x : forallb (fun x => arg h (f x)) mfields = true -> arg h (f x) = true.
Proof. intros F. rewrite forallb_forall in F. apply F. unfold mfields. destruct x; cbn; auto 12. Qed.
Lemma all_rfields h r x : forallb (fun x => arg h (r x)) rfields = true -> arg h (r x) = true.
Proof. intros F. rewrite forallb_forall in F. apply F. unfold rfields. destruct x; cbn; auto 12. Qed.
Lemma plain_parts h w a k s : holds h w -> nth_error h a = Some k -> In s (parts k) -> arg h s = true.
Proof.
  intros [L H] E I. destruct (H a k E) as (_ & B). specialize (B s I). assert (a < List.length h) by (apply nth_error_Some; congruence).
  destruct s; cbn in *; try reflexivity; [apply Nat.ltb_lt; lia|destruct B].
Qed.

Lemma kinds w k x : cell_thing w k x ->
  match k with
  | KTimeseries _ _ _ _ _ => x = XVal None \/ exists t, x = XVal (Some (VTS t))
  | KFormula _ _ _ _ _ => x = XVal None \/ exists n kd ps a f g, x = XVal (Some (VFormula n kd ps a f g))
  | KScope _ _ _ => x = XVal None \/ exists t, x = XVal (Some (VScope t))
  | KDict _ _ => x = XVal None \/ exists o, x = XVal (Some (VObj o))
  | KList _ => exists y, x = XList y
  | KMetrics _ => exists y, x = XMetrics y
  | KDelete _ _ => exists y z, x = XDelete y z
  | KRequest _ _ => exists y, x = XRequest y
  end.
Proof.
  destruct k as [l|? ?|m y p f g|m y p f g|? ? ?|?|? ?|? ?]; destruct x as [z|z|z|z z'|z]; intros C; try (exfalso; exact C); cbn [cell_thing] in C; eauto.
  - destruct (collect _); subst; eauto.
  - subst z. destruct (val w m) as [[]|]; auto. destruct (val w y) as [[[]| | | | |]|]; auto.
    destruct (as_opt_l (val w p)); auto. destruct (as_opt_l (val w f)); auto. destruct (as_opt_l (val w g)); eauto.
  - subst z. destruct (obj_val w m); auto. destruct (params_val w y) as [[]|]; auto. destruct (obj_val w p); auto.
    destruct (obj_val w f); auto. destruct (obj_val w g); eauto 10.
  - subst z. destruct (as_il _); auto. destruct (as_il _); auto. destruct (as_os _); eauto.
Qed.
Lemma formula_slots w n p a f g x k ps a' f' g' : cell_thing w (KFormula n p a f g) (XVal (Some (VFormula x k ps a' f' g'))) <->
  obj_val w n = Some x /\ (exists kd, k = Some kd /\ params_val w p = Some (kd, ps)) /\ obj_val w a = Some a' /\ obj_val w f = Some f' /\ obj_val w g = Some g'.
Proof.
  cbn [cell_thing]. split.
  - intros E. destruct (obj_val w n); [|discriminate E]. destruct (params_val w p) as [[]|]; [|discriminate E]. destruct (obj_val w a); [|discriminate E].
    destruct (obj_val w f); [|discriminate E]. destruct (obj_val w g); [|discriminate E]. injection E as -> -> -> -> -> ->. eauto 10.
  - intros (-> & (kd & -> & ->) & -> & -> & ->). reflexivity.
Qed.
Lemma obj_none w s : val w s = None -> obj_val w s = None.
Proof. unfold obj_val. intros ->. reflexivity. Qed.

Ltac parts_ok H E :=
  let s := fresh "s" in let I := fresh "I" in
  intros s I; cbn [parts] in I; repeat (destruct I as [<-|I]; [first [assumption|eapply plain_parts; [exact H|exact E|cbn; auto 12]]|]); destruct I.

Lemma step_holds N h w c : holds h w -> List.length h <= N -> changes c = None -> asks c = false ->
  in_sync (step N h c) (value_step w c).
Proof.
  intros H L Nc Na.
  assert (forall v, in_sync (h, v) (w, v)) as Bad by (intros v; apply sync_bad, H).
  assert (forall s, arg h s = true -> get N h s = val w s) as G by (intros s A; eapply read_all; eassumption).
  assert (forall s, arg h s = true -> get_o N h s = obj_val w s) as Go by (intros s A; eapply read_all_o; eassumption).
  destruct c as [l|ks vs|m a p f g|n p a f g|o p u|f|st cs|r fl|a v|a v p|a v|a v|a v|a v|a f v|a m|? ?|? ? ?|? ? ?|? ? ?|? ? ?|? ? ?|? ?];
    try discriminate Nc; try discriminate Na; cbn [step value_step].
  - rewrite (forallb_known h w l H). destruct (forallb (arg h) l) eqn:F; [|apply Bad]. apply sync_new; [exact H| |reflexivity].
    intros s I. eapply forallb_in; eassumption.
  - rewrite (forallb_known h w vs H). destruct (forallb (arg h) vs && _) eqn:F; [|apply Bad]. apply andb_true_iff in F as [F _]. apply sync_new; [exact H| |reflexivity].
    intros s I. eapply forallb_in; eassumption.
  - rewrite (forallb_known h w _ H). destruct (forallb (arg h) _) eqn:F; [|apply Bad]. pose proof (fun s => forallb_in h _ s F) as A.
    rewrite G, !Go by (apply A; cbn; auto 6).
    destruct (val w m) as [m'|] eqn:Em; [|apply Bad]. destruct (obj_val w a) as [a'|] eqn:Ea; [|apply Bad]. destruct (obj_val w p) as [p'|] eqn:Ep; [|apply Bad].
    destruct (obj_val w f) as [f'|] eqn:Ef; [|apply Bad]. destruct (obj_val w g) as [g'|] eqn:Eg; [|apply Bad].
    apply sync_checked; [exact H|exact A|]. intros t E. apply ts_back in E as (E1 & E2 & E3 & E4 & E5). apply ts_slots.
    rewrite Em, (obj_val_eq _ _ _ Ea), (obj_val_eq _ _ _ Ep), (obj_val_eq _ _ _ Ef), (obj_val_eq _ _ _ Eg), E1, E2. auto.
  - rewrite (forallb_known h w _ H). destruct (forallb (arg h) _) eqn:F; [|apply Bad]. pose proof (fun s => forallb_in h _ s F) as A.
    apply sync_new; [exact H|exact A|reflexivity].
  - rewrite (forallb_known h w _ H). destruct (forallb (arg h) _) eqn:F; [|apply Bad]. pose proof (fun s => forallb_in h _ s F) as A.
    rewrite !Go by (apply A; cbn; auto 6).
    destruct (obj_val w o) as [o'|] eqn:Eo; [|apply Bad]. destruct (obj_val w p) as [p'|] eqn:Ep; [|apply Bad]. destruct (obj_val w u) as [u'|] eqn:Eu; [|apply Bad].
    apply sync_checked; [exact H|exact A|]. intros t E. apply scope_back in E as (E1 & E2 & E3). apply scope_slots.
    rewrite (obj_val_eq _ _ _ Eo), (obj_val_eq _ _ _ Ep), (obj_val_eq _ _ _ Eu). auto.
  - rewrite (forallb_known_f f h w _ H). destruct (forallb _ mfields) eqn:F; [|apply Bad].
    apply sync_new; [exact H| |intros x; reflexivity]. cbn [parts]. intros s I. apply in_map_iff in I as (x & <- & _). apply all_mfields, F.
  - rewrite !(known_arg h w _ H). destruct (arg h st && arg h cs) eqn:F; [|apply Bad]. apply andb_true_iff in F as [F1 F2].
    apply sync_new; [exact H| |split; reflexivity]. intros s [<-|[<-|[]]]; assumption.
  - rewrite (forallb_known_f r h w _ H). destruct (forallb _ rfields) eqn:F; [|apply Bad].
    apply sync_new; [exact H| |reflexivity]. cbn [parts]. intros s I. apply in_map_iff in I as (x & <- & _). apply all_rfields, F.

  - (* set_metric *)
    pose proof (nth_both h w a H) as K. destruct (nth_error h a) as [k|] eqn:E; [|rewrite K; apply Bad]. destruct K as (x & Ex & C). rewrite Ex.
    pose proof (nth_get N h w a k H L E) as Ga. cbn [val] in Ga. rewrite Ex in Ga. pose proof (kinds w k x C) as K.
    destruct (arg h v) eqn:Av; [rewrite (G v Av)|destruct (not_arg h w v H Av) as (-> & _)];
      (destruct k as [l|? ?|m y q f g|m y q f g|? ? ?|?|? ?|? ?];
       [destruct K as (z & ->)|destruct K as [->|(z & ->)]|destruct K as [->|(t & ->)]|destruct K as [->|(x1 & x2 & x3 & x4 & x5 & x6 & ->)]
       |destruct K as [->|(z & ->)]|destruct K as (z & ->)|destruct K as (z & z' & ->)|destruct K as (z & ->)]);
      try apply Bad; rewrite Ga; try apply Bad; [|destruct (get N h v); apply Bad].
    destruct (val w v) as [x|] eqn:Ev; [|apply Bad].
    apply sync_checked; [exact H|parts_ok H E|]. intros t' S. apply ts_slots in C as (C1 & C2 & C3 & C4 & C5). apply ts_slots.
    unfold set_metric in S. cbn [ts_fields] in S. destruct x; try discriminate S. apply ts_back in S as (S1 & S2 & S3 & S4 & S5).
    apply of_opt_back in S3, S4, S5. rewrite Ev, C2, C3, C4, C5, S1, S3, S4, S5. injection S2 as ->. auto.
  - (* set_aggregate *)
    pose proof (nth_both h w a H) as K. destruct (nth_error h a) as [k|] eqn:E; [|rewrite K; apply Bad]. destruct K as (x & Ex & C). rewrite Ex.
    pose proof (nth_get N h w a k H L E) as Ga. cbn [val] in Ga. rewrite Ex in Ga. pose proof (kinds w k x C) as K.
    destruct k as [l|? ?|m y q f g|m y q f g|? ? ?|?|? ?|? ?];
       [destruct K as (z & ->)|destruct K as [->|(z & ->)]|destruct K as [->|(t & ->)]|destruct K as [->|(x1 & x2 & x3 & x4 & x5 & x6 & ->)]
       |destruct K as [->|(z & ->)]|destruct K as (z & ->)|destruct K as (z & z' & ->)|destruct K as (z & ->)];
      try apply Bad; rewrite Ga; try apply Bad.
    destruct (arg h v) eqn:Av.
    2:{ destruct (not_arg h w v H Av) as (Vn & _). rewrite (obj_none w v Vn). destruct (get_o N h v); [destruct (get_o N h p)|]; apply Bad. }
    destruct (arg h p) eqn:Ap.
    2:{ destruct (not_arg h w p H Ap) as (Vn & _). rewrite (obj_none w p Vn). destruct (get_o N h v); destruct (get_o N h p); destruct (obj_val w v); apply Bad. }
    rewrite (Go v Av), (Go p Ap). cbn [andb]. destruct (obj_val w v) as [x|] eqn:Ev; [|apply Bad]. destruct (obj_val w p) as [z|] eqn:Ep; [|apply Bad].
    apply sync_checked; [exact H|parts_ok H E|]. intros t' S. apply ts_slots in C as (C1 & C2 & C3 & C4 & C5). apply ts_slots.
    unfold set_aggregate in S. cbn [ts_fields] in S. assert (mk_timeseries (VMetric (ts_metric t)) x z (obj_of_opt OList (ts_filters t)) (obj_of_opt OList (ts_groupby t)) = Ok t') as S'
      by (destruct x; try discriminate S; destruct z; try discriminate S; exact S). clear S. apply ts_back in S' as (S1 & S2 & S3 & S4 & S5).
    apply of_opt_back in S4, S5. rewrite C1, (obj_val_eq _ _ _ Ev), (obj_val_eq _ _ _ Ep), C4, C5, S2, S3, S4, S5. injection S1 as ->. auto.
  - (* set_filters *)
    pose proof (nth_both h w a H) as K. destruct (nth_error h a) as [k|] eqn:E; [|rewrite K; apply Bad]. destruct K as (x & Ex & C). rewrite Ex.
    pose proof (nth_get N h w a k H L E) as Ga. cbn [val] in Ga. rewrite Ex in Ga. pose proof (kinds w k x C) as K.
    destruct (arg h v) eqn:Av; [rewrite (Go v Av)|destruct (not_arg h w v H Av) as (Vn & _); rewrite (obj_none w v Vn)];
      (destruct k as [l|? ?|m y q f g|m y q f g|? ? ?|?|? ?|? ?];
       [destruct K as (z & ->)|destruct K as [->|(z & ->)]|destruct K as [->|(t & ->)]|destruct K as [->|(x1 & x2 & x3 & x4 & x5 & x6 & ->)]
       |destruct K as [->|(z & ->)]|destruct K as (z & ->)|destruct K as (z & z' & ->)|destruct K as (z & ->)]);
      try apply Bad; rewrite Ga; try apply Bad; [| |destruct (get_o N h v); apply Bad|destruct (get_o N h v); apply Bad].
    + destruct (obj_val w v) as [x|] eqn:Ev; [|apply Bad].
      apply sync_checked; [exact H|parts_ok H E|]. intros t' S. apply ts_slots in C as (C1 & C2 & C3 & C4 & C5). apply ts_slots.
      unfold set_filters in S. cbn [ts_fields] in S. destruct (is_none x || _); [|discriminate S]. apply ts_back in S as (S1 & S2 & S3 & S4 & S5).
      apply of_opt_back in S3, S5. rewrite C1, C2, C3, (obj_val_eq _ _ _ Ev), C5, S3, S4, S5. injection S1 as ->. injection S2 as ->. auto.
    + destruct (obj_val w v) as [x|] eqn:Ev; [|apply Bad].
      apply sync_checked; [exact H|parts_ok H E|]. intros t' S. apply formula_slots in C as (C1 & C2 & C3 & C4 & C5).
      unfold formula_set_filters in S. destruct (is_none x || _); [|discriminate S]. injection S as <-. apply formula_slots. auto.
  - (* set_groupby *)
    pose proof (nth_both h w a H) as K. destruct (nth_error h a) as [k|] eqn:E; [|rewrite K; apply Bad]. destruct K as (x & Ex & C). rewrite Ex.
    pose proof (nth_get N h w a k H L E) as Ga. cbn [val] in Ga. rewrite Ex in Ga. pose proof (kinds w k x C) as K.
    destruct (arg h v) eqn:Av; [rewrite (Go v Av)|destruct (not_arg h w v H Av) as (Vn & _); rewrite (obj_none w v Vn)];
      (destruct k as [l|? ?|m y q f g|m y q f g|? ? ?|?|? ?|? ?];
       [destruct K as (z & ->)|destruct K as [->|(z & ->)]|destruct K as [->|(t & ->)]|destruct K as [->|(x1 & x2 & x3 & x4 & x5 & x6 & ->)]
       |destruct K as [->|(z & ->)]|destruct K as (z & ->)|destruct K as (z & z' & ->)|destruct K as (z & ->)]);
      try apply Bad; rewrite Ga; try apply Bad; [| |destruct (get_o N h v); apply Bad|destruct (get_o N h v); apply Bad].
    + destruct (obj_val w v) as [x|] eqn:Ev; [|apply Bad].
      apply sync_checked; [exact H|parts_ok H E|]. intros t' S. apply ts_slots in C as (C1 & C2 & C3 & C4 & C5). apply ts_slots.
      unfold set_groupby in S. cbn [ts_fields] in S. destruct (is_none x || _); [|discriminate S]. apply ts_back in S as (S1 & S2 & S3 & S4 & S5).
      apply of_opt_back in S3, S4. rewrite C1, C2, C3, (obj_val_eq _ _ _ Ev), C4, S3, S4, S5. injection S1 as ->. injection S2 as ->. auto.
    + destruct (obj_val w v) as [x|] eqn:Ev; [|apply Bad].
      apply sync_checked; [exact H|parts_ok H E|]. intros t' S. apply formula_slots in C as (C1 & C2 & C3 & C4 & C5).
      unfold formula_set_groupby in S. destruct (is_none x || _); [|discriminate S]. injection S as <-. apply formula_slots. auto.
  - (* set_parameters *)
    pose proof (nth_both h w a H) as K. destruct (nth_error h a) as [k|] eqn:E; [|rewrite K; apply Bad]. destruct K as (x & Ex & C). rewrite Ex.
    pose proof (nth_get N h w a k H L E) as Ga. cbn [val] in Ga. rewrite Ex in Ga. pose proof (kinds w k x C) as K.
    destruct (arg h v) eqn:Av; [rewrite (params_get N h w v H L Av)|destruct (not_arg h w v H Av) as (_ & ->)];
      (destruct k as [l|? ?|m y q f g|m y q f g|? ? ?|?|? ?|? ?];
       [destruct K as (z & ->)|destruct K as [->|(z & ->)]|destruct K as [->|(t & ->)]|destruct K as [->|(x1 & x2 & x3 & x4 & x5 & x6 & ->)]
       |destruct K as [->|(z & ->)]|destruct K as (z & ->)|destruct K as (z & z' & ->)|destruct K as (z & ->)]);
      try apply Bad; rewrite Ga; try apply Bad; [|destruct (params_of (get N h) h v) as [[]|]; apply Bad].
    destruct (params_val w v) as [[kd ps]|] eqn:Ev; [|apply Bad].
    apply sync_checked; [exact H|parts_ok H E|]. intros t' S. apply formula_slots in C as (C1 & C2 & C3 & C4 & C5).
    assert (t' = VFormula x1 (Some kd) ps x4 x5 x6) as ->.
    { unfold formula_set_parameters in S. destruct kd; try discriminate S.
      - injection S as <-. f_equal. unfold params_val in Ev. destruct v as [[[]| | | | |]|?|b|?]; try discriminate Ev; [injection Ev as <-; reflexivity|].
        destruct (nth_error w b) as [[[]| | | |]|]; discriminate Ev.
      - destruct (forallb _ ps); [|discriminate S]. injection S as <-. reflexivity. }
    apply formula_slots. eauto 10.
  - (* set_use_case_id *)
    pose proof (nth_both h w a H) as K. destruct (nth_error h a) as [k|] eqn:E; [|rewrite K; apply Bad]. destruct K as (x & Ex & C). rewrite Ex.
    pose proof (nth_get N h w a k H L E) as Ga. cbn [val] in Ga. rewrite Ex in Ga. pose proof (kinds w k x C) as K.
    destruct (arg h v) eqn:Av; [rewrite (Go v Av)|destruct (not_arg h w v H Av) as (Vn & _); rewrite (obj_none w v Vn)];
      (destruct k as [l|? ?|m y q f g|m y q f g|? ? ?|?|? ?|? ?];
       [destruct K as (z & ->)|destruct K as [->|(z & ->)]|destruct K as [->|(t & ->)]|destruct K as [->|(x1 & x2 & x3 & x4 & x5 & x6 & ->)]
       |destruct K as [->|(t & ->)]|destruct K as (z & ->)|destruct K as (z & z' & ->)|destruct K as (z & ->)]);
      try apply Bad; rewrite Ga; try apply Bad; [|destruct (get_o N h v); apply Bad].
    destruct (obj_val w v) as [x|] eqn:Ev; [|apply Bad].
    apply sync_checked; [exact H|parts_ok H E|]. intros t' S. apply scope_slots in C as (C1 & C2 & C3). apply scope_slots.
    unfold set_use_case_id in S. destruct x; try discriminate S. apply scope_back in S as (S1 & S2 & S3). apply ints_same in S1, S2.
    rewrite C1, C2, (obj_val_eq _ _ _ Ev), S1, S2, S3. auto.
  - (* the setters of MetricsQuery *)
    pose proof (nth_both h w a H) as K. destruct (nth_error h a) as [k|] eqn:E; [|rewrite K; apply Bad]. destruct K as (x & Ex & C). rewrite Ex.
    pose proof (kinds w k x C) as K.
    destruct (arg h v) eqn:Av; [rewrite (G v Av)|destruct (not_arg h w v H Av) as (-> & _)];
      (destruct k as [l|? ?|m y q ff g|m y q ff g|? ? ?|q|? ?|? ?];
       [destruct K as (z & ->)|destruct K as [->|(z & ->)]|destruct K as [->|(t & ->)]|destruct K as [->|(x1 & x2 & x3 & x4 & x5 & x6 & ->)]
       |destruct K as [->|(t & ->)]|destruct K as (z & ->)|destruct K as (z & z' & ->)|destruct K as (z & ->)]);
      try apply Bad; [|destruct (get N h v); apply Bad].
    destruct (val w v) as [x|] eqn:Ev; [|apply Bad]. destruct (mq_setter_value f x) as [y|e] eqn:S; cbn [make_if]; [|apply Bad].
    apply sync_new; [exact H| |].
    + cbn [parts]. intros s I. apply in_map_iff in I as (b & <- & _). unfold mupd. destruct (mfield_eqb f b).
      * unfold field_slot. destruct f; try exact Av; reflexivity.
      * eapply plain_parts; [exact H|exact E|apply in_parts_mfield].
    + intros b. unfold mupd. destruct (mfield_eqb f b); [|apply C].
      assert (field_slot f v y = Imm y \/ field_slot f v y = v /\ y = x) as [-> | (-> & ->)]; [|reflexivity|symmetry; exact Ev].
      unfold field_slot, mq_setter_value in *. destruct f; auto; right; (split; [reflexivity|]).
      all: try (destruct (is_formula x || is_ts x || is_str_val x); [|discriminate S]; cbn in S; injection S as <-; reflexivity).
      all: try (destruct (is_datetime x); [|discriminate S]; cbn in S; injection S as <-; reflexivity).
      all: try (injection S as <-; reflexivity).
      all: destruct x; try discriminate S; cbn in S; injection S as <-; reflexivity.
Qed.

(** ** Questions *)
Lemma query_get N h w f y : holds h w -> List.length h <= N -> (forall x, arg h (f x) = true) -> (forall x, y x = val w (f x)) -> get_query N h f = whole_query y.
Proof.
  intros H L A E. unfold get_query, whole_query. rewrite !E.
  rewrite !(read_all N h w _ H L) by apply A. reflexivity.
Qed.
Lemma rquery_get N h w s : holds h w -> List.length h <= N -> arg h s = true -> get_rquery N h s = query_val w s.
Proof.
  intros H L A. unfold get_rquery, query_val. destruct s as [v|q|a|k]; cbn [cell_of]; [reflexivity|reflexivity| |discriminate].
  pose proof (nth_both h w a H) as K. destruct (nth_error h a) as [k|] eqn:E; [|rewrite K; reflexivity]. destruct K as (x & -> & C).
  destruct k as [l|? ?|? ? ? ? ?|? ? ? ? ?|? ? ?|f|st c|? ?]; destruct x as [y|y|y|y z|y]; try (exfalso; exact C); try reflexivity.
  - cbn [cell_thing] in C. rewrite (query_get N h w f y H L); [reflexivity| |exact C]. intros x. eapply plain_parts; [exact H|exact E|apply in_parts_mfield].
  - destruct C as (-> & ->). rewrite !(read_all_o N h w _ H L) by (eapply plain_parts; [exact H|exact E|cbn; auto]). 
    destruct (obj_val w st); [|reflexivity]. destruct (obj_val w c); reflexivity.
Qed.
Lemma told_unit r : told (of_unit r) = of_unit r.
Proof. destruct r as [[]|]; reflexivity. Qed.
Lemma told_mql r : told (of_mql r) = of_mql r.
Proof. destruct r; reflexivity. Qed.
Lemma told_text r : told (of_text r) = of_text r.
Proof. destruct r; reflexivity. Qed.
Lemma told_dict r d : told (of_dict r d) = of_dict r (fun _ => []).
Proof. destruct r; reflexivity. Qed.
Lemma told_bad : told ABad = ABad.
Proof. reflexivity. Qed.
Ltac told := cbn [snd]; rewrite ?told_unit, ?told_mql, ?told_text, ?told_dict, ?told_bad; reflexivity.
Lemma ask_reply N h w a m : holds h w -> List.length h <= N -> told (snd (ask N h a m)) = reply w a m.
Proof.
  intros H L. unfold ask, reply. pose proof (nth_both h w a H) as K. destruct (nth_error h a) as [k|] eqn:E; [|rewrite K; reflexivity].
  destruct K as (x & Ex & C). rewrite Ex. pose proof (nth_get N h w a k H L E) as Ga. cbn [val] in Ga. rewrite Ex in Ga. pose proof (kinds w k x C) as K.
  destruct k as [l|? ?|n y q f g|n y q f g|? ? ?|f|st c|r fl];
   [destruct K as (z & ->)|destruct K as [->|(z & ->)]|destruct K as [->|(t & ->)]|destruct K as [->|(x1 & x2 & x3 & x4 & x5 & x6 & ->)]
    |destruct K as [->|(t & ->)]|destruct K as (z & ->)|destruct K as (z & z' & ->)|destruct K as (z & ->)]; try (destruct m; exact told_bad).
  - rewrite Ga. destruct m; told.
  - rewrite Ga. destruct m; told.
  - rewrite Ga. destruct m; told.
  - rewrite Ga. destruct m; told.
  - rewrite Ga. destruct m; told.
  - rewrite Ga. destruct m; told.
  - cbn [cell_thing] in C. rewrite (query_get N h w f z H L); [| |exact C].
    + destruct (whole_query z) as [q|]; [|destruct m; told]. destruct m; told.
    + intros x. eapply plain_parts; [exact H|exact E|apply in_parts_mfield].
  - destruct C as (-> & ->). rewrite !(read_all_o N h w _ H L) by (eapply plain_parts; [exact H|exact E|cbn; auto]).
    destruct (obj_val w st); [|destruct m; told]. destruct (obj_val w c); [|destruct m; told]. destruct m; told.
  - cbn [cell_thing] in C. assert (get_request N h r fl = z) as ->.
    { subst z. unfold get_request.
      assert (forall x, arg h (r x) = true) as A by (intros x; eapply plain_parts; [exact H|exact E|cbn; destruct x; auto 6]).
      rewrite !(read_all_o N h w _ H L) by apply A. rewrite (rquery_get N h w _ H L) by apply A. reflexivity. }
    destruct z as [q|]; [|destruct m; told]. destruct m; told.
Qed.

(** ** Programs *)
Lemma step_length N h c : asks c = false -> changes c = None -> List.length (fst (step N h c)) <= S (List.length h).
Proof.
  intros Na Nc. assert (forall k, List.length (fst (new h k)) = S (List.length h)) as Kn by (intros k; cbn; rewrite app_length; cbn; lia).
  assert (forall A (r : result A) k, List.length (fst (checked h r k)) <= S (List.length h)) as Kc by (intros A [v|e] k; cbn [checked]; [rewrite Kn; lia|cbn; lia]).
  destruct c; try discriminate Na; try discriminate Nc; cbn [step];
   repeat (match goal with
           | |- List.length (fst (new _ _)) <= _ => rewrite Kn; lia
           | |- List.length (fst (checked _ _ _)) <= _ => apply Kc
           | |- List.length (fst (h, _)) <= _ => cbn; lia
           | |- context[match ?x with _ => _ end] => destruct x
           end).
Qed.
Lemma run_holds N cs : forall h w, holds h w -> List.length h + List.length cs <= N ->
  (forall c, In c cs -> changes c = None) -> Forall (fun c => asks c = false) cs ->
  holds (run N h cs) (value_run w cs) /\ List.length (run N h cs) <= List.length h + List.length cs.
Proof.
  induction cs as [|c cs IH]; intros h w H L Nc Na; cbn [run value_run List.length].
  - split; [exact H|lia].
  - inversion Na as [|? ? Nac Na']; subst. cbn in L. pose proof (step_length N h c Nac (Nc c (or_introl eq_refl))) as Ls.
    destruct (step_holds N h w c H) as (H' & _); [lia|apply Nc; left; reflexivity|exact Nac|].
    destruct (IH _ _ H') as (A & B); [lia|intros d I; apply Nc; right; exact I|exact Na'|]. split; [exact A|lia].
Qed.
Lemma value_run_asks cs : forall w, value_run w (filter (fun c => negb (asks c)) cs) = value_run w cs.
Proof.
  induction cs as [|c cs IH]; intros w; cbn; [reflexivity|]. destruct c; cbn [asks negb]; try (cbn [value_run]; apply IH).
Qed.
Lemma told_step N h w c : holds h w -> List.length h <= N -> changes c = None -> told (snd (step N h c)) = told (snd (value_step w c)).
Proof.
  intros H L Nc. destruct (asks c) eqn:A.
  - destruct c; try discriminate A. cbn [step value_step snd]. rewrite (ask_reply N h w a m H L).
    unfold reply. destruct (nth_error w a) as [[|[[]|]| |[|] [|]|[|]]|]; destruct m; try destruct (whole_query _); told.
  - destruct (step_holds N h w c H L Nc A) as (_ & ->). reflexivity.
Qed.
Lemma calm_asking N cs : forall h, (forall c, In c cs -> changes c = None) -> calm N h cs.
Proof.
  induction cs as [|c cs IH]; intros h Nc; cbn; [exact I|]. split; [rewrite (Nc c (or_introl eq_refl)); discriminate|].
  apply IH. intros d I. apply Nc. right. exact I.
Qed.
End F.
