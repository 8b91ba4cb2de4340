(** Facts about assignments to attributes *)
From Verif Require Import PyBase PyFacts Objects Exprs Query Metrics MetricsQuery Request
  Sharing SpecSharing SharingFacts SpecAssign.
From Verif Require History HistoryFacts.
From Coq Require Import Lia.

Section S.
Context {RT : PyRT} {ST : PyStr}.
Variable N : nat.

(** the same attributes and items *)
Definition same_cell (k k' : cell) : Prop :=
  match k, k' with
  | KMetrics f, KMetrics f' => forall x, f' x = f x
  | KRequest r fl, KRequest r' fl' => (forall x, r' x = r x) /\ fl' = fl
  | _, _ => k' = k
  end.
Lemma same_refl k : same_cell k k.
Proof. destruct k; cbn; auto. Qed.

Lemma put_key_old k v ks1 ks2 vs1 x vs2 : List.length ks1 = List.length vs1 -> ~ In k ks1 ->
  put_key k v (ks1 ++ k :: ks2) (vs1 ++ x :: vs2) = (ks1 ++ k :: ks2, vs1 ++ v :: vs2).
Proof.
  revert vs1. induction ks1 as [|k1 ks1 IH]; intros [|y vs1] L Nk; try discriminate L; cbn [app put_key].
  - rewrite str_eqb_refl. reflexivity.
  - destruct (str_eqb k1 k) eqn:E; [apply str_eqb_eq in E; subst; elim Nk; left; reflexivity|].
    injection L as L. rewrite (IH vs1 L); [reflexivity|]. intros I. apply Nk. right. exact I.
Qed.
Lemma put_key_new k v ks vs : List.length ks = List.length vs -> ~ In k ks -> put_key k v ks vs = (ks ++ [k], vs ++ [v]).
Proof.
  revert vs. induction ks as [|k1 ks IH]; intros [|y vs] L Nk; try discriminate L; [reflexivity|]. cbn [app put_key].
  destruct (str_eqb k1 k) eqn:E; [apply str_eqb_eq in E; subst; elim Nk; left; reflexivity|].
  injection L as L. rewrite (IH vs L); [reflexivity|]. intros I. apply Nk. right. exact I.
Qed.
Lemma mfield_eqb_ok x y : mfield_eqb x y = true <-> x = y.
Proof. destruct x, y; cbn; split; congruence. Qed.
Lemma rfield_eqb_ok x y : rfield_eqb x y = true <-> x = y.
Proof. destruct x, y; cbn; split; congruence. Qed.

Lemma change_step h c a k k' : changes c = Some a -> nth_error h a = Some k -> turned c k k' -> forallb (arg h) (assigned c) = true ->
  exists k1, step N h c = (History.put h a k1, ANone) /\ same_cell k' k1.
Proof.
  intros C E T A.
  destruct T as [b v l|b key v ks1 ks2 vs1 x vs2 L Nk|b key v ks vs L Nk|b v m y p f g|b v m y p f g|b v m y p f g|b v m y p f g|b v m y p f g
    |b v o p u|b v o p u|b v o p u|b x v f f' Fx Fo|b x v r r' fl Fx Fo|b fl r old];
    cbn in C; injection C as ->; cbn [assigned forallb] in A; rewrite ?andb_true_r in A; cbn [step]; rewrite E, ?A;
    try (eexists; split; [reflexivity|apply same_refl]).
  - rewrite (put_key_old _ _ _ _ _ _ _ L Nk). eexists; split; [reflexivity|apply same_refl].
  - rewrite (put_key_new _ _ _ _ L Nk). eexists; split; [reflexivity|apply same_refl].
  - eexists; split; [reflexivity|]. cbn. intros y. unfold mupd. destruct (mfield_eqb x y) eqn:Q.
    + apply mfield_eqb_ok in Q. subst. reflexivity.
    + symmetry. apply Fo. intros ->. assert (mfield_eqb x x = true) by (apply mfield_eqb_ok; reflexivity). congruence.
  - eexists; split; [reflexivity|]. cbn. split; [|reflexivity]. intros y. unfold rupd. destruct (rfield_eqb x y) eqn:Q.
    + apply rfield_eqb_ok in Q. subst. reflexivity.
    + symmetry. apply Fo. intros ->. assert (rfield_eqb x x = true) by (apply rfield_eqb_ok; reflexivity). congruence.
Qed.

(** ** Two heaps in which the parts of an object are the same *)
Definition exact_at (h h' : heap) (s : slot) : Prop := forall b, reaches h s b -> nth_error h' b = nth_error h b.
Lemma exact_alike h h' s : exact_at h h' s -> all_alike h h' s.
Proof. intros X b R. left. symmetry. apply X, R. Qed.
Lemma exact_part h h' s k x : exact_at h h' s -> cell_of h s = Some k -> In x (parts k) -> exact_at h h' x.
Proof. intros A E I b R. apply A. eapply cell_part; eassumption. Qed.
Lemma exact_cell h h' s : exact_at h h' s -> cell_of h' s = cell_of h s.
Proof. intros A. destruct s as [v|q|a|k]; cbn; try reflexivity. apply A. constructor. Qed.
Lemma exact_get h h' s : exact_at h h' s -> get N h' s = get N h s.
Proof. intros X. apply read_alike, exact_alike, X. Qed.
Lemma exact_query h h' f f' : (forall x, get N h' (f' x) = get N h (f x)) -> get_query N h' f' = get_query N h f.
Proof. intros G. unfold get_query. rewrite !G. reflexivity. Qed.
Lemma exact_rquery h h' s : exact_at h h' s -> get_rquery N h' s = get_rquery N h s.
Proof.
  intros X. pose proof (exact_cell _ _ _ X) as C. pose proof (fun k x => exact_part h h' s k x X) as Pt.
  assert (match cell_of h' s with
         | Some (KMetrics f) => match get_query N h' f with Some q => Some (RMetrics q) | None => None end
         | Some (KDelete st c) => match get_o N h' st, get_o N h' c with
                                  | Some x, Some y => Some (RDelete (mkDelete x y))
                                  | _, _ => None
                                  end
         | _ => None
         end = match cell_of h s with
         | Some (KMetrics f) => match get_query N h f with Some q => Some (RMetrics q) | None => None end
         | Some (KDelete st c) => match get_o N h st, get_o N h c with
                                  | Some x, Some y => Some (RDelete (mkDelete x y))
                                  | _, _ => None
                                  end
         | _ => None
         end) as K.
  { rewrite C. destruct (cell_of h s) as [k|]; [|reflexivity]. specialize (Pt k).
    destruct k as [| | | | |f|st c|]; try reflexivity.
    - rewrite (exact_query h h' f f); [reflexivity|]. intros x. apply exact_get, (Pt (f x) eq_refl), (in_map f mfields x (mfields_all x)).
    - unfold get_o. rewrite !(exact_get h h'); [reflexivity| |]; (apply Pt; [reflexivity|cbn; auto]). }
  destruct s as [v|q|a|k]; cbn [get_rquery]; try exact K; reflexivity.
Qed.

Lemma get_same h h1 h2 a b k k1 : nth_error h1 a = Some k1 -> nth_error h2 b = Some k -> same_cell k k1 ->
  (forall s, In s (parts k) -> exact_at h h1 s) -> (forall s, In s (parts k) -> exact_at h h2 s) ->
  get N h1 (Ref a) = get N h2 (Ref b).
Proof.
  intros E1 E2 S X1 X2. unfold get. destruct N as [|n]; [reflexivity|]. cbn [read]. cbn [cell_of]. rewrite E1, E2.
  assert (forall s, In s (parts k) -> read n h1 s = read n h2 s) as R.
  { intros s I. rewrite (read_alike n h h1), (read_alike n h h2) by (apply exact_alike; auto). reflexivity. }
  destruct k as [l|ks vs|m x p fl g|m x p fl g|o p u|f|st c|r fl]; cbn in S; subst; try reflexivity.
  - rewrite (map_ext_in (fun x => as_o (read n h1 x)) (fun x => as_o (read n h2 x))); [reflexivity|]. intros y I. rewrite (R y I). reflexivity.
  - rewrite (map_ext_in (fun x => as_o (read n h1 x)) (fun x => as_o (read n h2 x))); [reflexivity|]. intros y I. rewrite (R y I). reflexivity.
  - rewrite !R by (cbn; tauto). reflexivity.
  - rewrite !R by (cbn; tauto).
    assert (params_of (read n h1) h1 x = params_of (read n h2) h2 x) as ->; [|reflexivity].
    rewrite (params_alike (read n h) (read n h1) h h1 x), (params_alike (read n h) (read n h2) h h2 x); [reflexivity| | | |].
    + apply exact_alike, X2; cbn; tauto.
    + intros y k Ek I. apply read_alike, exact_alike. refine (exact_part _ _ x k y _ Ek I). apply X2; cbn; tauto.
    + apply exact_alike, X1; cbn; tauto.
    + intros y k Ek I. apply read_alike, exact_alike. refine (exact_part _ _ x k y _ Ek I). apply X1; cbn; tauto.
  - rewrite !R by (cbn; tauto). reflexivity.
  - destruct k1; try discriminate; try contradiction. reflexivity.
  - destruct k1; try discriminate; try contradiction. reflexivity.
Qed.

Lemma ask_metrics_snd h a f m : nth_error h a = Some (KMetrics f) ->
  snd (ask N h a m) = match get_query N h f with
                      | None => ABad
                      | Some q => match m with
                                  | History.Validate => of_unit (mq_validate q)
                                  | History.Serialize => of_mql (snd (mq_serialize q))
                                  | History.Print => of_text (mq_print_text q)
                                  | History.Str => of_text (mq_str_text q)
                                  | History.ToDict => ABad
                                  end
                      end.
Proof. intros E. unfold ask. rewrite E. destruct (get_query N h f); [|reflexivity]. destruct m; reflexivity. Qed.
Lemma ask_same_cell h h1 h2 a b k k1 m : nth_error h1 a = Some k1 -> nth_error h2 b = Some k -> same_cell k k1 ->
  (forall s, In s (parts k) -> exact_at h h1 s) -> (forall s, In s (parts k) -> exact_at h h2 s) ->
  snd (ask N h1 a m) = snd (ask N h2 b m).
Proof.
  intros E1 E2 S X1 X2. pose proof (get_same _ _ _ _ _ _ _ E1 E2 S X1 X2) as G.
  assert (forall s, In s (parts k) -> get N h1 s = get N h2 s) as R.
  { intros s I. rewrite (exact_get h h1), (exact_get h h2) by auto. reflexivity. }
  destruct k as [l|ks vs|mm x p fl g|mm x p fl g|o p u|f|st c|r fl]; cbn in S;
    [subst|subst|subst|subst|subst| |subst|]; try (unfold ask; rewrite E1, E2; reflexivity).
  - unfold ask. rewrite E1, E2, G. destruct (get N h2 (Ref b)); [|reflexivity]. destruct m; reflexivity.
  - unfold ask. rewrite E1, E2, G. destruct (get N h2 (Ref b)); [|reflexivity]. destruct m; reflexivity.
  - unfold ask. rewrite E1, E2, G. destruct (get N h2 (Ref b)) as [[]|]; try reflexivity. destruct m; reflexivity.
  - destruct k1 as [| | | | |f1| |]; try discriminate S; try contradiction.
    rewrite (ask_metrics_snd _ _ _ _ E1), (ask_metrics_snd _ _ _ _ E2).
    rewrite (exact_query h2 h1 f f1); [reflexivity|]. intros x. rewrite S. apply R. exact (in_map f mfields x (mfields_all x)).
  - unfold ask. rewrite E1, E2. unfold get_o. rewrite !R by (cbn; tauto).
    destruct (as_o (get N h2 st)); [|reflexivity]. destruct (as_o (get N h2 c)); [|reflexivity]. destruct m; reflexivity.
  - destruct k1 as [| | | | | | |r1 fl1]; try discriminate S; try contradiction. destruct S as [S ->].
    pose proof (fun x => in_map r rfields x (rfields_all x)) as In_.
    assert (get_request N h1 r1 fl = get_request N h2 r fl) as Gr.
    { unfold get_request, get_o. rewrite !S, !R by apply In_.
      rewrite (exact_rquery h h1), (exact_rquery h h2) by (first [apply X1|apply X2]; apply In_). reflexivity. }
    unfold ask. rewrite E1, E2, Gr. destruct (get_request N h2 r fl) as [q|]; [|reflexivity].
    destruct m; cbn [snd]; try reflexivity. unfold of_dict. destruct (snd (request_to_dict q)) as [o|e]; [|reflexivity].
    assert (entries h1 r1 o = entries h2 r o) as ->; [|reflexivity].
    unfold entries. destruct o; try reflexivity. apply map_ext. intros [k v]. cbn. rewrite !S.
    destruct (str_eqb k _); [reflexivity|]. destruct (str_eqb k _); [|reflexivity].
    rewrite (exact_cell h h1), (exact_cell h h2) by (first [apply X1|apply X2]; apply In_). reflexivity.
Qed.

(** ** The heap after the change, and the heap with a new object *)
Lemma exact_put h a k s : ~ reaches h s a -> exact_at h (History.put h a k) s.
Proof. intros Nr b R. apply HistoryFacts.nth_put_other. intros ->. exact (Nr R). Qed.
Lemma exact_app h l s : sound h -> ssound h s -> exact_at h (h ++ l) s.
Proof. intros Sh Ss b R. apply nth_error_app1. eapply reaches_exists; eassumption. Qed.
Lemma turned_sound h c a k k' : sound h -> nth_error h a = Some k -> turned c k k' -> forallb (arg h) (assigned c) = true -> ksound h k'.
Proof.
  intros Sh E T A. specialize (Sh a k E).
  assert (forall s, In s (assigned c) -> ssound h s) as B by (intros s I; eapply args_sound; eassumption).
  intros s I.
  destruct T as [b v l|b key v ks1 ks2 vs1 x vs2 L Nk|b key v ks vs L Nk|b v m y p f g|b v m y p f g|b v m y p f g|b v m y p f g|b v m y p f g
    |b v o p u|b v o p u|b v o p u|b x v f f' Fx Fo|b x v r r' fl Fx Fo|b fl r old]; cbn [assigned parts] in *;
    try (cbn [In] in I; repeat (destruct I as [I|I]; [subst; first [apply B; left; reflexivity|apply Sh; cbn; tauto]|]); contradiction).
  - apply in_app_or in I as [I|I]; [apply Sh, I|apply B, I].
  - apply in_app_or in I as [I|[<-|I]]; [apply Sh; cbn; apply in_or_app; auto|apply B; left; reflexivity|apply Sh; cbn; apply in_or_app; cbn; auto].
  - apply in_app_or in I as [I|I]; [apply Sh, I|apply B, I].
  - apply in_map_iff in I as (y & <- & _).
    assert (y = x \/ y <> x) as [->|Ne] by (destruct y, x; first [left; reflexivity|right; discriminate]).
    + apply B. left. congruence.
    + rewrite (Fo y Ne). apply Sh. exact (in_map f mfields y (mfields_all y)).
  - apply in_map_iff in I as (y & <- & _).
    assert (y = x \/ y <> x) as [->|Ne] by (destruct y, x; first [left; reflexivity|right; discriminate]).
    + apply B. left. congruence.
    + rewrite (Fo y Ne). apply Sh. exact (in_map r rfields y (rfields_all y)).
Qed.
Lemma builds_new h k b : snd (step N h (builds k)) = ANew b -> step N h (builds k) = (h ++ [k], ANew b) /\ b = List.length h.
Proof.
  intros E.
  assert (forall A (r : result A) k', snd (checked h r k') = ANew b -> checked h r k' = (h ++ [k'], ANew b) /\ b = List.length h) as K.
  { intros A [v|e] k'; cbn; intros H; [injection H as <-; auto|discriminate]. }
  destruct k as [l|ks vs|mm x p fl g|mm x p fl g|o p u|f|st c|r fl]; cbn [builds step] in *;
    match goal with |- context [if ?c then _ else _] => destruct c end; try discriminate E;
    try (injection E as <-; split; reflexivity).
  - destruct (get N h mm); [|discriminate E]. destruct (get_o N h x); [|discriminate E]. destruct (get_o N h p); [|discriminate E].
    destruct (get_o N h fl); [|discriminate E]. destruct (get_o N h g); [|discriminate E]. apply K, E.
  - destruct (get_o N h o); [|discriminate E]. destruct (get_o N h p); [|discriminate E].
    destruct (get_o N h u); [|discriminate E]. apply K, E.
Qed.
End S.
