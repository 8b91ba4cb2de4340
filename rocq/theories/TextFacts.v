(** Facts about printed text: unfolding lemmas for [visit], quoted strings, literals (C12-C14). *)
From Coq Require Import ZifyBool ZifyNat ZifyN.
From Verif Require Import PyBase PyFacts Utf8 DateTime Objects Exprs Translate SpecExpr ExprFacts SpecText.

(** * Unfolding [visit] *)
Section Unfold.
Context {RT : PyRT}.

(** the parameter loop of functions *)
Fixpoint visit_params (mql al : bool) (l : list obj) : result (list str) :=
  match l with
  | [] => Ok []
  | x :: l' =>
      let! b := (if is_param_expr x then Ok true else is_scalar x) in
      if b
      then let! s := visit mql al x in let! r := visit_params mql al l' in Ok (s :: r)
      else visit_params mql al l'
  end.
Lemma visit_func mql al f n ik il pk pl a :
  visit mql al (OFunc f n ik il pk pl a) =
  (let! ic := match ik with
              | KNone => Ok []
              | _ => let! l := mapM (visit mql al) (filter init_ok il) in
                     Ok ($"(" ++ join ($", ") l ++ $")")
              end in
   let! pc := match pk with
              | KNone => Ok []
              | _ => let! l := visit_params mql al pl in Ok ($"(" ++ join ($", ") l ++ $")")
              end in
   Ok (n ++ ic ++ pc ++ alias_suffix a)).
Proof.
  cbn [visit].
  assert (E1 : (fix inits (l : list obj) : result (list str) :=
    match l with
    | [] => Ok []
    | x :: l' =>
        if init_ok x
        then let! s := visit mql al x in let! r := inits l' in Ok (s :: r)
        else inits l'
    end) il = mapM (visit mql al) (filter init_ok il)).
  { induction il as [|x il IH]; [reflexivity|]. cbn. destruct (init_ok x); cbn; rewrite IH; reflexivity. }
  assert (E2 : (fix params (l : list obj) : result (list str) :=
    match l with
    | [] => Ok []
    | x :: l' =>
        let! b := (if is_param_expr x then Ok true else is_scalar x) in
        if b
        then let! s := visit mql al x in let! r := params l' in Ok (s :: r)
        else params l'
    end) pl = visit_params mql al pl).
  { induction pl as [|x pl IH]; [reflexivity|]. cbn. rewrite IH. reflexivity. }
  rewrite E1, E2. reflexivity.
Qed.
Lemma visit_items mql al l :
  (fix items (l : list obj) : result (list str) :=
    match l with
    | [] => Ok []
    | x :: l' => let! s := visit mql al x in let! r := items l' in Ok (s :: r)
    end) l = mapM (visit mql al) l.
Proof. induction l as [|x l IH]; [reflexivity|]. cbn. rewrite IH. reflexivity. Qed.
Lemma visit_bool mql al c o k l :
  visit mql al (OBoolC c o k l) =
  (let! cs := mapM (visit mql al) l in
   Ok ($"(" ++ join ($" " ++ boolop_value o ++ $" ") cs ++ $")")).
Proof. cbn [visit]. rewrite visit_items. reflexivity. Qed.
Lemma visit_list mql al l :
  visit mql al (OList l) =
  (is_scalar (OList l) ;! let! s := mapM (visit mql al) l in
   Ok ((if mql then $"[" else $"array(") ++ join ($", ") s ++ (if mql then $"]" else $")"))).
Proof. cbn [visit]. rewrite visit_items. reflexivity. Qed.
Lemma visit_tuple mql al l :
  visit mql al (OTuple l) =
  (is_scalar (OTuple l) ;! let! s := mapM (visit mql al) l in
   Ok ((if mql then $"[" else $"tuple(") ++ join ($", ") s ++ (if mql then $"]" else $")"))).
Proof. cbn [visit]. rewrite visit_items. reflexivity. Qed.
Lemma visit_cond mql al lhs o rhs :
  visit mql al (OCond lhs o rhs) =
  (let! rhs_s :=
     if is_unary o then Ok []
     else if is_col_or_func rhs then let! s := visit mql al rhs in Ok ($" " ++ s)
     else let! b := is_scalar rhs in
          if b then let! s := visit mql al rhs in Ok ($" " ++ s) else Raise AssertionError in
   let! l := visit mql al lhs in
   Ok (l ++ $" " ++ op_value o ++ rhs_s)).
Proof. reflexivity. Qed.
End Unfold.

(** * Strings (C12) *)
Definition esc1 (q c : N) : str :=
  if N.eqb c 92 then [92; 92]%N else if N.eqb c q then [92%N; q]
  else if N.eqb c 10 then [92; 110]%N else [c].
Lemma flat_map_flat_map {A B C} (f : A -> list B) (g : B -> list C) l :
  flat_map g (flat_map f l) = flat_map (fun x => flat_map g (f x)) l.
Proof. induction l as [|x l IH]; [reflexivity|]. cbn. rewrite flat_map_app, IH. reflexivity. Qed.
Lemma escape_flat mql s : escape mql s = flat_map (esc1 (quote_char mql)) s.
Proof.
  unfold escape. rewrite !replace_char, !flat_map_flat_map.
  apply flat_map_ext. intros c. unfold esc1.
  rewrite (N.eqb_sym BSL c). unfold BSL.
  destruct (N.eqb_spec c 92) as [->|H1]; [destruct mql; reflexivity|].
  cbn [flat_map app]. rewrite (N.eqb_sym _ c).
  destruct (N.eqb_spec c (quote_char mql)) as [->|H2]; [destruct mql; reflexivity|].
  cbn [flat_map app]. rewrite (N.eqb_sym _ c). unfold NL.
  destruct (N.eqb_spec c 10) as [->|H3]; reflexivity.
Qed.
Lemma read_body_esc mql s rest :
  read_body (quote_char mql) (escape mql s ++ quote_char mql :: rest) = Some (s, rest).
Proof.
  rewrite escape_flat. induction s as [|c s IH].
  - cbn. rewrite N.eqb_refl. reflexivity.
  - cbn [flat_map]. rewrite <- app_assoc. unfold esc1 at 1.
    destruct (N.eqb_spec c 92) as [->|H1].
    { destruct mql; cbn [app read_body quote_char N.eqb Pos.eqb]; fold (quote_char true) in *;
        cbn in IH |- *; rewrite IH; reflexivity. }
    destruct (N.eqb_spec c (quote_char mql)) as [->|H2].
    { destruct mql; cbn in IH |- *; rewrite IH; reflexivity. }
    destruct (N.eqb_spec c 10) as [->|H3].
    { destruct mql; cbn in IH |- *; rewrite IH; reflexivity. }
    cbn [app read_body]. rewrite (proj2 (N.eqb_neq _ _) H2), (proj2 (N.eqb_neq _ _) H1),
      (proj2 (N.eqb_neq _ _) H3), IH. reflexivity.
Qed.
Lemma quoted_read mql s rest :
  read_quoted (quote_char mql) (quoted mql s ++ rest) = Some (s, rest).
Proof.
  unfold quoted. cbn [app read_quoted]. rewrite N.eqb_refl, <- app_assoc. apply read_body_esc.
Qed.
Lemma escape_no_nl mql s : ~ In 10%N (escape mql s).
Proof.
  rewrite escape_flat. intros H. apply in_flat_map in H as (c & _ & H). unfold esc1 in H.
  destruct (N.eqb_spec c 92) as [E1|E1]; [cbn in H; intuition discriminate|].
  destruct (N.eqb_spec c (quote_char mql)) as [E2|E2].
  { destruct mql; cbn in H; intuition discriminate. }
  destruct (N.eqb_spec c 10) as [E3|E3]; [cbn in H; intuition discriminate|].
  cbn in H. intuition congruence.
Qed.
Lemma quoted_no_nl mql s : ~ In 10%N (quoted mql s).
Proof.
  unfold quoted. intros H. cbn in H. destruct H as [H|H]; [destruct mql; discriminate|].
  apply in_app_or in H as [H|[H|[]]]; [exact (escape_no_nl _ _ H)|destruct mql; discriminate].
Qed.
Lemma quoted_inj mql s s' r r' : quoted mql s ++ r = quoted mql s' ++ r' -> s = s' /\ r = r'.
Proof.
  intros H. pose proof (quoted_read mql s r) as H1. rewrite H, quoted_read in H1.
  injection H1 as <- <-. auto.
Qed.

(** * UTF-8 (C14) *)
Section Utf8.
Local Open Scope N_scope.
Ltac Zify.zify_post_hook ::= Z.div_mod_to_equations.

Lemma in_range_iff lo hi c : in_range lo hi c = true <-> lo <= c <= hi.
Proof. unfold in_range. rewrite andb_true_iff, !N.leb_le. tauto. Qed.
Lemma in_range_false lo hi c : in_range lo hi c = false <-> ~ (lo <= c <= hi).
Proof. rewrite <- in_range_iff. destruct (in_range lo hi c); split; congruence. Qed.

Lemma utf8_decode_encode1 c t : scalar_value c = true ->
  utf8_decode (utf8_encode1 c ++ t) = option_map (cons c) (utf8_decode t).
Proof.
  unfold scalar_value, utf8_encode1. rewrite andb_true_iff, N.ltb_lt, negb_true_iff, in_range_false.
  intros [H1 H2].
  destruct (N.ltb_spec c 128).
  { cbn [app utf8_decode]. rewrite (proj2 (N.ltb_lt c 128)) by lia. reflexivity. }
  destruct (N.ltb_spec c 2048).
  { cbn [app utf8_decode].
    rewrite (proj2 (N.ltb_ge _ 128)) by lia.
    rewrite (proj2 (in_range_iff 194 223 _)) by lia.
    unfold is_cont. rewrite (proj2 (in_range_iff 128 191 _)) by lia.
    f_equal. f_equal. lia. }
  destruct (N.ltb_spec c 65536).
  { cbn [app utf8_decode].
    rewrite (proj2 (N.ltb_ge _ 128)) by lia.
    rewrite (proj2 (in_range_false 194 223 _)) by lia.
    rewrite (proj2 (in_range_iff 224 239 _)) by lia.
    cbv zeta. unfold is_cont.
    rewrite (proj2 (in_range_iff _ _ _)).
    2: { destruct (N.eqb_spec (224 + c / 4096) 224), (N.eqb_spec (224 + c / 4096) 237); lia. }
    rewrite (proj2 (in_range_iff 128 191 _)) by lia. cbn [andb].
    f_equal. f_equal. lia. }
  cbn [app utf8_decode].
  rewrite (proj2 (N.ltb_ge _ 128)) by lia.
  rewrite (proj2 (in_range_false 194 223 _)) by lia.
  rewrite (proj2 (in_range_false 224 239 _)) by lia.
  rewrite (proj2 (in_range_iff 240 244 _)) by lia.
  cbv zeta. unfold is_cont.
  rewrite (proj2 (in_range_iff _ _ (128 + c / 4096 mod 64))) by (destruct (N.eqb_spec (240 + c / 262144) 240), (N.eqb_spec (240 + c / 262144) 244); lia).
  rewrite !(proj2 (in_range_iff 128 191 _)) by lia. cbn [andb].
  f_equal. f_equal. lia.
Qed.
Lemma utf8_decode_encode s : forallb scalar_value s = true -> utf8_decode (utf8_encode s) = Some s.
Proof.
  induction s as [|c s IH]; [reflexivity|]. cbn [forallb utf8_encode flat_map].
  rewrite andb_true_iff. intros [Hc Hs]. rewrite utf8_decode_encode1 by exact Hc.
  fold (utf8_encode s). rewrite IH by exact Hs. reflexivity.
Qed.

Lemma utf8_sound_aux n : forall b s, (List.length b < n)%nat -> utf8_decode b = Some s ->
  b = utf8_encode s /\ forallb scalar_value s = true.
Proof.
  induction n as [|n IH]; intros b s Hl H; [lia|].
  destruct b as [|b0 t]; [cbn in H; injection H as <-; auto|].
  cbn [utf8_decode List.length] in *.
  assert (step : forall c u b', utf8_decode b' = Some u -> (List.length b' < n)%nat ->
            scalar_value c = true ->
            utf8_encode1 c ++ b' = utf8_encode (c :: u) /\ forallb scalar_value (c :: u) = true).
  { intros c u b' E L Hc. destruct (IH b' u L E) as [-> Hu]. cbn [forallb]. rewrite Hc. auto. }
  destruct (N.ltb_spec b0 128) as [H0|H0].
  { destruct (utf8_decode t) as [u|] eqn:E; [|discriminate]. injection H as <-.
    destruct (step b0 u t E ltac:(lia)) as [S1 S2].
    { unfold scalar_value. rewrite (proj2 (N.ltb_lt _ _)), (proj2 (in_range_false _ _ _)) by lia. reflexivity. }
    split; [|exact S2]. rewrite <- S1. unfold utf8_encode1. rewrite (proj2 (N.ltb_lt _ _) H0). reflexivity. }
  destruct (in_range 194 223 b0) eqn:R1.
  { apply in_range_iff in R1. destruct t as [|b1 t1]; [discriminate|].
    destruct (is_cont b1) eqn:C1; [|discriminate]. apply in_range_iff in C1.
    destruct (utf8_decode t1) as [u|] eqn:E; [|discriminate]. injection H as <-.
    set (c := (b0 - 192) * 64 + (b1 - 128)).
    cbn [List.length] in Hl.
    destruct (step c u t1 E ltac:(lia)) as [S1 S2].
    { unfold scalar_value, c. rewrite (proj2 (N.ltb_lt _ _)), (proj2 (in_range_false _ _ _)) by lia. reflexivity. }
    split; [|exact S2]. rewrite <- S1. unfold utf8_encode1.
    rewrite (proj2 (N.ltb_ge _ _)), (proj2 (N.ltb_lt _ _)) by (unfold c; lia).
    cbn [app]. f_equal; [unfold c; lia|]. f_equal. unfold c; lia. }
  apply in_range_false in R1.
  destruct (in_range 224 239 b0) eqn:R2.
  { apply in_range_iff in R2. destruct t as [|b1 [|b2 t2]]; [discriminate..|].
    cbv zeta in H.
    destruct (in_range _ _ b1) eqn:C1; [|discriminate].
    destruct (is_cont b2) eqn:C2; [|discriminate].
    apply in_range_iff in C1, C2. cbn [andb] in H.
    destruct (utf8_decode t2) as [u|] eqn:E; [|discriminate]. injection H as <-.
    set (c := (b0 - 224) * 4096 + (b1 - 128) * 64 + (b2 - 128)).
    cbn [List.length] in Hl.
    destruct (N.eqb_spec b0 224), (N.eqb_spec b0 237); try lia;
    (destruct (step c u t2 E ltac:(lia)) as [S1 S2];
     [ unfold scalar_value, c; rewrite (proj2 (N.ltb_lt _ _)), (proj2 (in_range_false _ _ _)) by lia; reflexivity
     | split; [|exact S2]; rewrite <- S1; unfold utf8_encode1;
       rewrite (proj2 (N.ltb_ge c 128)), (proj2 (N.ltb_ge c 2048)), (proj2 (N.ltb_lt c 65536))
         by (unfold c; lia);
       cbn [app]; f_equal; [unfold c; lia|f_equal; [unfold c; lia|f_equal; unfold c; lia]] ]). }
  apply in_range_false in R2.
  destruct (in_range 240 244 b0) eqn:R3; [|discriminate].
  apply in_range_iff in R3. destruct t as [|b1 [|b2 [|b3 t3]]]; [discriminate..|].
  cbv zeta in H.
  destruct (in_range _ _ b1) eqn:C1; [|discriminate].
  destruct (is_cont b2) eqn:C2; [|discriminate].
  destruct (is_cont b3) eqn:C3; [|discriminate].
  apply in_range_iff in C1, C2, C3. cbn [andb] in H.
  destruct (utf8_decode t3) as [u|] eqn:E; [|discriminate]. injection H as <-.
  set (c := (b0 - 240) * 262144 + (b1 - 128) * 4096 + (b2 - 128) * 64 + (b3 - 128)).
  cbn [List.length] in Hl.
  destruct (N.eqb_spec b0 240), (N.eqb_spec b0 244); try lia;
  (destruct (step c u t3 E ltac:(lia)) as [S1 S2];
   [ unfold scalar_value, c; rewrite (proj2 (N.ltb_lt _ _)), (proj2 (in_range_false _ _ _)) by lia; reflexivity
   | split; [|exact S2]; rewrite <- S1; unfold utf8_encode1;
     rewrite (proj2 (N.ltb_ge c 128)), (proj2 (N.ltb_ge c 2048)), (proj2 (N.ltb_ge c 65536))
       by (unfold c; lia);
     cbn [app]; f_equal; [unfold c; lia|f_equal; [unfold c; lia|f_equal; [unfold c; lia|f_equal; unfold c; lia]]] ]).
Qed.
Lemma utf8_sound b s : utf8_decode b = Some s -> b = utf8_encode s /\ forallb scalar_value s = true.
Proof. apply (utf8_sound_aux (S (List.length b))). lia. Qed.
End Utf8.
