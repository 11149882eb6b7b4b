From Coq Require Import Lia.
From Coq Require Import ZifyBool ZifyNat ZifyN.
From Coq Require Import Permutation Sorted.
From Verif Require Import PyBase PyBaseFacts NumSpec IdModel IdSpec LineModel DateModel RefModel RefSpec
  TreeModel TreeSpec TreeProofs TreeProofs2 TreeProofs3 SemModel SemSpec SemProofs SemProofs2.
Local Open Scope Z_scope.

(** * Running again over partly parsed elements *)


Lemma length_metas_bare e e' : bare e = bare e' -> List.length (metas e) = List.length (metas e').
Proof. intros H. unfold metas. rewrite !map_length, <- (carriers_bare e), H, carriers_bare. reflexivity. Qed.

Lemma app_inj_length {A} (a b c d : list A) : List.length a = List.length c -> a ++ b = c ++ d -> a = c /\ b = d.
Proof.
  revert c. induction a as [|x a IH]; intros [|y c] L E; try discriminate; [auto|].
  cbn in L, E. injection E as -> E. destruct (IH c) as [-> ->]; [lia|exact E|auto].
Qed.
Lemma Forall2_app_length {A B} (R : A -> B -> Prop) a b c d : List.length a = List.length c ->
  Forall2 R (a ++ b) (c ++ d) -> Forall2 R a c /\ Forall2 R b d.
Proof.
  revert c. induction a as [|x a IH]; intros [|y c] L H; try discriminate; [auto|].
  cbn in L, H. inversion H; subst. destruct (IH c) as [H1 H2]; [lia|assumption|auto].
Qed.

(* an element is made of its bare form and its metas *)
Lemma bare_metas_inj e : forall e', bare e = bare e' -> metas e = metas e' -> e = e'.
Proof.
  induction e as [e IH] using sae_induct. intros e' B M.
  assert (Ek : s_kind e' = s_kind e) by (rewrite <- (bare_kind e'), <- B; apply bare_kind).
  destruct (can_be_semantic_parsed (s_kind e)) eqn:K.
  2:{ rewrite !bare_container in B by congruence. exact B. }
  assert (K' : can_be_semantic_parsed (s_kind e') = true) by congruence.
  rewrite (bare_eq e), (bare_eq e') in B by assumption. rewrite (metas_eq e), (metas_eq e') in M by assumption.
  destruct e as [k i t n cs w m], e' as [k' i' t' n' cs' w' m']. cbn [s_kind s_identifier s_text s_intro s_children s_wrap_up s_meta] in *.
  injection B as -> -> -> -> Ec ->. injection M as -> Em. f_equal.
  destruct cs as [l|], cs' as [l'|]; try discriminate; [|reflexivity]. injection Ec as Ec. f_equal.
  assert (IH' : forall x, In (ChSae x) l -> forall e', bare x = bare e' -> metas x = metas e' -> x = e') by eauto.
  clear - IH' Ec Em. revert l' Ec Em. induction l as [|c l IHl]; intros [|c' l'] Ec Em; try discriminate; [reflexivity|].
  cbn [map] in Ec. injection Ec as E1 E2. rewrite !child_metas_cons in Em.
  assert (H : c = c' /\ child_metas l = child_metas l').
  { destruct c as [s| | |], c' as [s'| | |]; try discriminate; cbn [bare_ch] in E1; try (split; [exact E1|exact Em]).
    injection E1 as E1. apply app_inj_length in Em as [Em1 Em2]; [|now apply length_metas_bare].
    split; [|exact Em2]. f_equal. eapply IH'; eauto. now left. }
  destruct H as [-> H]. f_equal. apply IHl; auto. intros x Hx. apply IH'. now right.
Qed.

(* the abbreviations that were introduced *)
Fixpoint abbreviations_in (ms : list sae_meta) : res (list act_id_abbreviation) :=
  match ms with
  | [] => Ok []
  | m :: t => match m_abbreviations m with
              | None => Err AssertionError
              | Some x => y <- abbreviations_in t ;; Ok (x ++ y)
              end
  end.
Lemma abbreviations_in_app a b x y : abbreviations_in a = Ok x -> abbreviations_in b = Ok y ->
  abbreviations_in (a ++ b) = Ok (x ++ y).
Proof.
  revert x. induction a as [|m a IH]; intros x H1 H2; cbn [abbreviations_in app] in *.
  - injection H1 as <-. exact H2.
  - destruct (m_abbreviations m); [|discriminate]. apply bind_ok in H1 as (z & H1 & E). injection E as <-.
    rewrite (IH _ H1 H2). cbn [bind]. now rewrite app_assoc.
Qed.
Lemma abbreviations_in_app_inv a b z : abbreviations_in (a ++ b) = Ok z ->
  exists x y, abbreviations_in a = Ok x /\ abbreviations_in b = Ok y /\ z = x ++ y.
Proof.
  revert z. induction a as [|m a IH]; intros z H; cbn [abbreviations_in app] in *.
  - exists [], z. auto.
  - destruct (m_abbreviations m); [|discriminate]. apply bind_ok in H as (u & H1 & E). injection E as <-.
    apply IH in H1 as (x & y & -> & -> & ->). cbn [bind]. eexists _, y. split; [reflexivity|]. split; [reflexivity|].
    now rewrite app_assoc.
Qed.
Lemma existing_metas e l : abbreviations_in (metas e) = Ok l -> existing_abbreviations e = Ok l.
Proof.
  revert l. induction e as [e IH] using sae_induct. intros l. rewrite existing_eq.
  destruct (can_be_semantic_parsed (s_kind e)) eqn:K; cbn [negb].
  - rewrite metas_eq by exact K. cbn [abbreviations_in]. destruct (m_abbreviations (s_meta e)) as [own|]; [|discriminate].
    destruct (s_children e) as [cs|] eqn:Ec.
    + intros H. apply bind_ok in H as (r & R & H). injection H as <-.
      assert (G : existing_children cs = Ok r).
      { assert (IH' : forall x, In (ChSae x) cs -> forall l, abbreviations_in (metas x) = Ok l -> existing_abbreviations x = Ok l)
          by (intros x Hx; eapply IH; eauto). clear - IH' R.
        revert r R. induction cs as [|c cs IHc]; intros r R; [exact R|].
        rewrite child_metas_cons in R. apply abbreviations_in_app_inv in R as (x & y & X & Y & ->).
        assert (G : existing_children cs = Ok y) by (apply IHc; [intros z Hz; apply IH'; now right|exact Y]).
        destruct c as [s| | |]; cbn [existing_children]; try (injection X as <-; exact G).
        rewrite (IH' s (or_introl eq_refl) x X), G. reflexivity. }
      rewrite G. reflexivity.
    + cbn [abbreviations_in bind]. now rewrite app_nil_r.
  - rewrite metas_container by exact K. exact (fun H => H).
Qed.
Lemma stored_all_introduced an known rds ms after : stored_all an known rds ms after ->
  exists l, abbreviations_in ms = Ok l /\ after = known ++ l.
Proof.
  induction 1 as [known|known rd m ab rds ms after S A _ (l & L & E)].
  - exists []. now rewrite app_nil_r.
  - exists (ab ++ l). cbn [abbreviations_in]. rewrite A, L. split; [reflexivity|]. now rewrite E, app_assoc.
Qed.

(* in an element marked as parsed, everything that can carry semantic data does *)
Lemma parsed_metas e : built_sae e -> can_be_semantic_parsed (s_kind e) = true -> is_semantic_parsed e = true ->
  Forall (fun m => m_semantic m <> None) (metas e).
Proof.
  induction e as [e IH] using sae_induct. intros B K P. rewrite metas_eq by exact K. rewrite is_parsed_eq in P.
  destruct (m_semantic (s_meta e)) as [sd|] eqn:S; [|discriminate]. constructor; [congruence|].
  destruct (s_children e) as [cs|] eqn:Ec; [|constructor].
  destruct (built_local e B) as [W Bc].
  assert (HS : (exists s, In (ChSae s) cs) -> forall c, In c cs -> exists s, c = ChSae s).
  { intros (s & Hs) c Hc. assert (Kn : s_kind e <> KBlockAmendmentContainer) by (intros E; rewrite E in K; discriminate).
    pose proof (wf_one_kind _ W Kn cs c (ChSae s) Ec Hc Hs) as H. destruct c; cbn in H; try discriminate. eauto. }
  assert (G : forall l, (forall c, In c l -> In c cs) -> all_parsed l = true -> Forall (fun m => m_semantic m <> None) (child_metas l)).
  { induction l as [|c l IHl]; intros Hl Pl; [constructor|]. rewrite child_metas_cons. apply Forall_app.
    destruct c as [s| | |]; cbn [all_parsed] in Pl.
    - destruct (can_be_semantic_parsed (s_kind s)) eqn:Ks; cbn [andb] in Pl.
      + destruct (is_semantic_parsed s) eqn:Ps; [|discriminate]. cbn [negb] in Pl. split.
        * eapply IH; eauto; [apply Hl; now left|]. specialize (Bc cs (ChSae s) Ec (Hl _ (or_introl eq_refl))). now inversion Bc.
        * apply IHl; auto. intros c Hc. apply Hl. now right.
      + split; [rewrite metas_container by exact Ks; constructor|]. apply IHl; auto. intros c Hc. apply Hl. now right.
    - split; [constructor|]. replace (child_metas l) with (@nil sae_meta); [constructor|]. symmetry.
      clear -HS Hl. assert (Hl' : forall c, In c l -> In c cs) by (intros c Hc; apply Hl; now right).
      induction l as [|d l IHl]; [reflexivity|]. rewrite child_metas_cons. destruct d as [s| | |].
      + exfalso. destruct (HS (ex_intro _ s (Hl' _ (or_introl eq_refl))) (ChArticle a)) as (z & E); [apply Hl; now left|discriminate].
      + apply IHl; intros c Hc; [apply Hl|apply Hl']; cbn in *; tauto.
      + apply IHl; intros c Hc; [apply Hl|apply Hl']; cbn in *; tauto.
      + apply IHl; intros c Hc; [apply Hl|apply Hl']; cbn in *; tauto.
    - split; [constructor|]. replace (child_metas l) with (@nil sae_meta); [constructor|]. symmetry.
      clear -HS Hl. assert (Hl' : forall c, In c l -> In c cs) by (intros c Hc; apply Hl; now right).
      induction l as [|d l IHl]; [reflexivity|]. rewrite child_metas_cons. destruct d as [s| | |].
      + exfalso. destruct (HS (ex_intro _ s (Hl' _ (or_introl eq_refl))) (ChQuoted lines)) as (z & E); [apply Hl; now left|discriminate].
      + apply IHl; intros c Hc; [apply Hl|apply Hl']; cbn in *; tauto.
      + apply IHl; intros c Hc; [apply Hl|apply Hl']; cbn in *; tauto.
      + apply IHl; intros c Hc; [apply Hl|apply Hl']; cbn in *; tauto.
    - split; [constructor|]. replace (child_metas l) with (@nil sae_meta); [constructor|]. symmetry.
      clear -HS Hl. assert (Hl' : forall c, In c l -> In c cs) by (intros c Hc; apply Hl; now right).
      induction l as [|d l IHl]; [reflexivity|]. rewrite child_metas_cons. destruct d as [s| | |].
      + exfalso. destruct (HS (ex_intro _ s (Hl' _ (or_introl eq_refl))) (ChStruct e0)) as (z & E); [apply Hl; now left|discriminate].
      + apply IHl; intros c Hc; [apply Hl|apply Hl']; cbn in *; tauto.
      + apply IHl; intros c Hc; [apply Hl|apply Hl']; cbn in *; tauto.
      + apply IHl; intros c Hc; [apply Hl|apply Hl']; cbn in *; tauto. }
  apply G; auto.
Qed.

Lemma parse_text_flag an s p q ab c m st1 : parse_text an s p q (mk_state ab c) = Ok (m, st1) ->
  forall c2, exists c', parse_text an s p q (mk_state ab c2) = Ok (m, mk_state (st_abbreviations st1) c').
Proof.
  unfold parse_text. intros H c2. apply bind_ok in H as (t & T & H). rewrite T. cbn [bind].
  destruct (10000 <? _); [injection H as <- <-; eexists; reflexivity|].
  destruct (negb _); [injection H as <- <-; eexists; reflexivity|]. cbn [st_abbreviations] in *.
  apply bind_ok in H as (a & A & H). rewrite A. cbn [bind].
  destruct (an_abbreviations a) as [|x l] eqn:E; cbn [st_abbreviations] in *;
    apply bind_ok in H as (refs & R & H); injection H as <- <-; rewrite R; eexists; reflexivity.
Qed.

Lemma older_all ms1 ms : Forall (fun m => m_semantic m <> None) ms -> Forall2 older_meta ms1 ms -> ms = ms1.
Proof.
  intros F H. induction H as [|m1 m l1 l [E|E] _ IH]; [reflexivity| |]; apply Forall_cons_iff in F as [F1 F2].
  - contradiction.
  - f_equal; auto.
Qed.

Lemma fresh_not_kept c e ab : c = true \/ unparsed e -> can_be_semantic_parsed (s_kind e) = true ->
  negb (st_changed (mk_state ab c)) && is_semantic_parsed e = false.
Proof.
  intros [->|F] K; [reflexivity|]. unfold unparsed in F. rewrite carriers_eq in F by exact K.
  apply Forall_cons_iff in F as [F _]. rewrite is_parsed_eq, F. apply andb_false_r.
Qed.

(* The result of a run from scratch is also the result of a run over any element with the same
   text some of whose metas are from that result. *)
Lemma rerun an e : forall p q ab c e1 st1, c = true \/ unparsed e ->
  add_semantics_to_sae an e p q (mk_state ab c) = Ok (e1, st1) ->
  forall e2 c2, bare e2 = bare e -> Forall2 older_meta (metas e1) (metas e2) -> built_sae e2 ->
  exists c', add_semantics_to_sae an e2 p q (mk_state ab c2) = Ok (e1, mk_state (st_abbreviations st1) c').
Proof.
  induction e as [e IH] using sae_induct. intros p q ab c e1 st1 F H e2 c2 B O W.
  pose proof (add_sae_keeps _ _ _ _ _ _ _ H) as [B1 P1].
  assert (Ek : s_kind e2 = s_kind e) by (rewrite <- (bare_kind e2), B; apply bare_kind).
  pose proof H as H0. rewrite add_sae_eq in H.
  destruct (can_be_semantic_parsed (s_kind e)) eqn:K.
  2:{ rewrite !bare_container in B by congruence. subst e2. cbn [negb] in H.
      rewrite add_sae_eq, K. cbn [negb]. rewrite existing_eq, K in *. cbn [negb bind st_changed add_to_state st_abbreviations] in *.
      assert (e1 = e /\ st_abbreviations st1 = ab) as [-> ->].
      { destruct (negb c && is_semantic_parsed e); injection H as <- <-; cbn; rewrite ?app_nil_r; auto. }
      destruct (negb c2 && is_semantic_parsed e); eexists; unfold add_to_state; cbn; rewrite ?app_nil_r; reflexivity. }
  rewrite (fresh_not_kept c e ab F K) in H. cbn [negb] in H.
  rewrite add_sae_eq, Ek, K. cbn [negb].
  destruct (negb (st_changed (mk_state ab c2)) && is_semantic_parsed e2) eqn:Pk.
  { apply andb_true_iff in Pk as [_ Pk]. assert (E : e2 = e1).
    { apply bare_metas_inj; [congruence|]. apply older_all; [|exact O]. apply parsed_metas; auto. congruence. }
    subst e2. pose proof (add_sae_stored an e p q (mk_state ab c) _ _ F H0) as S. apply stored_all_introduced in S as (l & L & E).
    rewrite (existing_metas _ _ L). cbn [bind]. exists c2. unfold add_to_state. cbn [st_abbreviations st_changed] in *. now rewrite E. }
  pose proof (reparse_inv _ _ _ _ _ _ _ H) as (m & st2 & cs & E1 & W1 & M1 & R).
  assert (K2 : can_be_semantic_parsed (s_kind e2) = true) by congruence.
  assert (K1 : can_be_semantic_parsed (s_kind e1) = true) by (rewrite E1; exact K).
  rewrite (bare_eq e2), (bare_eq e) in B by assumption. injection B as _ Ei Et En Ec Ew.
  unfold reparse. rewrite Ek, Ei, Et, En, Ew.
  destruct (s_text e) as [t|] eqn:T.
  - destruct R as (R & -> & R1 & R2). destruct (parse_text_flag _ _ _ _ _ _ _ _ R c2) as (c' & R').
    rewrite R'. cbn [bind]. rewrite <- R1, R2 in Ec. destruct (s_children e2); [discriminate|].
    rewrite R2 in E1. rewrite (proj2 (new_sae_ok _ _ _ _ _ _ _ _) (conj E1 W1)). cbn [bind]. eauto.
  - destruct R as (R & l & l' & El & -> & A). rewrite El in Ec. destruct (s_children e2) as [l2|] eqn:El2; [|discriminate].
    injection Ec as Ec.
    assert (R' : exists c', match s_intro e with
                            | Some intro => parse_text an intro p [] (mk_state ab c2)
                            | None => Ok (EMPTY_META, mk_state ab c2)
                            end = Ok (m, mk_state (st_abbreviations st2) c')).
    { destruct (s_intro e) as [n|]; [eapply parse_text_flag; exact R|]. injection R as <- <-. eexists; reflexivity. }
    destruct R' as (c3 & R'). rewrite R'. cbn [bind].
    assert (F2 : st_changed st2 = true \/ Forall (fun x => m_semantic (s_meta x) = None) (child_carriers l)).
    { destruct F as [->|F].
      - left. destruct (s_intro e) as [n|]; [eapply parse_text_changed; eauto|injection R as <- <-; reflexivity].
      - right. unfold unparsed in F. rewrite carriers_eq, El in F by exact K. now apply Forall_cons_iff in F as [_ F]. }
    assert (O2 : Forall2 older_meta (child_metas l') (child_metas l2)).
    { rewrite (metas_eq e1), (metas_eq e2), El2, E1 in O by assumption. cbn [s_children s_meta] in O. now inversion O. }
    assert (W2 : forall x, In (ChSae x) l2 -> built_sae x).
    { intros x Hx. destruct (built_local e2 W) as [_ Bc]. specialize (Bc l2 (ChSae x) El2 Hx). now inversion Bc. }
    assert (A2 : exists c', add_children an l2 (inner_prefix p (s_intro e)) (inner_postfix q (s_wrap_up e))
                   (mk_state (st_abbreviations st2) c3) = Ok (l', mk_state (st_abbreviations st1) c')).
    { assert (IH' : forall x, In (ChSae x) l -> forall p q ab c e1 st1, c = true \/ unparsed x ->
         add_semantics_to_sae an x p q (mk_state ab c) = Ok (e1, st1) ->
         forall e2 c2, bare e2 = bare x -> Forall2 older_meta (metas e1) (metas e2) -> built_sae e2 ->
         exists c', add_semantics_to_sae an e2 p q (mk_state ab c2) = Ok (e1, mk_state (st_abbreviations st1) c')).
      { intros x Hx. exact (IH l x El Hx). }
      clear - IH' A F2 O2 W2 Ec. revert A. generalize (inner_prefix p (s_intro e)) (inner_postfix q (s_wrap_up e)).
      intros p' q' A. revert st2 c3 l' st1 l2 A F2 O2 W2 Ec.
      induction l as [|c l IHl]; intros st2 c3 l' st1 l2 A F2 O2 W2 Ec; apply add_children_inv in A.
      - destruct A as [-> ->]. destruct l2; [|discriminate]. eexists; reflexivity.
      - destruct l2 as [|d l2]; [discriminate|]. cbn [map] in Ec. injection Ec as Ec1 Ec2.
        assert (IH2 : forall x, In (ChSae x) l -> forall p q ab c e1 st1, c = true \/ unparsed x ->
         add_semantics_to_sae an x p q (mk_state ab c) = Ok (e1, st1) ->
         forall e2 c2, bare e2 = bare x -> Forall2 older_meta (metas e1) (metas e2) -> built_sae e2 ->
         exists c', add_semantics_to_sae an e2 p q (mk_state ab c2) = Ok (e1, mk_state (st_abbreviations st1) c'))
          by (intros x Hx; apply IH'; now right). specialize (IHl IH2). clear IH2.
        assert (W3 : forall x, In (ChSae x) l2 -> built_sae x) by (intros x Hx; apply W2; now right).
        cbn [child_carriers flat_map] in F2. fold (child_carriers l) in F2. rewrite Forall_app in F2.
        destruct c as [s| | |], d as [s'| | |]; try discriminate; cbn [bare_ch] in Ec1.
        2-4: destruct A as (t' & A & ->); rewrite !child_metas_cons in O2; cbn [app] in O2;
             destruct (IHl st2 c3 t' st1 l2 A ltac:(tauto) O2 W3 Ec2) as (c' & E); cbn [add_children];
             rewrite E; injection Ec1 as ->; eexists; reflexivity.
        injection Ec1 as Ec1. destruct A as (s1 & st3 & t' & A1 & A2 & ->). rewrite !child_metas_cons in O2.
        pose proof (add_sae_keeps _ _ _ _ _ _ _ A1) as [Bs _].
        apply Forall2_app_length in O2 as [Oa Ob]; [|apply length_metas_bare; congruence].
        destruct st2 as [ab2 cf2]. cbn [st_changed st_abbreviations] in *.
        assert (Fs : cf2 = true \/ unparsed s) by (unfold unparsed; tauto).
        destruct (IH' s (or_introl eq_refl) _ _ _ _ _ _ Fs A1 s' c3 Ec1 Oa (W2 _ (or_introl eq_refl))) as (c4 & E4).
        cbn [add_children]. rewrite E4. cbn [bind].
        assert (F3 : st_changed st3 = true \/ Forall (fun x => m_semantic (s_meta x) = None) (child_carriers l)).
        { destruct F2 as [F2|F2]; [|tauto]. left. eapply changed_stays; [exact A1|exact F2]. }
        destruct (IHl st3 c4 t' st1 l2 A2 F3 Ob W3 Ec2) as (c5 & E5). rewrite E5. eexists; reflexivity. }
    destruct A2 as (c4 & A2). rewrite A2. cbn [bind].
    rewrite (proj2 (new_sae_ok _ _ _ _ _ _ _ _) (conj E1 W1)). cbn [bind]. eauto.
Qed.
