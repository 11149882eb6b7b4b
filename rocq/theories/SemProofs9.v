From Coq Require Import Lia.
From Coq Require Import ZifyBool ZifyNat ZifyN.
From Verif Require Import PyBase PyBaseFacts NumSpec IdModel IdSpec LineModel DateModel RefModel RefSpec
  TreeModel TreeSpec TreeProofs TreeProofs2 TreeProofs3 SemModel SemSpec SemProofs SemProofs2 SemProofs3 SemProofs4 SemProofs5.
Local Open Scope Z_scope.

(** * After a change, existing semantic data has no influence *)

Lemma changed_bare an e : forall e' p q st r st', st_changed st = true -> bare e = bare e' ->
  add_semantics_to_sae an e p q st = Ok (r, st') -> add_semantics_to_sae an e' p q st = Ok (r, st').
Proof.
  induction e as [e IH] using sae_induct. intros e' p q st r st' C B H. rewrite add_sae_eq, C in *. cbn [negb andb] in *.
  assert (Ek : s_kind e' = s_kind e) by (rewrite <- (bare_kind e'), <- B; apply bare_kind). rewrite Ek.
  destruct (can_be_semantic_parsed (s_kind e)) eqn:K; cbn [negb] in *.
  2:{ rewrite (bare_container e K), (bare_container e') in B by congruence. now subst. }
  rewrite (bare_eq e), (bare_eq e') in B by congruence. injection B as _ Ei Et En Ec Ew.
  pose proof (reparse_inv _ _ _ _ _ _ _ H) as (m & st1 & cs & E & _ & _ & R). unfold reparse in *.
  rewrite <- Et, <- En, <- Ew, <- Ei, Ek. destruct (s_text e) as [t|].
  - destruct R as (_ & _ & R1 & R2). rewrite <- R1, R2 in H, Ec. destruct (s_children e'); [discriminate|]. exact H.
  - destruct (s_children e) as [l|]; [|destruct R as (_ & ? & ? & R & _); discriminate].
    destruct (s_children e') as [l'|]; [|discriminate]. injection Ec as Ec.
    apply bind_ok in H as ([m1 st2] & P & H). rewrite P. cbn [bind].
    assert (C2 : st_changed st2 = true).
    { destruct (s_intro e); [eapply parse_text_changed; eauto|]. injection P as <- <-. exact C. }
    apply bind_ok in H as ([l1 st3] & A & H).
    assert (G : add_children an l' (inner_prefix p (s_intro e)) (inner_postfix q (s_wrap_up e)) st2 = Ok (l1, st3)).
    { assert (IH' : forall x, In (ChSae x) l -> forall e' p q st r st', st_changed st = true -> bare x = bare e' ->
        add_semantics_to_sae an x p q st = Ok (r, st') -> add_semantics_to_sae an e' p q st = Ok (r, st')) by eauto.
      clear - IH' A C2 Ec. revert A. generalize (inner_prefix p (s_intro e)) (inner_postfix q (s_wrap_up e)). intros p' q' A.
      revert l' Ec st2 l1 st3 C2 A. induction l as [|c l IHl]; intros [|d l'] Ec st2 l1 st3 C2 A; try discriminate; [exact A|].
      cbn [map] in Ec. injection Ec as Ed Ec. apply add_children_inv in A.
      assert (IHl' : forall l', map bare_ch l = map bare_ch l' -> forall st2 l1 st3, st_changed st2 = true ->
        add_children an l p' q' st2 = Ok (l1, st3) -> add_children an l' p' q' st2 = Ok (l1, st3)).
      { intros l'' E'' s2 x s3 D. apply IHl; auto. intros y Hy. apply IH'. now right. }
      destruct c; destruct d; cbn [bare_ch] in Ed; try discriminate; cbn [add_children];
        try (destruct A as (t' & A & ->); injection Ed as <-; rewrite (IHl' l' Ec _ _ _ C2 A); reflexivity).
      destruct A as (c' & s1 & t' & A1 & A2 & ->). injection Ed as Ed.
      rewrite (IH' _ (or_introl eq_refl) _ _ _ _ _ _ C2 Ed A1). cbn [bind].
      rewrite (IHl' l' Ec _ _ _ (changed_stays _ _ _ _ _ _ _ A1 C2) A2). reflexivity. }
    rewrite G. exact H.
Qed.

Lemma changed_bare_list an ps : forall ps' st r st', st_changed st = true -> map bare ps = map bare ps' ->
  add_semantics_to_paragraphs an ps st = Ok (r, st') -> add_semantics_to_paragraphs an ps' st = Ok (r, st').
Proof.
  induction ps as [|p ps IH]; intros [|p' ps'] st r st' C B H; try discriminate; [exact H|]. injection B as B1 B2.
  apply add_paragraphs_inv in H as (x & s1 & t & H1 & H2 & ->). cbn [add_semantics_to_paragraphs].
  rewrite (changed_bare _ _ _ _ _ _ _ _ C B1 H1). cbn [bind].
  rewrite (IH _ _ _ _ (changed_stays _ _ _ _ _ _ _ H1 C) B2 H2). reflexivity.
Qed.
Lemma changed_bare_children an l : forall l' st r st', st_changed st = true -> map bare_child l = map bare_child l' ->
  add_semantics_to_children an l st = Ok (r, st') -> add_semantics_to_children an l' st = Ok (r, st').
Proof.
  induction l as [|c l IH]; intros [|c' l'] st r st' C B H; try discriminate; [exact H|]. injection B as B1 B2.
  apply add_act_children_inv in H. destruct c as [e|a], c' as [e'|a']; try discriminate; cbn [add_semantics_to_children].
  - destruct H as (t & H & ->). cbn in B1. injection B1 as <-. rewrite (IH _ _ _ _ C B2 H). reflexivity.
  - destruct H as (x & s1 & t & H1 & H2 & ->). cbn in B1. unfold bare_article in B1. injection B1 as Ei Et Ep.
    unfold add_semantics_to_article in *. rewrite C in *. cbn [negb andb] in *.
    apply bind_ok in H1 as ([ps s2] & A & H1). rewrite (changed_bare_list _ _ _ _ _ _ C Ep A). cbn [bind].
    rewrite <- Ei, <- Et. apply bind_ok in H1 as (y & N & H1). rewrite N. cbn [bind]. injection H1 as -> ->.
    rewrite (IH _ _ _ _ (add_paragraphs_changed _ _ _ _ _ A C) B2 H2). reflexivity.
Qed.

(** * What sets the flag *)

(* a meta that was missing and is now one that introduces nothing *)
Definition quiet (m m' : sae_meta) : Prop := m_semantic m = None -> m_abbreviations m' = Some [].

Lemma parse_text_quiet an s p q st m st' : parse_text an s p q st = Ok (m, st') -> st_changed st' = false ->
  m_abbreviations m = Some [] /\ st_changed st = false.
Proof.
  unfold parse_text. intros H C. apply bind_ok in H as (t & T & H).
  destruct (10000 <? _); [injection H as <- <-; auto|]. destruct (negb _); [injection H as <- <-; auto|].
  apply bind_ok in H as (a & A & H). apply bind_ok in H as (refs & R & H). injection H as <- <-. cbn [m_abbreviations].
  destruct (an_abbreviations a); [auto|discriminate].
Qed.
Lemma quiet_refl ms : Forall (fun m => m_semantic m <> None) ms -> Forall2 quiet ms ms.
Proof. induction 1 as [|m ms H _ IH]; constructor; [|exact IH]. intros E. contradiction. Qed.

Lemma unchanged_quiet an e : built_sae e -> forall p q st r st', add_semantics_to_sae an e p q st = Ok (r, st') ->
  st_changed st' = false -> Forall2 quiet (metas e) (metas r).
Proof.
  induction e as [e IH] using sae_induct. intros B p q st r st' H C.
  destruct (can_be_semantic_parsed (s_kind e)) eqn:K.
  2:{ assert (Er : can_be_semantic_parsed (s_kind r) = false).
      { apply add_sae_keeps in H as [E _]. rewrite <- (bare_kind r), E, bare_kind. exact K. }
      rewrite !metas_container by assumption. constructor. }
  rewrite add_sae_eq in H. destruct (negb (st_changed st) && is_semantic_parsed e) eqn:P.
  { apply bind_ok in H as (l & _ & H). injection H as <- <-. apply quiet_refl. apply andb_true_iff in P as [_ P]. now apply parsed_metas. }
  rewrite K in H. cbn [negb] in H. apply reparse_inv in H as (m & st1 & cs & -> & W & M & H).
  rewrite !metas_eq by exact K. cbn [s_meta s_children]. destruct (s_text e) as [t|].
  - destruct H as (H & -> & E1 & E2). rewrite <- E1, E2. constructor; [|constructor].
    intros _. now apply parse_text_quiet in H.
  - destruct H as (H & l & l' & El & -> & A). rewrite El.
    assert (Bc : forall x, In (ChSae x) l -> built_sae x).
    { destruct (built_local e B) as [_ Bc]. intros x Hx. specialize (Bc l (ChSae x) El Hx). now inversion Bc. }
    assert (IH' : forall x, In (ChSae x) l -> forall p q st r st', add_semantics_to_sae an x p q st = Ok (r, st') ->
       st_changed st' = false -> Forall2 quiet (metas x) (metas r)) by (intros x Hx; exact (IH l x El Hx (Bc x Hx))).
    assert (G : st_changed st1 = false /\ Forall2 quiet (child_metas l) (child_metas l')).
    { clear - IH' A C. revert A. generalize (inner_prefix p (s_intro e)) (inner_postfix q (s_wrap_up e)). intros p' q' A.
      revert st1 l' A. induction l as [|c l IHl]; intros st1 l' A; apply add_children_inv in A.
      - destruct A as [-> ->]. split; [exact C|constructor].
      - assert (IHl' : forall st1 l', add_children an l p' q' st1 = Ok (l', st') -> st_changed st1 = false /\ Forall2 quiet (child_metas l) (child_metas l')).
        { apply IHl. intros x Hx. apply IH'. now right. }
        rewrite child_metas_cons. destruct c;
          try (destruct A as (t' & A & ->); rewrite child_metas_cons; apply IHl' in A as [A1 A2]; split; [exact A1|exact A2]).
        destruct A as (c' & s1 & t' & A1 & A2 & ->). rewrite child_metas_cons. apply IHl' in A2 as [A2 A3]. split.
        + destruct (st_changed st1) eqn:D; [|reflexivity]. rewrite <- A2. symmetry. eapply changed_stays; eauto.
        + apply Forall2_app; [|exact A3]. eapply IH'; eauto. now left. }
    destruct G as [G1 G2]. constructor; [|exact G2]. intros _. destruct (s_intro e).
    + now apply parse_text_quiet in H.
    + injection H as <- <-. reflexivity.
Qed.

Lemma unchanged_back an e p q st r st' : add_semantics_to_sae an e p q st = Ok (r, st') -> st_changed st' = false -> st_changed st = false.
Proof. intros H C. destruct (st_changed st) eqn:D; [|reflexivity]. rewrite <- C. symmetry. eapply changed_stays; eauto. Qed.

Lemma unchanged_quiet_list an ps : Forall built_sae ps -> forall st r st', add_semantics_to_paragraphs an ps st = Ok (r, st') ->
  st_changed st' = false -> st_changed st = false /\ Forall2 quiet (list_metas ps) (list_metas r).
Proof.
  induction ps as [|p ps IH]; intros B st r st' H C; apply add_paragraphs_inv in H.
  - destruct H as [-> ->]. split; [exact C|constructor].
  - destruct H as (x & s1 & t & H1 & H2 & ->). apply Forall_cons_iff in B as [B1 B2]. apply IH in H2 as [D H2]; auto.
    rewrite !list_metas_cons. split; [eapply unchanged_back; eauto|]. apply Forall2_app; [|exact H2].
    eapply unchanged_quiet; eauto.
Qed.
Lemma unchanged_quiet_children an l : (forall x, In (AArticle x) l -> built_article x /\ paragraphs_only x) ->
  forall st r st', add_semantics_to_children an l st = Ok (r, st') ->
  st_changed st' = false -> st_changed st = false /\ Forall2 quiet (metas_in l) (metas_in r).
Proof.
  induction l as [|c l IH]; intros B st r st' H C; apply add_act_children_inv in H.
  - destruct H as [-> ->]. split; [exact C|constructor].
  - assert (IH' : forall st r, add_semantics_to_children an l st = Ok (r, st') -> st_changed st = false /\ Forall2 quiet (metas_in l) (metas_in r)).
    { intros s x Hx. apply (IH (fun y Hy => B y (or_intror Hy)) s x st' Hx C). }
    destruct c as [e|a].
    + destruct H as (t & H & ->). exact (IH' _ _ H).
    + destruct H as (x & s1 & t & H1 & H2 & ->). apply IH' in H2 as [D H2]. rewrite !metas_in_article.
      destruct (B a (or_introl eq_refl)) as [Ba Pa].
      assert (Bp : Forall built_sae (a_paragraphs a)).
      { apply Forall_forall. intros p Hp. destruct (built_article_local a Ba) as [_ Bp]. auto. }
      unfold add_semantics_to_article in H1. destruct (negb (st_changed st) && article_is_semantic_parsed a) eqn:P.
      * apply bind_ok in H1 as (z & _ & H1). injection H1 as <- <-. split; [exact D|]. apply Forall2_app; [|exact H2].
        apply quiet_refl. apply andb_true_iff in P as [_ P]. unfold article_metas.
        apply parsed_list_metas; auto.
      * apply bind_ok in H1 as ([ps s2] & A & H1). apply bind_ok in H1 as (y & N & H1). injection H1 as <- <-.
        apply unchanged_quiet_list in A as [A1 A2]; auto. split; [exact A1|]. apply new_article_ok in N as [-> _].
        apply Forall2_app; [exact A2|exact H2].
Qed.

Lemma Forall2_nth_error {A B} (R : A -> B -> Prop) l m i x y : Forall2 R l m -> nth_error l i = Some x -> nth_error m i = Some y -> R x y.
Proof.
  intros H. revert i. induction H; intros [|i]; cbn; try discriminate; [congruence|apply IHForall2].
Qed.

Lemma act_after_change an a b a' l1 l2 l3 l1' : act_children a = l1 ++ l2 -> act_children b = l1 ++ l3 -> bare_act a = bare_act b ->
  built_act (evolve_act a l1) ->
  add_semantics_to_act an (evolve_act a l1) = Ok (evolve_act a l1') ->
  (exists i x x' y ys, nth_error (carriers_of (evolve_act a l1)) i = Some x /\ nth_error (carriers_of (evolve_act a l1')) i = Some x' /\
     m_semantic (s_meta x) = None /\ m_abbreviations (s_meta x') = Some (y :: ys)) ->
  add_semantics_to_act an a = Ok a' -> add_semantics_to_act an b = Ok a'.
Proof.
  intros Ea Eb EB Bu H1 (i & x & x' & y & ys & N1 & N2 & S & M) H.
  assert (X : forall a l2, act_children a = l1 ++ l2 -> act_is_semantic_parsed a =
    forallb article_is_semantic_parsed (articles_in l1) && forallb article_is_semantic_parsed (articles_in l2)).
  { intros c k E. unfold act_is_semantic_parsed, act_articles. rewrite E. fold (articles_in (l1 ++ k)). now rewrite articles_in_app, forallb_app. }
  unfold add_semantics_to_act in *. rewrite (X a l2 Ea) in H. rewrite (X b l3 Eb).
  change (act_is_semantic_parsed (evolve_act a l1)) with (forallb article_is_semantic_parsed (articles_in l1)) in H1.
  destruct (forallb article_is_semantic_parsed (articles_in l1)) eqn:P; cbn [andb] in *.
  { exfalso. assert (l1' = l1) by (injection H1; congruence). subst l1'.
    assert (F : Forall (fun m => m_semantic m <> None) (map s_meta (carriers_of (evolve_act a l1)))).
    { apply parsed_act_metas; [|exact P]. intros z Hz. now apply Bu. }
    rewrite Forall_forall in F. apply (F (s_meta x)); [|exact S]. apply in_map. eapply nth_error_In; eauto. }
  apply bind_ok in H1 as ([cs st1] & A1 & H1). assert (cs = l1') by (injection H1; congruence). subst cs. cbn [evolve_act act_children] in A1.
  apply bind_ok in H as ([cs st2] & A & H). injection H as <-. rewrite Ea in A.
  apply add_act_children_app in A as (k1 & k2 & st3 & A2 & A3 & ->). rewrite A1 in A2. injection A2 as <- <-.
  assert (C : st_changed st1 = true).
  { destruct (st_changed st1) eqn:D; [reflexivity|exfalso]. apply unchanged_quiet_children in A1 as [_ Q]; [|exact Bu|exact D].
    pose proof (Forall2_nth_error _ _ _ i (s_meta x) (s_meta x') Q) as R.
    assert (R' : quiet (s_meta x) (s_meta x')). { apply R; unfold metas_in; apply map_nth_error; assumption. }
    specialize (R' S). congruence. }
  unfold bare_act in EB. injection EB as E1 E2 E3 E4 E5. rewrite Ea, Eb, !map_app in E5. apply app_inv_head in E5.
  rewrite Eb.
  assert (G : forall l st k s, add_semantics_to_children an l st = Ok (k, s) -> forall m k' s', add_semantics_to_children an m s = Ok (k', s') ->
     add_semantics_to_children an (l ++ m) st = Ok (k ++ k', s')).
  { clear. induction l as [|c l IH]; intros st k s H m k' s' H'; apply add_act_children_inv in H.
    - destruct H as [-> ->]. exact H'.
    - destruct c as [e|x]; cbn [app add_semantics_to_children].
      + destruct H as (t & H & ->). rewrite (IH _ _ _ H _ _ _ H'). reflexivity.
      + destruct H as (y & s1 & t & H1 & H & ->). rewrite H1. cbn [bind]. rewrite (IH _ _ _ H _ _ _ H'). reflexivity. }
  rewrite (G _ _ _ _ A1 _ _ _ (changed_bare_children _ _ _ _ _ _ C E5 A3)). cbn [bind]. unfold evolve_act.
  now rewrite E1, E2, E3, E4.
Qed.
