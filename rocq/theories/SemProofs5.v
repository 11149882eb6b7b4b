From Coq Require Import Lia.
From Coq Require Import ZifyBool ZifyNat ZifyN.
From Coq Require Import Permutation Sorted.
From Verif Require Import PyBase PyBaseFacts NumSpec IdModel IdSpec LineModel DateModel RefModel RefSpec
  TreeModel TreeSpec TreeProofs TreeProofs2 TreeProofs3 SemModel SemSpec SemProofs SemProofs2 SemProofs3 SemProofs4.
Local Open Scope Z_scope.

(** * Running again over a partly parsed act *)

Definition list_metas (ps : list sae) : list sae_meta := map s_meta (flat_map carriers ps).
Lemma list_metas_cons p ps : list_metas (p :: ps) = metas p ++ list_metas ps.
Proof. unfold list_metas. cbn [flat_map]. now rewrite map_app. Qed.

Lemma rerun_paragraphs an ps : forall ab c ps1 st1, c = true \/ unparsed_list ps ->
  add_semantics_to_paragraphs an ps (mk_state ab c) = Ok (ps1, st1) ->
  forall ps2 c2, map bare ps2 = map bare ps -> Forall2 older_meta (list_metas ps1) (list_metas ps2) ->
  Forall built_sae ps2 ->
  exists c', add_semantics_to_paragraphs an ps2 (mk_state ab c2) = Ok (ps1, mk_state (st_abbreviations st1) c').
Proof.
  induction ps as [|p ps IH]; intros ab c ps1 st1 F H ps2 c2 B O W; apply add_paragraphs_inv in H.
  - destruct H as [-> ->]. destruct ps2; [|discriminate]. eexists; reflexivity.
  - destruct H as (p' & st2 & t' & H1 & H2 & ->). destruct ps2 as [|p2 ps2]; [discriminate|]. cbn [map] in B.
    injection B as B1 B2. apply Forall_cons_iff in W as [W1 W2]. rewrite !list_metas_cons in O.
    pose proof (add_sae_keeps _ _ _ _ _ _ _ H1) as [Bk _].
    apply Forall2_app_length in O as [O1 O2]; [|apply length_metas_bare; congruence].
    unfold unparsed_list in F. cbn [flat_map] in F. rewrite Forall_app in F.
    assert (F1 : c = true \/ unparsed p) by (unfold unparsed; tauto).
    destruct (rerun an p [] [] ab c p' st2 F1 H1 p2 c2 B1 O1 W1) as (c3 & E3). cbn [add_semantics_to_paragraphs].
    rewrite E3. cbn [bind]. destruct st2 as [ab2 cf2]. cbn [st_abbreviations].
    assert (F2 : cf2 = true \/ unparsed_list ps).
    { destruct F as [F|F]; [left|right; apply F]. exact (changed_stays _ _ _ _ _ _ _ H1 F). }
    destruct (IH ab2 cf2 t' st1 F2 H2 ps2 c3 B2 O2 W2) as (c4 & E4). rewrite E4. eexists; reflexivity.
Qed.

Lemma bare_list_metas_inj ps : forall ps', map bare ps = map bare ps' -> list_metas ps = list_metas ps' -> ps = ps'.
Proof.
  induction ps as [|p ps IH]; intros [|p' ps'] B M; try discriminate; [reflexivity|]. cbn [map] in B.
  injection B as B1 B2. rewrite !list_metas_cons in M. apply app_inj_length in M as [M1 M2]; [|now apply length_metas_bare].
  f_equal; [now apply bare_metas_inj|now apply IH].
Qed.
Lemma parsed_list_metas ps : Forall built_sae ps -> forallb is_semantic_parsed ps = true ->
  Forall (fun m => m_semantic m <> None) (list_metas ps).
Proof.
  induction ps as [|p ps IH]; intros W P; [constructor|]. rewrite list_metas_cons. cbn [forallb] in P.
  apply andb_true_iff in P as [P1 P2]. apply Forall_cons_iff in W as [W1 W2]. apply Forall_app. split; [|auto].
  destruct (can_be_semantic_parsed (s_kind p)) eqn:K; [now apply parsed_metas|]. rewrite metas_container by exact K. constructor.
Qed.
Lemma existing_list_metas ps : forall l, abbreviations_in (list_metas ps) = Ok l -> existing_abbreviations_list ps = Ok l.
Proof.
  induction ps as [|p ps IH]; intros l H; [exact H|]. rewrite list_metas_cons in H.
  apply abbreviations_in_app_inv in H as (x & y & X & Y & ->). cbn [existing_abbreviations_list].
  rewrite (existing_metas _ _ X), (IH _ Y). reflexivity.
Qed.

Definition article_metas (a : article) : list sae_meta := list_metas (a_paragraphs a).
Lemma rerun_article an a : forall ab c a1 st1, c = true \/ unparsed_list (a_paragraphs a) ->
  add_semantics_to_article an a (mk_state ab c) = Ok (a1, st1) ->
  forall a2 c2, bare_article a2 = bare_article a -> Forall2 older_meta (article_metas a1) (article_metas a2) ->
  built_article a2 ->
  exists c', add_semantics_to_article an a2 (mk_state ab c2) = Ok (a1, mk_state (st_abbreviations st1) c').
Proof.
  intros ab c a1 st1 F H a2 c2 B O W. pose proof (add_article_stored an a (mk_state ab c) a1 st1 F H) as [S _].
  pose proof (add_article_keeps _ _ _ _ _ H) as [Bk _].
  assert (Wp : Forall built_sae (a_paragraphs a2)).
  { apply built_article_local in W as [_ W]. now apply Forall_forall. }
  unfold add_semantics_to_article. destruct (negb (st_changed (mk_state ab c2)) && article_is_semantic_parsed a2) eqn:Pk.
  - apply andb_true_iff in Pk as [_ Pk]. assert (E : a2 = a1).
    { destruct a2 as [i2 t2 ps2], a1 as [i1 t1 ps1]. unfold bare_article in B, Bk.
      cbn [a_identifier a_title a_paragraphs] in *. rewrite <- B in Bk. injection Bk as -> -> Bk. f_equal.
      apply bare_list_metas_inj; [auto|]. apply older_all; [|exact O]. now apply parsed_list_metas. }
    subst a2. apply stored_all_introduced in S as (l & L & E). rewrite (existing_list_metas _ _ L). cbn [bind].
    exists c2. unfold add_to_state. cbn [st_abbreviations st_changed] in *. now rewrite E.
  - unfold add_semantics_to_article in H.
    destruct (negb (st_changed (mk_state ab c)) && article_is_semantic_parsed a) eqn:Pa.
    + (* nothing to parse in a *)
      apply andb_true_iff in Pa as [Pc Pa]. destruct F as [->|F]; [discriminate|].
      apply bind_ok in H as (l & L & H). injection H as <- <-.
      assert (EM : article_metas a2 = []).
      { destruct (unparsed_parsed_list _ F Pa) as (E1 & _). unfold article_metas at 1, list_metas at 1 in O. rewrite E1 in O. now inversion O. }
      assert (E : a2 = a).
      { destruct a2 as [i2 t2 ps2], a as [i1 t1 ps1]. unfold bare_article in B.
        cbn [a_identifier a_title a_paragraphs] in *. injection B as -> -> B. f_equal.
        apply bare_list_metas_inj; [exact B|]. destruct (unparsed_parsed_list _ F Pa) as (E1 & _).
        unfold list_metas. rewrite E1. exact EM. }
      subst a2. rewrite Pa in Pk. rewrite andb_true_r in Pk. cbn [st_changed] in Pk.
      destruct (unparsed_parsed_list _ F Pa) as (E1 & E2 & E3). rewrite E3 in L. injection L as <-.
      assert (HH : exists c', add_semantics_to_paragraphs an (a_paragraphs a) (mk_state ab c2) = Ok (a_paragraphs a, mk_state ab c')).
      { clear - F Pa. unfold article_is_semantic_parsed in Pa. revert F Pa. induction (a_paragraphs a) as [|p ps IH]; intros F P; [eexists; reflexivity|].
        unfold unparsed_list in F. cbn [flat_map forallb] in *. apply Forall_app in F as [F1 F2]. apply andb_true_iff in P as [P1 P2].
        pose proof (unparsed_parsed p F1 P1) as K. cbn [add_semantics_to_paragraphs]. rewrite add_sae_eq, K, existing_eq, K. cbn [negb bind].
        destruct (negb (st_changed (mk_state ab c2)) && is_semantic_parsed p); unfold add_to_state; cbn [st_abbreviations st_changed bind]; rewrite ?app_nil_r;
          (destruct (IH F2 P2) as (c' & ->); eexists; reflexivity). }
      destruct HH as (c' & HH). rewrite HH. cbn [bind].
      apply built_article_local in W as [W _].
      assert (N : new_article (a_identifier a) (a_title a) (a_paragraphs a) = Ok a).
      { apply new_article_ok. split; [now destruct a|exact W]. }
      rewrite N. cbn [bind]. unfold add_to_state. cbn. rewrite app_nil_r. eauto.
    + apply bind_ok in H as ([ps st2] & A & H). apply bind_ok in H as (b & N & H). injection H as <- <-.
      assert (Bp : map bare (a_paragraphs a2) = map bare (a_paragraphs a) /\ a_identifier a2 = a_identifier a /\ a_title a2 = a_title a).
      { unfold bare_article in B. injection B as -> -> ->. auto. }
      destruct Bp as (Bp & Ei & Et). apply new_article_ok in N as N'. destruct N' as [E _].
      assert (O' : Forall2 older_meta (list_metas ps) (list_metas (a_paragraphs a2))) by (subst b; exact O).
      destruct (rerun_paragraphs an _ _ _ _ _ F A (a_paragraphs a2) c2 Bp O' Wp) as (c3 & E3).
      rewrite E3. cbn [bind]. rewrite Ei, Et, N. cbn [bind]. eauto.
Qed.

Definition metas_in (l : list act_child) : list sae_meta := map s_meta (carriers_in l).
Lemma metas_in_article a l : metas_in (AArticle a :: l) = article_metas a ++ metas_in l.
Proof. unfold metas_in, carriers_in. cbn [articles_in flat_map app]. now rewrite map_app. Qed.
Lemma length_article_metas a b : bare_article a = bare_article b -> List.length (article_metas a) = List.length (article_metas b).
Proof.
  intros H. unfold bare_article in H. injection H as _ _ H. unfold article_metas. revert H. generalize (a_paragraphs a), (a_paragraphs b).
  induction l as [|p l IH]; intros [|p' l'] H; try discriminate; [reflexivity|]. cbn [map] in H. injection H as H1 H2.
  rewrite !list_metas_cons, !app_length. rewrite (length_metas_bare _ _ H1), (IH _ H2). reflexivity.
Qed.
Lemma rerun_children an l : forall ab c l1 st1,
  c = true \/ Forall (fun x => m_semantic (s_meta x) = None) (carriers_in l) ->
  add_semantics_to_children an l (mk_state ab c) = Ok (l1, st1) ->
  forall l2 c2, map bare_child l2 = map bare_child l -> Forall2 older_meta (metas_in l1) (metas_in l2) ->
  (forall x, In (AArticle x) l2 -> built_article x) ->
  exists c', add_semantics_to_children an l2 (mk_state ab c2) = Ok (l1, mk_state (st_abbreviations st1) c').
Proof.
  induction l as [|x l IH]; intros ab c l1 st1 F H l2 c2 B O W; apply add_act_children_inv in H.
  - destruct H as [-> ->]. destruct l2; [|discriminate]. eexists; reflexivity.
  - destruct l2 as [|y l2]; [discriminate|]. cbn [map] in B. injection B as B1 B2.
    assert (W2 : forall x, In (AArticle x) l2 -> built_article x) by (intros z Hz; apply W; now right).
    destruct x as [e|a], y as [e2|a2]; try discriminate; cbn [bare_child] in B1.
    + injection B1 as ->. destruct H as (t' & H & ->). destruct (IH ab c t' st1 F H l2 c2 B2 O W2) as (c' & E).
      cbn [add_semantics_to_children]. rewrite E. eexists; reflexivity.
    + assert (B1' : bare_article a2 = bare_article a) by congruence.
      destruct H as (a1 & st2 & t' & H1 & H2 & ->). rewrite !metas_in_article in O.
      pose proof (add_article_keeps _ _ _ _ _ H1) as [Bk _].
      apply Forall2_app_length in O as [O1 O2]; [|apply length_article_metas; congruence].
      unfold carriers_in in F. cbn [articles_in flat_map app] in F. fold (articles_in l) in F. rewrite Forall_app in F.
      assert (F1 : c = true \/ unparsed_list (a_paragraphs a)) by (unfold unparsed_list; tauto).
      destruct (rerun_article an a ab c a1 st2 F1 H1 a2 c2 B1' O1 (W _ (or_introl eq_refl))) as (c3 & E3).
      pose proof (add_article_stored an a (mk_state ab c) a1 st2 F1 H1) as [_ C]. cbn [st_changed] in C.
      cbn [add_semantics_to_children]. rewrite E3. cbn [bind]. destruct st2 as [ab2 cf2]. cbn [st_abbreviations st_changed] in *.
      assert (F2 : cf2 = true \/ Forall (fun x => m_semantic (s_meta x) = None) (carriers_in l)) by (unfold carriers_in; tauto).
      destruct (IH ab2 cf2 t' st1 F2 H2 l2 c3 B2 O2 W2) as (c4 & E4). rewrite E4. eexists; reflexivity.
Qed.

Lemma bare_children_inj l : forall l', map bare_child l = map bare_child l' -> metas_in l = metas_in l' -> l = l'.
Proof.
  induction l as [|x l IH]; intros [|y l'] B M; try discriminate; [reflexivity|]. cbn [map] in B. injection B as B1 B2.
  destruct x as [e|a], y as [e2|a2]; try discriminate; cbn [bare_child] in B1.
  - injection B1 as ->. f_equal. now apply IH.
  - rewrite !metas_in_article in M. assert (B1' : bare_article a = bare_article a2) by congruence.
    apply app_inj_length in M as [M1 M2]; [|now apply length_article_metas]. f_equal; [|now apply IH].
    f_equal. unfold bare_article in B1'. destruct a as [i t ps], a2 as [i2 t2 ps2]. cbn [a_identifier a_title a_paragraphs] in B1'.
    injection B1' as -> -> Bp. f_equal. now apply bare_list_metas_inj.
Qed.
Lemma bare_act_inj a b : bare_act a = bare_act b -> map s_meta (carriers_of a) = map s_meta (carriers_of b) -> a = b.
Proof.
  intros B M. destruct a as [i d s p l], b as [i' d' s' p' l']. unfold bare_act in B. cbn in B. injection B as -> -> -> -> B.
  f_equal. apply bare_children_inj; [exact B|exact M].
Qed.

Lemma parsed_act_metas a : (forall x, In (AArticle x) (act_children a) -> built_article x) -> act_is_semantic_parsed a = true ->
  Forall (fun m => m_semantic m <> None) (map s_meta (carriers_of a)).
Proof.
  unfold act_is_semantic_parsed, carriers_of, act_articles. induction (act_children a) as [|c l IH]; intros W P; [constructor|].
  assert (W2 : forall x, In (AArticle x) l -> built_article x) by (intros z Hz; apply W; now right).
  destruct c as [e|x]; cbn [flat_map app] in *; [auto|]. cbn [forallb] in P. apply andb_true_iff in P as [P1 P2].
  rewrite map_app. apply Forall_app. split; [|auto]. apply parsed_list_metas; [|exact P1].
  destruct (built_article_local _ (W x (or_introl eq_refl))) as [_ H]. now apply Forall_forall.
Qed.

Lemma act_rerun an a a1 a2 : unparsed_act a -> add_semantics_to_act an a = Ok a1 -> built_act a2 -> older_act a1 a2 ->
  add_semantics_to_act an a2 = Ok a1.
Proof.
  intros F H W [B O]. pose proof (act_keeps _ _ _ H) as Bk.
  assert (W' : forall x, In (AArticle x) (act_children a2) -> built_article x) by (intros x Hx; now apply W).
  unfold add_semantics_to_act. destruct (act_is_semantic_parsed a2) eqn:P2.
  - f_equal. apply bare_act_inj; [exact B|]. apply older_all; [|exact O]. now apply parsed_act_metas.
  - unfold add_semantics_to_act in H. destruct (act_is_semantic_parsed a) eqn:P.
    + exfalso. injection H as <-. assert (EM : carriers_of a = []).
      { clear - F P. unfold carriers_of, unparsed_act, carriers_of, act_is_semantic_parsed in *.
        revert P F. induction (act_articles a) as [|x l IH]; intros P F; [reflexivity|]. cbn [forallb flat_map] in *.
        apply andb_true_iff in P as [P1 P2]. apply Forall_app in F as [F1 F2].
        destruct (unparsed_parsed_list _ F1 P1) as (-> & _). now apply IH. }
      assert (a2 = a); [|congruence]. apply bare_act_inj; [congruence|]. rewrite EM in *. cbn [map] in *. now inversion O.
    + apply bind_ok in H as ([cs st] & A & H). injection H as <-.
      assert (Bc : map bare_child (act_children a2) = map bare_child (act_children a) /\
                   act_identifier a2 = act_identifier a /\ act_publication_date a2 = act_publication_date a /\
                   act_subject a2 = act_subject a /\ act_preamble a2 = act_preamble a).
      { assert (E : bare_act a2 = bare_act a) by congruence. unfold bare_act in E. injection E as -> -> -> -> ->. auto. }
      destruct Bc as (Bc & E1 & E2 & E3 & E4).
      destruct (rerun_children an (act_children a) [] false cs st (or_intror F) A (act_children a2) false Bc O W') as (c' & E).
      unfold START_STATE. rewrite E. cbn [bind]. unfold evolve_act. now rewrite E1, E2, E3, E4.
Qed.
