From Coq Require Import Lia.
From Coq Require Import ZifyBool ZifyNat ZifyN.
From Coq Require Import Permutation Sorted.
From Verif Require Import PyBase PyBaseFacts NumSpec IdModel IdSpec LineModel DateModel RefModel RefSpec
  TreeModel TreeSpec TreeProofs TreeProofs2 TreeProofs3 SemModel SemSpec SemProofs SemProofs2 SemProofs3.
Local Open Scope Z_scope.

(** * Articles and acts *)

Lemma add_paragraphs_inv an ps : forall st ps' st', add_semantics_to_paragraphs an ps st = Ok (ps', st') ->
  match ps with
  | [] => ps' = [] /\ st' = st
  | p :: t => exists p' st1 t', add_semantics_to_sae an p [] [] st = Ok (p', st1) /\
      add_semantics_to_paragraphs an t st1 = Ok (t', st') /\ ps' = p' :: t'
  end.
Proof.
  destruct ps as [|p ps]; intros st ps' st' H; cbn [add_semantics_to_paragraphs] in H.
  - injection H as <- <-. auto.
  - repeat match goal with H : bind _ _ = Ok _ |- _ => apply bind_ok in H as ([? ?] & ? & H) end.
    injection H as <- <-. eauto 10.
Qed.
Lemma add_paragraphs_keeps an ps : forall st ps' st', add_semantics_to_paragraphs an ps st = Ok (ps', st') ->
  Forall2 keeps ps ps'.
Proof.
  induction ps as [|p ps IH]; intros st ps' st' H; apply add_paragraphs_inv in H.
  - destruct H as [-> _]. constructor.
  - destruct H as (p' & st1 & t' & H1 & H2 & ->). constructor; [eapply add_sae_keeps; eauto|eauto].
Qed.
Lemma keeps_bare ps ps' : Forall2 keeps ps ps' -> map bare ps' = map bare ps.
Proof. induction 1 as [|p p' ps ps' [B _] _ IH]; cbn; [reflexivity|congruence]. Qed.
Lemma keeps_parsed ps ps' : Forall2 keeps ps ps' -> Forall (fun p => can_be_semantic_parsed (s_kind p) = true) ps ->
  forallb is_semantic_parsed ps' = true.
Proof.
  induction 1 as [|p p' ps ps' [_ P] _ IH]; cbn; [reflexivity|]. intros F. apply Forall_cons_iff in F as [F1 F2].
  now rewrite (P F1), IH.
Qed.

Definition parseable_paragraphs (a : article) : Prop :=
  Forall (fun p => can_be_semantic_parsed (s_kind p) = true) (a_paragraphs a).
Lemma paragraphs_parseable a : paragraphs_only a -> parseable_paragraphs a.
Proof. unfold paragraphs_only, parseable_paragraphs. apply Forall_impl. intros p ->. reflexivity. Qed.

Lemma add_article_keeps an a st a' st' : add_semantics_to_article an a st = Ok (a', st') ->
  bare_article a' = bare_article a /\ (parseable_paragraphs a -> article_is_semantic_parsed a' = true).
Proof.
  unfold add_semantics_to_article. destruct (negb (st_changed st) && article_is_semantic_parsed a) eqn:P; intros H.
  - apply bind_ok in H as (l & _ & H). injection H as <- <-. split; [reflexivity|]. intros _. apply andb_true_iff in P. tauto.
  - apply bind_ok in H as ([ps st1] & A & H). apply bind_ok in H as (b & N & H). injection H as <- <-.
    apply new_article_ok in N as [-> _]. apply add_paragraphs_keeps in A. split.
    + unfold bare_article. cbn. now rewrite (keeps_bare _ _ A).
    + unfold parseable_paragraphs, article_is_semantic_parsed. cbn. now apply keeps_parsed.
Qed.

Lemma add_act_children_inv an l : forall st l' st', add_semantics_to_children an l st = Ok (l', st') ->
  match l with
  | [] => l' = [] /\ st' = st
  | AArticle a :: t => exists a' st1 t', add_semantics_to_article an a st = Ok (a', st1) /\
      add_semantics_to_children an t st1 = Ok (t', st') /\ l' = AArticle a' :: t'
  | c :: t => exists t', add_semantics_to_children an t st = Ok (t', st') /\ l' = c :: t'
  end.
Proof.
  destruct l as [|c l]; intros st l' st' H; cbn [add_semantics_to_children] in H.
  - injection H as <- <-. auto.
  - destruct c; repeat match goal with H : bind _ _ = Ok _ |- _ => apply bind_ok in H as ([? ?] & ? & H) end;
      injection H as <- <-; eauto 10.
Qed.
Definition articles_in (l : list act_child) : list article :=
  flat_map (fun c => match c with AArticle x => [x] | AStruct _ => [] end) l.
Lemma add_act_children_keeps an l : forall st l' st', add_semantics_to_children an l st = Ok (l', st') ->
  map bare_child l' = map bare_child l /\
  (Forall parseable_paragraphs (articles_in l) -> forallb article_is_semantic_parsed (articles_in l') = true).
Proof.
  induction l as [|c l IH]; intros st l' st' H; apply add_act_children_inv in H.
  - destruct H as [-> _]. auto.
  - destruct c as [e|a].
    + destruct H as (t' & H & ->). apply IH in H as [H1 H2]. cbn. split; [now rewrite H1|exact H2].
    + destruct H as (a' & st1 & t' & H1 & H2 & ->). apply IH in H2 as [H2 H3]. apply add_article_keeps in H1 as [H1 H4].
      split; [cbn; now rewrite H1, H2|]. intros F. apply Forall_cons_iff in F as [F1 F2].
      change (article_is_semantic_parsed a' && forallb article_is_semantic_parsed (articles_in t') = true).
      now rewrite (H4 F1), (H3 F2).
Qed.

Lemma act_keeps an a a' : add_semantics_to_act an a = Ok a' -> bare_act a' = bare_act a.
Proof.
  unfold add_semantics_to_act. destruct (act_is_semantic_parsed a); intros H; [injection H as <-; reflexivity|].
  apply bind_ok in H as ([cs st] & A & H). injection H as <-. apply add_act_children_keeps in A as [A _].
  unfold bare_act, evolve_act. cbn. now rewrite A.
Qed.
Lemma act_parsed an a a' : (forall x, In (AArticle x) (act_children a) -> paragraphs_only x) ->
  add_semantics_to_act an a = Ok a' -> act_is_semantic_parsed a' = true.
Proof.
  unfold add_semantics_to_act. intros F. destruct (act_is_semantic_parsed a) eqn:P; intros H; [injection H as <-; exact P|].
  apply bind_ok in H as ([cs st] & A & H). injection H as <-. apply add_act_children_keeps in A as [_ A].
  apply A. apply Forall_forall. intros x Hx. apply paragraphs_parseable, F. unfold articles_in in Hx.
  apply in_flat_map in Hx as (c & Hc & Hx). destruct c; [destruct Hx|]. destruct Hx as [->|[]]. exact Hc.
Qed.
Lemma act_idempotent an an' a a' : (forall x, In (AArticle x) (act_children a) -> paragraphs_only x) ->
  add_semantics_to_act an a = Ok a' -> add_semantics_to_act an' a' = Ok a'.
Proof. intros F H. unfold add_semantics_to_act. now rewrite (act_parsed an a a' F H). Qed.

(** * Everything that is stored *)

Lemma add_paragraphs_changed an ps : forall st ps' st', add_semantics_to_paragraphs an ps st = Ok (ps', st') ->
  st_changed st = true -> st_changed st' = true.
Proof.
  induction ps as [|p ps IH]; intros st ps' st' H C; apply add_paragraphs_inv in H.
  - destruct H as [_ ->]. exact C.
  - destruct H as (p' & st1 & t' & H1 & H2 & ->). eapply IH; [exact H2|]. eapply changed_stays; eauto.
Qed.
Definition unparsed_list (ps : list sae) : Prop := Forall (fun x => m_semantic (s_meta x) = None) (flat_map carriers ps).
Lemma add_paragraphs_stored an ps : forall st ps' st', st_changed st = true \/ unparsed_list ps ->
  add_semantics_to_paragraphs an ps st = Ok (ps', st') ->
  stored_all an (st_abbreviations st) (flat_map (fun p => readings p [] []) ps) (map s_meta (flat_map carriers ps'))
    (st_abbreviations st').
Proof.
  induction ps as [|p ps IH]; intros st ps' st' F H; apply add_paragraphs_inv in H.
  - destruct H as [-> ->]. constructor.
  - destruct H as (p' & st1 & t' & H1 & H2 & ->). cbn [flat_map]. rewrite map_app.
    unfold unparsed_list in F. cbn [flat_map] in F. rewrite Forall_app in F. eapply stored_all_app.
    + eapply add_sae_stored; [|exact H1]. unfold unparsed. tauto.
    + eapply IH; [|exact H2]. destruct F as [F|F]; [left; eapply changed_stays; eauto|right; apply F].
Qed.
(* an unparsed element that is marked as parsed has nothing to parse *)
Lemma unparsed_parsed e : unparsed e -> is_semantic_parsed e = true -> can_be_semantic_parsed (s_kind e) = false.
Proof.
  intros F P. destruct (can_be_semantic_parsed (s_kind e)) eqn:K; [|reflexivity]. exfalso.
  unfold unparsed in F. rewrite carriers_eq in F by exact K. apply Forall_cons_iff in F as [F _].
  rewrite is_parsed_eq, F in P. discriminate.
Qed.
Lemma unparsed_parsed_list ps : unparsed_list ps -> forallb is_semantic_parsed ps = true ->
  flat_map carriers ps = [] /\ flat_map (fun p => readings p [] []) ps = [] /\ existing_abbreviations_list ps = Ok [].
Proof.
  induction ps as [|p ps IH]; intros F P; [auto|]. unfold unparsed_list in F. cbn [flat_map forallb] in *.
  apply Forall_app in F as [F1 F2]. apply andb_true_iff in P as [P1 P2]. destruct (IH F2 P2) as (E1 & E2 & E3).
  pose proof (unparsed_parsed p F1 P1) as K. rewrite carriers_container, readings_container, E1, E2 by exact K.
  split; [reflexivity|]. split; [reflexivity|]. cbn [existing_abbreviations_list]. rewrite existing_eq, K, E3. reflexivity.
Qed.
Lemma add_article_stored an a st a' st' : st_changed st = true \/ unparsed_list (a_paragraphs a) ->
  add_semantics_to_article an a st = Ok (a', st') ->
  stored_all an (st_abbreviations st) (flat_map (fun p => readings p [] []) (a_paragraphs a))
    (map s_meta (flat_map carriers (a_paragraphs a'))) (st_abbreviations st') /\
  (st_changed st = true -> st_changed st' = true).
Proof.
  unfold add_semantics_to_article. intros F. destruct (negb (st_changed st) && article_is_semantic_parsed a) eqn:P; intros H.
  - apply andb_true_iff in P as [P1 P2]. destruct F as [F|F]; [rewrite F in P1; discriminate|].
    destruct (unparsed_parsed_list _ F P2) as (E1 & E2 & E3). rewrite E3 in H. injection H as <- <-.
    rewrite E1, E2. unfold add_to_state. cbn. rewrite app_nil_r. split; [constructor|auto].
  - apply bind_ok in H as ([ps st1] & A & H). apply bind_ok in H as (b & N & H). injection H as <- <-.
    apply new_article_ok in N as [-> _]. split; [eapply add_paragraphs_stored; eauto|]. eapply add_paragraphs_changed; eauto.
Qed.
Definition carriers_in (l : list act_child) : list sae := flat_map (fun x => flat_map carriers (a_paragraphs x)) (articles_in l).
Definition readings_in (l : list act_child) : list reading :=
  flat_map (fun x => flat_map (fun p => readings p [] []) (a_paragraphs x)) (articles_in l).
Lemma add_act_children_stored an l : forall st l' st',
  st_changed st = true \/ Forall (fun x => m_semantic (s_meta x) = None) (carriers_in l) ->
  add_semantics_to_children an l st = Ok (l', st') ->
  stored_all an (st_abbreviations st) (readings_in l) (map s_meta (carriers_in l')) (st_abbreviations st').
Proof.
  induction l as [|c l IH]; intros st l' st' F H; apply add_act_children_inv in H.
  - destruct H as [-> ->]. constructor.
  - destruct c as [e|a].
    + destruct H as (t' & H & ->). exact (IH st t' st' F H).
    + destruct H as (a' & st1 & t' & H1 & H2 & ->).
      unfold carriers_in, readings_in in *. cbn [articles_in flat_map app] in *. fold (articles_in l) in *. fold (articles_in t').
      rewrite map_app. rewrite Forall_app in F. apply add_article_stored in H1 as [H1 C]; [|unfold unparsed_list; tauto].
      eapply stored_all_app; [exact H1|]. eapply IH; [|exact H2]. tauto.
Qed.
Lemma act_stored an a a' : unparsed_act a -> add_semantics_to_act an a = Ok a' ->
  exists known, stored_all an [] (readings_of a) (map s_meta (carriers_of a')) known.
Proof.
  unfold add_semantics_to_act. intros F. destruct (act_is_semantic_parsed a) eqn:P; intros H.
  - injection H as <-. exists []. unfold carriers_of, readings_of, unparsed_act, carriers_of, act_is_semantic_parsed in *.
    revert P F. induction (act_articles a) as [|x l IH]; intros P F; [constructor|]. cbn [forallb flat_map] in *.
    apply andb_true_iff in P as [P1 P2]. apply Forall_app in F as [F1 F2].
    destruct (unparsed_parsed_list _ F1 P1) as (-> & -> & _). now apply IH.
  - apply bind_ok in H as ([cs st] & A & H). injection H as <-. exists (st_abbreviations st).
    exact (add_act_children_stored an (act_children a) START_STATE cs st (or_intror F) A).
Qed.

(** * Later articles do not influence earlier ones *)

Lemma add_act_children_app an l1 : forall l2 st l' st', add_semantics_to_children an (l1 ++ l2) st = Ok (l', st') ->
  exists l1' l2' st1, add_semantics_to_children an l1 st = Ok (l1', st1) /\
    add_semantics_to_children an l2 st1 = Ok (l2', st') /\ l' = l1' ++ l2'.
Proof.
  induction l1 as [|c l1 IH]; intros l2 st l' st' H.
  - exists [], l', st. auto.
  - cbn [app] in H. apply add_act_children_inv in H. destruct c as [e|a].
    + destruct H as (t' & H & ->). apply IH in H as (x & y & s & H1 & H2 & ->). cbn [add_semantics_to_children].
      rewrite H1. cbn [bind]. eexists _, y, s. split; [reflexivity|]. auto.
    + destruct H as (a' & st1 & t' & H1 & H & ->). apply IH in H as (x & y & s & H2 & H3 & ->). cbn [add_semantics_to_children].
      rewrite H1. cbn [bind]. rewrite H2. cbn [bind]. eexists _, y, s. split; [reflexivity|]. auto.
Qed.
(* parsed articles are kept while nothing has changed *)
Lemma add_parsed_children an l : forall st l' st', st_changed st = false ->
  forallb article_is_semantic_parsed (articles_in l) = true ->
  add_semantics_to_children an l st = Ok (l', st') -> l' = l /\ st_changed st' = false.
Proof.
  induction l as [|c l IH]; intros st l' st' C P H; apply add_act_children_inv in H.
  - destruct H as [-> ->]. auto.
  - destruct c as [e|a].
    + destruct H as (t' & H & ->). apply IH in H as [-> H]; auto.
    + destruct H as (a' & st1 & t' & H1 & H2 & ->). cbn [articles_in flat_map app forallb] in P. fold (articles_in l) in P.
      apply andb_true_iff in P as [P1 P2]. unfold add_semantics_to_article in H1. rewrite C, P1 in H1. cbn [negb andb] in H1.
      apply bind_ok in H1 as (x & _ & H1). injection H1 as <- <-.
      apply IH in H2 as [-> H2]; auto.
Qed.
Lemma articles_in_app l1 l2 : articles_in (l1 ++ l2) = articles_in l1 ++ articles_in l2.
Proof. unfold articles_in. now rewrite flat_map_app. Qed.
Lemma act_prefix an a l1 l2 a' : act_children a = l1 ++ l2 -> add_semantics_to_act an a = Ok a' ->
  exists l1' l2', act_children a' = l1' ++ l2' /\
    add_semantics_to_act an (evolve_act a l1) = Ok (evolve_act a l1').
Proof.
  intros E. unfold add_semantics_to_act.
  assert (X : act_is_semantic_parsed a = forallb article_is_semantic_parsed (articles_in l1) && forallb article_is_semantic_parsed (articles_in l2)).
  { unfold act_is_semantic_parsed, act_articles. rewrite E. fold (articles_in (l1 ++ l2)). now rewrite articles_in_app, forallb_app. }
  assert (Y : act_is_semantic_parsed (evolve_act a l1) = forallb article_is_semantic_parsed (articles_in l1)) by reflexivity.
  rewrite X, Y. destruct (forallb article_is_semantic_parsed (articles_in l1)) eqn:P1; cbn [andb].
  - destruct (forallb article_is_semantic_parsed (articles_in l2)); intros H.
    + injection H as <-. exists l1, l2. auto.
    + apply bind_ok in H as ([cs st] & A & H). injection H as <-. rewrite E in A.
      apply add_act_children_app in A as (l1' & l2' & st1 & A1 & A2 & ->). apply add_parsed_children in A1 as [-> _]; auto.
      exists l1, l2'. auto.
  - intros H. apply bind_ok in H as ([cs st] & A & H). injection H as <-. rewrite E in A.
    apply add_act_children_app in A as (l1' & l2' & st1 & A1 & A2 & ->). exists l1', l2'. split; [reflexivity|].
    cbn [evolve_act act_children]. rewrite A1. reflexivity.
Qed.
