From Coq Require Import Lia.
From Coq Require Import ZifyBool ZifyNat ZifyN.
From Coq Require Import Permutation Sorted.
From Verif Require Import PyBase PyBaseFacts NumSpec IdModel IdSpec LineModel DateModel RefModel RefSpec
  TreeModel TreeSpec TreeProofs TreeProofs2 TreeProofs3 SemModel SemSpec SemProofs.
Local Open Scope Z_scope.

(** * Whole elements *)

Lemma parse_text_parsed an s p q st m st' : parse_text an s p q st = Ok (m, st') -> m_semantic m <> None.
Proof. intros H. apply parse_text_stored in H as (_ & ab & _ & _ & H). exact H. Qed.

Lemma own_meta_parsed an n p st m st' :
  (match n with Some intro => parse_text an intro p [] st | None => Ok (EMPTY_META, st) end) = Ok (m, st') ->
  m_semantic m <> None.
Proof. destruct n; [apply parse_text_parsed|]. intros [= <- <-]. discriminate. Qed.

(* what a successful reparse built *)
Lemma reparse_inv an e p q st e' st' : reparse an e p q st = Ok (e', st') ->
  exists m st1 cs, e' = mk_sae (s_kind e) (s_identifier e) (s_text e) (s_intro e) cs (s_wrap_up e) m /\
    well_formed e' /\ m_semantic m <> None /\
    match s_text e with
    | Some t => parse_text an t p q st = Ok (m, st1) /\ st' = st1 /\ cs = s_children e /\ cs = None
    | None =>
        (match s_intro e with Some n => parse_text an n p [] st | None => Ok (EMPTY_META, st) end) = Ok (m, st1) /\
        exists l l', s_children e = Some l /\ cs = Some l' /\
          add_children an l (inner_prefix p (s_intro e)) (inner_postfix q (s_wrap_up e)) st1 = Ok (l', st')
    end.
Proof.
  unfold reparse. destruct (s_text e) as [t|] eqn:T; intros H.
  - apply bind_ok in H as ([m st1] & P & H). apply bind_ok in H as (x & N & H). injection H as <- <-.
    apply new_sae_ok in N as [-> W]. exists m, st1, (s_children e). split; [reflexivity|]. split; [exact W|].
    split; [eapply parse_text_parsed; eauto|]. split; [exact P|]. split; [reflexivity|]. split; [reflexivity|].
    destruct (wf_text _ W) as (_ & C & _); [discriminate|exact C].
  - apply bind_ok in H as ([m st1] & P & H). destruct (s_children e) as [l|] eqn:C; [|discriminate].
    apply bind_ok in H as ([l' st2] & A & H). apply bind_ok in H as (x & N & H). injection H as <- <-.
    apply new_sae_ok in N as [-> W]. exists m, st1, (Some l'). split; [reflexivity|]. split; [exact W|].
    split; [eapply own_meta_parsed; eauto|]. split; [exact P|]. exists l, l'. auto.
Qed.

Lemma add_children_inv an l : forall p q st l' st', add_children an l p q st = Ok (l', st') ->
  match l with
  | [] => l' = [] /\ st' = st
  | ChSae c :: t => exists c' st1 t', add_semantics_to_sae an c p q st = Ok (c', st1) /\
      add_children an t p q st1 = Ok (t', st') /\ l' = ChSae c' :: t'
  | c :: t => exists t', add_children an t p q st = Ok (t', st') /\ l' = c :: t'
  end.
Proof.
  destruct l as [|c l]; intros p q st l' st' H; cbn [add_children] in H.
  - injection H as <- <-. auto.
  - destruct c;
      repeat match goal with
      | H : bind _ _ = Ok _ |- _ => apply bind_ok in H as ([? ?] & ? & H)
      end; injection H as <- <-; eauto 10.
Qed.

Definition keeps (e e' : sae) : Prop :=
  bare e' = bare e /\ (can_be_semantic_parsed (s_kind e) = true -> is_semantic_parsed e' = true).

Lemma add_sae_keeps an e : forall p q st e' st',
  add_semantics_to_sae an e p q st = Ok (e', st') -> keeps e e'.
Proof.
  induction e as [e IH] using sae_induct. intros p q st e' st' H. rewrite add_sae_eq in H.
  destruct (negb (st_changed st) && is_semantic_parsed e) eqn:P.
  { apply bind_ok in H as (l & _ & H). injection H as <- <-. split; [reflexivity|]. intros _.
    apply andb_true_iff in P. tauto. }
  destruct (can_be_semantic_parsed (s_kind e)) eqn:K; cbn [negb] in H.
  2:{ injection H as <- <-. split; [reflexivity|congruence]. }
  apply reparse_inv in H as (m & st1 & cs & -> & W & M & H).
  assert (C : match s_children e, cs with
              | None, None => True
              | Some l, Some l' => map bare_ch l' = map bare_ch l /\ all_parsed l' = true
              | _, _ => False
              end).
  { destruct (s_text e) as [t|].
    - destruct H as (_ & _ & E1 & E2). rewrite <- E1, E2. exact I.
    - destruct H as (_ & l & l' & El & -> & A). rewrite El.
      assert (IH' : forall x, In (ChSae x) l -> forall p q st e' st',
                 add_semantics_to_sae an x p q st = Ok (e', st') -> keeps x e').
      { intros x Hx. exact (IH l x El Hx). }
      clear - IH' A. revert st1 l' st' A. generalize (inner_prefix p (s_intro e)) (inner_postfix q (s_wrap_up e)).
      intros p' q'. induction l as [|c l IHl]; intros st1 l' st' A; apply add_children_inv in A.
      + destruct A as [-> ->]. auto.
      + assert (N : forall t', add_children an l p' q' st1 = Ok (t', st') ->
                    map bare_ch t' = map bare_ch l).
        { intros t' A'. eapply IHl in A' as [A' _]; [exact A'|]. intros x Hx. apply IH'. now right. }
        destruct c; try (destruct A as (t' & A & ->); cbn [map bare_ch all_parsed]; rewrite (N _ A); auto).
        destruct A as (c' & st2 & t' & A1 & A2 & ->). eapply IHl in A2 as [A2 A3]; [|intros x Hx; apply IH'; now right].
        eapply IH' in A1 as [B Pa]; [|now left]. cbn [map bare_ch all_parsed]. rewrite A2, B. split; [reflexivity|].
        assert (Ek : s_kind c' = s_kind s) by (rewrite <- (bare_kind c'), B; apply bare_kind). rewrite Ek.
        destruct (can_be_semantic_parsed (s_kind s)); [|exact A3]. rewrite (Pa eq_refl). exact A3. }
  split.
  - rewrite !bare_eq by assumption. cbn [s_kind s_identifier s_text s_intro s_children s_wrap_up].
    destruct (s_children e), cs; try contradiction; [|reflexivity]. destruct C as [-> _]. reflexivity.
  - intros _. rewrite is_parsed_eq. cbn [s_meta s_children]. destruct (m_semantic m); [|congruence].
    destruct (s_children e), cs; try contradiction; tauto.
Qed.

Lemma carriers_bare e : List.length (carriers (bare e)) = List.length (carriers e).
Proof.
  induction e as [e IH] using sae_induct. destruct (can_be_semantic_parsed (s_kind e)) eqn:K.
  - rewrite (carriers_eq (bare e)) by (rewrite bare_kind; exact K). rewrite (carriers_eq e) by exact K.
    rewrite bare_eq by exact K. cbn [List.length s_children]. f_equal. destruct (s_children e) as [l|]; [|reflexivity].
    assert (IH' : forall x, In (ChSae x) l -> List.length (carriers (bare x)) = List.length (carriers x)) by eauto.
    clear -IH'. induction l as [|c l IHl]; [reflexivity|]. cbn [map child_carriers flat_map]. rewrite !app_length.
    fold (child_carriers (map bare_ch l)). fold (child_carriers l). rewrite IHl by (intros x Hx; apply IH'; now right).
    f_equal. destruct c; cbn [bare_ch]; try reflexivity. apply IH'. now left.
  - now rewrite bare_container.
Qed.

(* a meta that the previous run may have left *)
Lemma stored_none an known p q : stored an known (mk_reading None p q) EMPTY_META.
Proof. reflexivity. Qed.

Definition fresh (st : sem_state) (e : sae) : Prop := st_changed st = true \/ unparsed e.

Lemma parse_text_changed an s p q st m st' : parse_text an s p q st = Ok (m, st') ->
  st_changed st = true -> st_changed st' = true.
Proof.
  unfold parse_text. intros H C. apply bind_ok in H as (t & T & H).
  destruct (10000 <? _); [injection H as <- <-; exact C|]. destruct (negb _); [injection H as <- <-; exact C|].
  apply bind_ok in H as (a & A & H). apply bind_ok in H as (refs & R & H). injection H as <- <-.
  destruct (an_abbreviations a); [exact C|reflexivity].
Qed.
Lemma changed_stays an e : forall p q st e' st', add_semantics_to_sae an e p q st = Ok (e', st') ->
  st_changed st = true -> st_changed st' = true.
Proof.
  pose proof (parse_text_changed an) as PT.
  induction e as [e IH] using sae_induct. intros p q st e' st' H C. rewrite add_sae_eq, C in H. cbn [negb andb] in H.
  destruct (negb (can_be_semantic_parsed (s_kind e))); [injection H as <- <-; exact C|].
  apply reparse_inv in H as (m & st1 & cs & _ & _ & _ & H). destruct (s_text e) as [t|].
  - destruct H as (H & -> & _). eauto.
  - destruct H as (H & l & l' & El & -> & A).
    assert (C1 : st_changed st1 = true).
    { destruct (s_intro e); [eauto|]. injection H as <- <-. exact C. }
    assert (IH' : forall x, In (ChSae x) l -> forall p q st e' st',
                 add_semantics_to_sae an x p q st = Ok (e', st') -> st_changed st = true -> st_changed st' = true) by eauto.
    clear - IH' A C1. revert st1 l' st' A C1. generalize (inner_prefix p (s_intro e)) (inner_postfix q (s_wrap_up e)).
    intros p' q'. induction l as [|c l IHl]; intros st1 l' st' A C1; apply add_children_inv in A.
    + destruct A as [-> ->]. auto.
    + assert (IH2 : forall x, In (ChSae x) l -> forall p q st e' st',
                 add_semantics_to_sae an x p q st = Ok (e', st') -> st_changed st = true -> st_changed st' = true)
        by (intros x Hx; apply IH'; now right). specialize (IHl IH2).
      destruct c; try (destruct A as (t' & A & ->); eauto).
      destruct A as (c' & st2 & t' & A1 & A2 & ->). eapply IHl; [exact A2|]. eapply IH'; eauto. now left.
Qed.

Lemma stored_all_app an known rds ms mid rds' ms' after : stored_all an known rds ms mid ->
  stored_all an mid rds' ms' after -> stored_all an known (rds ++ rds') (ms ++ ms') after.
Proof. induction 1; cbn; [auto|]. intros H'. econstructor; eauto. Qed.

Definition child_metas (l : list child) : list sae_meta := map s_meta (child_carriers l).
Lemma child_metas_cons c l : child_metas (c :: l) = (match c with ChSae s => metas s | _ => [] end) ++ child_metas l.
Proof. unfold child_metas, child_carriers, metas. cbn [flat_map]. rewrite map_app. destruct c; reflexivity. Qed.
Lemma metas_eq e : can_be_semantic_parsed (s_kind e) = true ->
  metas e = s_meta e :: match s_children e with None => [] | Some l => child_metas l end.
Proof. intros K. unfold metas. rewrite carriers_eq by exact K. cbn [map]. destruct (s_children e); reflexivity. Qed.
Lemma metas_container e : can_be_semantic_parsed (s_kind e) = false -> metas e = [].
Proof. intros K. unfold metas. now rewrite carriers_container. Qed.

Lemma add_sae_stored an e : forall p q st e' st', st_changed st = true \/ unparsed e ->
  add_semantics_to_sae an e p q st = Ok (e', st') ->
  stored_all an (st_abbreviations st) (readings e p q) (metas e') (st_abbreviations st').
Proof.
  induction e as [e IH] using sae_induct. intros p q st e' st' F H. rewrite add_sae_eq in H.
  destruct (can_be_semantic_parsed (s_kind e)) eqn:K; cbn [negb] in H.
  2:{ destruct (negb (st_changed st) && is_semantic_parsed e).
      - apply bind_ok in H as (l & L & H). injection H as <- <-. rewrite existing_eq, K in L. injection L as <-.
        rewrite metas_container, readings_container by assumption. cbn. rewrite app_nil_r. constructor.
      - injection H as <- <-. rewrite metas_container, readings_container by assumption. constructor. }
  assert (P : negb (st_changed st) && is_semantic_parsed e = false).
  { destruct F as [->|F]; [reflexivity|]. unfold unparsed in F. rewrite carriers_eq in F by exact K.
    apply Forall_cons_iff in F as [F _]. rewrite is_parsed_eq, F. apply andb_false_r. }
  rewrite P in H. apply reparse_inv in H as (m & st1 & cs & -> & W & M & H).
  rewrite metas_eq by exact K. cbn [s_meta s_children]. destruct (s_text e) as [t|] eqn:T.
  - destruct H as (H & -> & E1 & ->). rewrite (readings_text e p q t) by assumption.
    apply parse_text_stored in H as (S & ab & A & B & _). econstructor; [exact S|exact A|]. rewrite <- B. constructor.
  - destruct H as (H & l & l' & El & -> & A). rewrite (readings_children e p q l) by assumption.
    assert (S : stored an (st_abbreviations st) (mk_reading (s_intro e) p []) m /\
                exists ab, m_abbreviations m = Some ab /\ st_abbreviations st1 = st_abbreviations st ++ ab).
    { destruct (s_intro e) as [n|].
      - apply parse_text_stored in H as (S & ab & X & Y & _). eauto.
      - injection H as <- <-. split; [reflexivity|]. exists []. rewrite app_nil_r. auto. }
    destruct S as (S & ab & AB & B). econstructor; [exact S|exact AB|]. rewrite <- B.
    assert (F1 : st_changed st1 = true \/ Forall (fun x => m_semantic (s_meta x) = None) (child_carriers l)).
    { destruct F as [F|F].
      - left. destruct (s_intro e) as [n|]; [eapply parse_text_changed; eauto|injection H as <- <-; exact F].
      - right. unfold unparsed in F. rewrite carriers_eq, El in F by exact K. now apply Forall_cons_iff in F as [_ F]. }
    assert (IH' : forall x, In (ChSae x) l -> forall p q st e' st', st_changed st = true \/ unparsed x ->
       add_semantics_to_sae an x p q st = Ok (e', st') ->
       stored_all an (st_abbreviations st) (readings x p q) (metas e') (st_abbreviations st')) by eauto.
    clear - IH' A F1. revert st1 l' st' A F1. generalize (inner_prefix p (s_intro e)) (inner_postfix q (s_wrap_up e)).
    intros p' q'. induction l as [|c l IHl]; intros st1 l' st' A F1; apply add_children_inv in A.
    + destruct A as [-> ->]. constructor.
    + assert (IH2 : forall x, In (ChSae x) l -> forall p q st e' st', st_changed st = true \/ unparsed x ->
         add_semantics_to_sae an x p q st = Ok (e', st') ->
         stored_all an (st_abbreviations st) (readings x p q) (metas e') (st_abbreviations st'))
        by (intros x Hx; apply IH'; now right). specialize (IHl IH2).
      cbn [child_readings flat_map]. fold (child_readings l p' q').
      cbn [child_carriers flat_map] in F1. fold (child_carriers l) in F1. rewrite Forall_app in F1.
      destruct c; try (destruct A as (t' & A & ->); rewrite child_metas_cons; cbn [app]; eapply IHl; eauto; tauto).
      destruct A as (c' & st2 & t' & A1 & A2 & ->). rewrite child_metas_cons. eapply stored_all_app.
      * eapply IH'; [now left| |exact A1]. unfold unparsed. tauto.
      * eapply IHl; [exact A2|]. destruct F1 as [F1|F1]; [|tauto]. left. eapply changed_stays; eauto.
Qed.
